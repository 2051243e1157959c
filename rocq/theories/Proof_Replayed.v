(** The replay window and sequence numbers of two or more bytes: the window is updated with
    the first byte of the Partial IV only. *)
From Verif Require Import Base Proof_Base Model_Common Model_Crypto Model_OscorePrims Model_Coap Spec_Coap Proof_Coap
  Model_Interactions Spec_Interactions Proof_Interactions Model_Context Model_Send Proof_Send
  Model_Recv Proof_Recv Model_Replay Spec_Replay Proof_Replay Model_Run Proof_Options Spec_Session Proof_Run Proof_Session Proof_Echo
  Spec_OuterCode Proof_OuterCode Spec_Replayed.

(** Recording a small number leaves every larger one as it is. *)
Lemma update_smaller H w b n : Inv H w -> b < n -> rw_valid n (snd (rw_update b w)) = rw_valid n w.
Proof.
  intros HI L. destruct (rw_valid b w) eqn:V; [|rewrite update_rejected by assumption; reflexivity].
  pose proof (update_inv H w b HI V) as HI'. rewrite (valid_matches_spec _ _ n HI'), (valid_matches_spec _ _ n HI).
  unfold spec_accepts, larger_accepted. cbn [existsb filter].
  rewrite (proj2 (N.eqb_neq n b)) by lia. rewrite (proj2 (N.ltb_ge n b)) by lia. reflexivity.
Qed.

Section WithCrypto.
Variable cr : crypto.

(** decrypt_wrapper does not look at the window. *)
Lemma decrypt_wrapper_win c w nn k :
  decrypt_wrapper cr (set_win c w) nn k = let (c', r) := decrypt_wrapper cr c nn k in (set_win c' w, r).
Proof.
  unfold decrypt_wrapper. cbn [set_win c_inter c_iv c_nonce c_alg c_rkey].
  destruct (read_wrapper _ _ _ _) as [[rp rk]|?|?]; cbn [tryc]; try reflexivity.
  destruct (match nn with Some _ => _ | None => _ end) as [n|?|?] eqn:EN; cbn [tryc]; try reflexivity.
  destruct (create_aad _ _ _ _) as [a|?|?]; cbn [tryc]; try reflexivity.
  destruct (oscore_cose_decrypt _ _ _ _ _) as [pt|?|?]; cbn [tryc]; try reflexivity.
  destruct (o_coap_pkg_generate pt k) as [out|?|?]; cbn [tryc]; try (destruct nn; reflexivity).
  destruct (uri_path_create _ _) as [uri|?|?]; cbn [tryc]; try (destruct nn; reflexivity).
  destruct nn; cbn [set_nonce set_win c_inter]; destruct (update_wrapper _ _ _ _ _ _); reflexivity.
Qed.

(** A request that was decrypted is decrypted again. *)
Lemma decrypt_twice c o k pt out c1 : table_ok (c_inter c) ->
  decrypt_wrapper cr c (Some o) k = (c1, Ok (pt, out)) -> is_request k = true -> is_request out = true ->
  decrypt_wrapper cr c1 (Some o) k = (c1, Ok (pt, out)).
Proof.
  intros HT H RQ RO. pose proof H as HE. apply decrypt_wrapper_effect in HE as ((SK & SR & _) & _ & _).
  apply decrypt_wrapper_ok in H as (rpiv & rkid & nonce & aad & uri & (RD & NO & AA & DE) & CN & PG & UP & UW).
  apply type_request in RO. apply type_request in RQ.
  destruct (update_again _ _ _ _ _ _ _ HT RO UW) as (UW2 & _).
  assert (D3 : c_iv c1 = c_iv c) by (unfold same_keys in SK; tauto). assert (D4 : c_alg c1 = c_alg c) by (unfold same_keys in SK; tauto).
  assert (D5 : c_rkey c1 = c_rkey c) by (unfold same_keys in SK; tauto).
  destruct NO as (kid & KV & NO). unfold decrypt_wrapper.
  assert (RW : read_wrapper (coap_get_message_type k) (k_token k) (c_inter c1)
    (Some (co_piv o, takeN (co_kid_len o) (co_kid_mem o))) = Ok (rpiv, rkid)).
  { destruct RQ as [T|[T|T]]; rewrite T in *; exact RD. }
  rewrite RW. cbn [tryc]. rewrite KV. cbn [bind]. rewrite D3, NO. cbn [tryc]. rewrite D4, AA. cbn [tryc].
  rewrite D5, DE. cbn [tryc]. rewrite PG. cbn [tryc]. rewrite UP. cbn [tryc].
  cbn [set_nonce c_inter]. rewrite UW2. cbn [tryc]. f_equal. rewrite <- CN. destruct c1; reflexivity.
Qed.

(** What a successful call for a request did, when the window applies. *)
Lemma request_accepted c input c' ok k o : oscore2coap_core cr c input = (c', Ok ok) ->
  coap_deserialize input = Ok k -> oscore_option_parser (k_opts k) = Ok o -> is_request k = true -> c_echo c = ECHO_SYNCHRONIZED ->
  exists c1 pt b t, decrypt_wrapper cr c (Some o) k = (c1, Ok (pt, ok)) /\ co_piv o = b :: t /\
    c' = set_win c1 (snd (rw_update b (c_win c))).
Proof.
  intros H EK EO RQ EE. apply recv_core_inv in H as [[_ H]|(k' & o' & _ & EK' & EO' & H)]; [discriminate|].
  assert (k' = k) by congruence. subst k'. assert (o' = o) by congruence. subst o'. rewrite RQ in H.
  apply recv_request_inv in H as [[_ H]|(ssn & rd & _ & _ & _ & _ & c1 & D & H)]; [discriminate|].
  destruct H as [(_ & _ & H)|(pt & out & -> & H)]; [discriminate|]. rewrite EE in H.
  destruct H as [(_ & _ & H)|(b & t & EB & -> & H)]; [discriminate|]. injection H as <-. exists c1, pt, b, t. auto.
Qed.

(** ... and that it works again as long as the number is still valid. *)
Lemma request_again c input c' ok k o : table_ok (c_inter c) -> oscore2coap_core cr c input = (c', Ok ok) ->
  coap_deserialize input = Ok k -> oscore_option_parser (k_opts k) = Ok o -> is_request k = true -> is_request ok = true ->
  c_echo c = ECHO_SYNCHRONIZED -> (forall n, piv2ssn (co_piv o) = Ok n -> rw_valid n (c_win c') = true) ->
  exists w, oscore2coap_core cr c' input = (set_win c' w, Ok ok).
Proof.
  intros HT H EK EO RQ RO EE V. pose proof H as H0.
  destruct (request_accepted _ _ _ _ _ _ H EK EO RQ EE) as (c1 & pt & b & t & D & EB & E').
  pose proof (decrypt_twice _ _ _ _ _ _ HT D RQ RO) as D2.
  pose proof D as DE. apply decrypt_wrapper_effect in DE as ((SK & (_ & _ & _ & SE) & SS & _) & _).
  unfold oscore2coap_core in H0 |- *. apply tryc_ok in H0 as ([] & HF & H0). apply tryc_ok in H0 as (k' & EK' & H0).
  assert (k' = k) by congruence. subst k'. apply tryc_ok in H0 as (o' & EO' & H0). assert (o' = o) by congruence. subst o'.
  apply tryc_ok in H0 as ([] & EN & H0). rewrite RQ in H0.
  assert (CF : check_context_freshness c' = Ok tt).
  { unfold check_context_freshness in *. rewrite E'. cbn [set_win c_ssn]. rewrite SS. exact HF. }
  rewrite CF. cbn [tryc]. rewrite EK. cbn [tryc]. rewrite EO. cbn [tryc]. rewrite EN. cbn [tryc]. rewrite RQ.
  assert (RI : c_rid c' = c_rid c) by (rewrite E'; cbn [set_win c_rid]; unfold same_keys in SK; tauto).
  assert (EC : c_echo c' = ECHO_SYNCHRONIZED) by (rewrite E'; cbn; congruence).
  unfold recv_request in *. rewrite RI.
  destruct (negb _) in H0 |- *; [discriminate|]. apply tryc_ok in H0 as (kid & KV & H0). rewrite KV. cbn [tryc].
  destruct (negb _) in H0 |- *; [discriminate|]. apply tryc_ok in H0 as (ssn & ES & H0). rewrite ES. cbn [tryc].
  rewrite EC, (V _ ES). cbn [negb].
  assert (D3 : decrypt_wrapper cr c' (Some o) k = (c', Ok (pt, ok))).
  { rewrite E', decrypt_wrapper_win, D2. reflexivity. }
  rewrite D3. cbn [callc]. rewrite EC, EB. exists (snd (rw_update b (c_win c'))). reflexivity.
Qed.

(** ** Contexts that never went through the Echo exchange *)
Definition young (c : ctx) : Prop := c_echo c = ECHO_SYNCHRONIZED /\ exists H, Inv H (c_win c) /\ Forall (fun x => x < 256) H.

Lemma young_valid c n : young c -> 256 <= n -> rw_valid n (c_win c) = true.
Proof.
  intros (_ & H & HI & HF) L. rewrite (valid_matches_spec _ _ n HI). unfold spec_accepts, larger_accepted.
  rewrite Forall_forall in HF. apply andb_true_iff. split.
  - apply negb_true_iff. apply not_true_iff_false. intros X. apply existsb_exists in X as (x & Hx & E). apply N.eqb_eq in E. specialize (HF x Hx). lia.
  - assert (E : filter (fun m => n <? m) H = []).
    { clear HI. induction H as [|a H IH]; [reflexivity|]. cbn [filter]. rewrite (proj2 (N.ltb_ge n a)) by (specialize (HF a (or_introl eq_refl)); lia).
      apply IH. intros x Hx. apply HF. right; exact Hx. }
    rewrite E. reflexivity.
Qed.

Lemma young_step c a c' o : call_ok a -> young c -> exec cr c a = (c', o) -> young c'.
Proof.
  intros HC (EE & H & HI & HF) X. destruct a as [nw input buf|input buf].
  - apply exec_send in X as (s & r & X & -> & _). apply core_effect in X as (_ & (SW & _ & _ & SE) & _).
    split; [congruence|]. exists H. rewrite SW. auto.
  - destruct HC as [HB HL]. apply exec_recv in X as (_ & _ & r & X & _).
    assert (Same : c_echo c' = c_echo c /\ c_win c' = c_win c -> young c').
    { intros [A B]. split; [congruence|]. exists H. rewrite B. auto. }
    apply recv_core_inv in X as [[-> _]|(k & op & _ & EK & EO & X)]; [apply Same; auto|]. destruct (is_request k).
    + apply recv_request_inv in X as [[-> _]|(ssn & rd & _ & _ & _ & _ & c1 & D & X)]; [apply Same; auto|].
      apply decrypt_wrapper_effect in D as ((_ & (SW & _ & _ & SE) & _) & _).
      destruct X as [(_ & -> & _)|(pt & out & _ & X)]; [apply Same; auto|]. rewrite EE in X.
      destruct X as [(_ & -> & _)|(b & t & EB & -> & _)]; [apply Same; auto|].
      assert (LB : b < 256).
      { destruct (packet_piv input k (co_piv op) HB HL) as (PB & _); [split; eauto|]. rewrite EB in PB. apply Forall_inv in PB. exact PB. }
      split; [cbn; congruence|]. cbn [set_win c_win].
      destruct (rw_valid b (c_win c)) eqn:V.
      * exists (b :: H). split; [apply update_inv; assumption|]. constructor; assumption.
      * rewrite update_rejected by assumption. exists H. auto.
    + apply recv_response_inv in X as [[-> _]|(c1 & rd & D & _ & X)]; [apply Same; auto|].
      apply decrypt_wrapper_effect in D as ((_ & (SW & _ & _ & SE) & _) & _).
      destruct X as [(_ & -> & _)|(pt & out & _ & _ & X)]; [apply Same; auto|].
      destruct (is_observe (k_opts k)); [destruct X as (s & _ & ->)|subst c']; apply Same; cbn; auto.
Qed.

Lemma young_run l : forall c, Forall call_ok l -> young c -> young (fst (run cr c l)).
Proof.
  induction l as [|a l IH]; intros c HF HY; [exact HY|]. apply Forall_cons_iff in HF as [HA HF]. cbn [run].
  destruct (exec cr c a) as [c1 o] eqn:X. pose proof (young_step _ _ _ _ HA HY X) as Y1.
  destruct (is_ub (ob_res o)); [exact Y1|]. specialize (IH c1 HF Y1). destruct (run cr c1 l). exact IH.
Qed.

(** The window plays no part in the result when the number is valid. *)
Lemma window_idle c w input k o n : coap_deserialize input = Ok k -> oscore_option_parser (k_opts k) = Ok o -> is_request k = true ->
  piv2ssn (co_piv o) = Ok n -> rw_valid n (c_win c) = true -> rw_valid n w = true ->
  snd (oscore2coap_core cr (set_win c w) input) = snd (oscore2coap_core cr c input).
Proof.
  intros EK EO RQ ES V1 V2. unfold oscore2coap_core.
  assert (CF : check_context_freshness (set_win c w) = check_context_freshness c) by reflexivity.
  rewrite CF. destruct (check_context_freshness c) as [[]|?|?]; cbn [tryc]; try reflexivity.
  rewrite EK. cbn [tryc]. rewrite EO. cbn [tryc]. destruct (byte_array_new _ _) as [[]|?|?]; cbn [tryc]; try reflexivity.
  rewrite RQ. unfold recv_request. cbn [set_win c_rid c_echo c_win].
  destruct (negb (lenN (c_rid c) =? co_kid_len o)); [reflexivity|]. destruct (kid_view o) as [kid|?|?]; cbn [tryc]; try reflexivity.
  destruct (negb (array_equals (c_rid c) kid)); [reflexivity|]. rewrite ES. cbn [tryc]. rewrite V1, V2. cbn [negb].
  replace (match c_echo c with ECHO_SYNCHRONIZED => false | _ => false end) with false by (destruct (c_echo c); reflexivity).
  fold (set_win c w). rewrite decrypt_wrapper_win. destruct (decrypt_wrapper cr c (Some o) k) as [c1 [[pt out]|?|?]]; cbn [callc]; try reflexivity.
  cbn [set_win c_echo c_echo_len c_echo_buf c_win].
  destruct (c_echo c1); [reflexivity| |].
  - destruct (echo_val_is_fresh _ pt); reflexivity.
  - destruct (co_piv o); reflexivity.
Qed.
End WithCrypto.
