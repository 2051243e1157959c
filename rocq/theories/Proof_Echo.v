(** Proofs about the Echo exchange. *)
From Verif Require Import Base Proof_Base Model_Common Model_Crypto Model_OscorePrims Model_Coap Spec_Coap Proof_Coap
  Model_Interactions Spec_Interactions Proof_Interactions Model_Context Model_Send Proof_Send
  Model_Recv Proof_Recv Model_Replay Model_Run Spec_Options Proof_Options Spec_Session Proof_Run Proof_Session.

(** The Echo value the endpoint compares with. *)
Definition expected (c : ctx) : bytes := takeN (c_echo_len c) (c_echo_buf c).

Lemma find_split {A} (f : A -> bool) l o : find f l = Some o ->
  exists before after, l = before ++ o :: after /\ f o = true /\ Forall (fun x => f x = false) before.
Proof.
  induction l as [|x l IH]; cbn; [discriminate|]. destruct (f x) eqn:E.
  - intros H. injection H as <-. exists [], l. auto.
  - intros H. apply IH in H as (b & a & -> & F & G). exists (x :: b), a. auto.
Qed.

Lemma echo_fresh_spec cache pt : echo_val_is_fresh cache pt = Ok tt -> echo_in pt cache.
Proof.
  unfold echo_val_is_fresh. intros H. apply bind_ok in H as ([[code opts] pl] & EP & H).
  unfold oscore_decrypted_payload_parser in EP. destruct pt as [|code' body]; [discriminate|].
  apply bind_ok in EP as ([eo p] & ED & EP). injection EP as <- <- <-.
  destruct (find _ eo) as [o|] eqn:EF; [|discriminate].
  destruct (_ && _) eqn:EB; [|discriminate]. apply andb_prop in EB as [_ EB]. apply beqb_eq in EB.
  apply find_split in EF as (b & a & -> & F & G). apply N.eqb_eq in F.
  exists code', body, (b ++ o :: a), p, b, o, a. repeat split; auto.
  eapply Forall_impl; [|exact G]. intros x X E. cbv beta in X. change OPT_ECHO with 252 in X. rewrite E in X. discriminate X.
Qed.

Lemma cache_echo_spec buf blen opts b n : cache_echo_val buf blen opts = Ok (b, n) ->
  lenN b = lenN buf /\ exists o, In o opts /\ o_num o = 252 /\ takeN n b = o_val o.
Proof.
  unfold cache_echo_val. destruct (find _ opts) as [o|] eqn:EF; [|discriminate]. intros H.
  apply find_some in EF as [HI EN]. apply N.eqb_eq in EN.
  apply bind_ok in H as (d & EM & H). destruct d as [d|]; [|discriminate]. injection H as <- <-.
  unfold memcpy_s in EM. destruct (N.eqb_spec (lenN (o_val o)) 0) as [Z|Z].
  - injection EM as <-. split; [reflexivity|]. exists o. repeat split; auto.
    destruct (o_val o) as [|x l]; [reflexivity|]. rewrite lenN_cons in Z. lia.
  - apply bind_ok in EM as ([] & _ & EM).
    destruct (N.ltb_spec (lenN (o_val o)) (lenN (o_val o))); [lia|].
    destruct (N.ltb_spec (lenN buf) (lenN (o_val o))) as [?|L]; [discriminate|].
    injection EM as <-. rewrite takeN_all by lia. split.
    + rewrite lenN_app, lenN_dropN. lia.
    + exists o. repeat split; auto. apply takeN_app.
Qed.

Section WithCrypto.
Variable cr : crypto.

(** What coap2oscore does to the Echo value. *)
Lemma core_echo nw c input s r : coap2oscore_core cr nw c input = (s, r) ->
  (c_echo_buf (s_ctx s) = c_echo_buf c /\ c_echo_len (s_ctx s) = c_echo_len c /\
   (c_echo c = ECHO_VERIFY -> forall out, r <> Ok (inl out))) \/
  (c_echo c = ECHO_VERIFY /\ exists k e u elen,
     coap_deserialize input = Ok k /\ inner_outer_option_split k = Ok (e, u, elen) /\
     cache_echo_val (c_echo_buf c) (c_echo_len c) e = Ok (c_echo_buf (s_ctx s), c_echo_len (s_ctx s))) \/
  (c_echo c <> ECHO_VERIFY /\ c_echo_buf (s_ctx s) = c_echo_buf c /\ c_echo_len (s_ctx s) = c_echo_len c).
Proof.
  intros H. unfold coap2oscore_core in H.
  assert (F : forall A (z : res A), s = s0 c /\ same_failure z r ->
    (c_echo_buf (s_ctx s) = c_echo_buf c /\ c_echo_len (s_ctx s) = c_echo_len c /\
     (c_echo c = ECHO_VERIFY -> forall out, r <> Ok (inl out)))).
  { intros A z [-> X]. split; [reflexivity|]. split; [reflexivity|]. intros _ out ->. destruct z; destruct X. }
  apply tryc_inv in H as [([] & _ & H)|X]; [|left; exact (F _ _ X)].
  apply tryc_inv in H as [(k & EK & H)|X]; [|left; exact (F _ _ X)].
  destruct (_ && _). { injection H as <- <-. left. split; [reflexivity|]. split; [reflexivity|]. intros _ out X. discriminate X. }
  apply tryc_inv in H as [([[e u] elen] & EI & H)|X]; [|left; exact (F _ _ X)].
  apply tryc_inv in H as [([] & _ & H)|X]; [|left; exact (F _ _ X)].
  apply tryc_inv in H as [(pt & _ & H)|X]; [|left; exact (F _ _ X)].
  apply tryc_inv in H as [([] & _ & H)|X]; [|left; exact (F _ _ X)].
  clear F. fold (echo_stage c e) in H.
  apply callc_inv in H as [(s1 & [] & HX & H)|[HX HF]].
  - assert (EW : forall s2 r2, encrypt_wrapper cr nw s1 pt k = (s2, r2) ->
      c_echo_buf (s_ctx s2) = c_echo_buf (s_ctx s1) /\ c_echo_len (s_ctx s2) = c_echo_len (s_ctx s1)).
    { intros s2 r2 W. pose proof HX as HX'. apply echo_stage_spec in HX' as (A & B & _).
      apply encrypt_wrapper_effect in W as (_ & _ & W1 & W2 & _); auto. }
    assert (ES : c_echo_buf (s_ctx s) = c_echo_buf (s_ctx s1) /\ c_echo_len (s_ctx s) = c_echo_len (s_ctx s1)).
    { apply callc_inv in H as [(s2 & [ct opt] & HW & H)|[HW _]].
      - assert (s = s2) as ->. { apply tryc_inv in H as [(o & _ & H)|[H _]]; [injection H as <- <-|]; auto. }
        eapply EW, HW.
      - destruct (encrypt_wrapper cr nw s1 pt k) as [s2 r2] eqn:W. cbn [fst] in HW. subst s2. eapply EW. reflexivity. }
    destruct ES as [-> ->]. unfold echo_stage in HX. destruct (c_echo c) eqn:EE.
    + injection HX as <-. right; right. split; [discriminate|]. split; reflexivity.
    + apply tryc_ok in HX as ([b n] & EC & HX). injection HX as <-. right; left. split; [reflexivity|].
      exists k, e, u, elen. auto.
    + injection HX as <-. right; right. split; [discriminate|]. split; reflexivity.
  - unfold echo_stage in *. destruct (c_echo c) eqn:EE.
    + cbn [fst] in HX. subst s. right; right. split; [discriminate|]. split; reflexivity.
    + destruct (tryc (s0 c) _ _) as [s1 r1] eqn:T. cbn [fst snd] in HX, HF. subst s1. apply tryc_inv in T as [([b n] & EC & T)|[-> X]].
      * injection T as <- <-. destruct HF.
      * left. split; [reflexivity|]. split; [reflexivity|]. intros _ out ->.
        destruct r1; destruct HF.
    + cbn [fst] in HX. subst s. right; right. split; [discriminate|]. split; reflexivity.
Qed.

(** The inner options of a message are options of the message. *)
Lemma split_inner_in input k e u elen o : is_bytes input -> lenN input < 2 ^ 32 -> coap_deserialize input = Ok k ->
  inner_outer_option_split k = Ok (e, u, elen) -> In o e -> o_num o = 252 ->
  exists o', In o' (k_opts k) /\ o_num o' = 252 /\ o_val o' = o_val o.
Proof.
  intros HB HL EK EI HO HN. unfold inner_outer_option_split in EI.
  destruct (_ <? _) in EI; [discriminate|]. injection EI as EI.
  destruct (coap_parse_sound _ _ EK HB HL) as (_ & _ & _ & _ & NC & _).
  destruct (split_loop_spec (is_request k) (k_opts k) 0 0 0 0 e u elen NC eq_refl eq_refl eq_refl EI) as (inner & S1 & S2 & _).
  assert (X : In (nv o) (map nv e)) by (apply in_map; exact HO).
  rewrite S2 in X. apply in_map_iff in X as ([n v] & E & X).
  assert (Y : forall l r, selects (fun p : N * bytes => goes_inside (fst p)) l r -> In (n, v) r -> In (n, v) l).
  { intros l r S. induction S; cbn; intros Z; [auto|destruct Z; auto|auto]. }
  apply (Y _ _ S1) in X. apply in_map_iff in X as (o' & E' & HO').
  unfold nv in E, E'. unfold inner_value in E. cbn [fst] in E.
  injection E' as <- <-. exists o'. split; [exact HO'|].
  destruct (o_num o' =? 6) eqn:E6.
  - apply N.eqb_eq in E6. destruct (negb (is_request k)); cbn [andb] in E; injection E as E _; lia.
  - cbn [andb] in E. injection E as E1 E2. split; [congruence|exact E2].
Qed.

(** ** Runs *)
Lemma run_snoc c l a : 
  fst (run cr c (l ++ [a])) = fst (run cr c l) \/ fst (run cr c (l ++ [a])) = fst (exec cr (fst (run cr c l)) a).
Proof.
  revert c. induction l as [|b l IH]; intros c.
  - cbn [app run fst]. destruct (exec cr c a) as [c1 o]. destruct (is_ub (ob_res o)); auto.
  - cbn [app run]. destruct (exec cr c b) as [c1 o]. destruct (is_ub (ob_res o)); [auto|].
    specialize (IH c1). destruct (run cr c1 (l ++ [a])) as [c2 os]. destruct (run cr c1 l) as [c3 os']. exact IH.
Qed.

(** A received request that ended the Echo exchange. *)
Definition echo_answer (c : ctx) (input v : bytes) : Prop :=
  c_echo c = ECHO_VERIFY /\ exists k pt, authentic cr c input k pt /\ h_code (k_hdr k) < 32 /\ echo_in pt v.

Lemma verify_request c input c' r : lenN (c_iv c) = 13 -> table_ok (c_inter c) -> c_echo c = ECHO_VERIFY ->
  oscore2coap_core cr c input = (c', r) -> c_echo c' <> ECHO_VERIFY \/ (exists piv, request_packet input piv /\ is_ok r = true) ->
  echo_answer c input (expected c) /\ c_echo c' = ECHO_SYNCHRONIZED.
Proof.
  intros HI HT HE H HX. apply recv_core_inv in H as [[-> F]|(k & o & _ & EK & EO & H)].
  { destruct HX as [X|(piv & _ & X)]; congruence. }
  destruct (is_request k) eqn:RQ.
  - apply recv_request_inv in H as [[-> F]|(ssn & rd & KV & KL & _ & _ & c1 & D & H)].
    { destruct HX as [X|(piv & _ & X)]; congruence. }
    pose proof D as D'. apply decrypt_wrapper_effect in D' as ((_ & (_ & _ & _ & SE) & _) & _).
    destruct H as [(_ & -> & F)|(pt & out & -> & H)].
    { destruct HX as [X|(piv & _ & X)]; [|congruence]. rewrite SE in X. congruence. }
    rewrite HE in H. destruct H as [(EF & -> & ->)|(_ & -> & F)].
    2:{ destruct HX as [X|(piv & _ & X)]; [|congruence]. rewrite SE in X. congruence. }
    split; [|reflexivity]. split; [exact HE|]. exists k, pt.
    apply decrypt_wrapper_ok in D as (rp & rk & n & a & uri & O & _).
    split; [|split; [apply is_request_spec; exact RQ|apply echo_fresh_spec; exact EF]].
    eapply opened_authentic; try eassumption; [|congruence]. intros _. auto.
  - destruct HX as [X|(piv & (k' & (EK' & _) & RQ') & _)].
    2:{ rewrite EK in EK'. injection EK' as <-. apply is_request_spec in RQ'. congruence. }
    assert (E : c_echo c' = c_echo c).
    { apply recv_response_inv in H as [[-> _]|(c1 & rd & D & _ & H)]; [auto|].
      apply decrypt_wrapper_effect in D as ((_ & (_ & _ & _ & SE) & _) & _).
      destruct H as [(_ & -> & _)|(pt & out & _ & _ & H)]; [auto|].
      destruct (is_observe (k_opts k)); [destruct H as (s & _ & ->)|subst c']; cbn; auto. }
    congruence.
Qed.

(** State of the Echo exchange after some calls on a context initialised after a
    reboot with [g] in the Echo buffer. *)
Definition known_echo (c0 : ctx) (g : bytes) (calls : list api_call) (v : bytes) : Prop :=
  v = g \/ challenged cr c0 calls v.
Definition echo_history (c0 : ctx) (g : bytes) (calls : list api_call) : Prop :=
  let c := fst (run cr c0 calls) in
  (c_echo c <> ECHO_SYNCHRONIZED /\ known_echo c0 g calls (expected c)) \/
  (c_echo c = ECHO_SYNCHRONIZED /\ exists pre input buf post v, calls = pre ++ ARecv input buf :: post /\
     echo_answer (fst (run cr c0 pre)) input v /\ known_echo c0 g pre v).

Lemma known_snoc c0 g calls a v : known_echo c0 g calls v -> known_echo c0 g (calls ++ [a]) v.
Proof.
  intros [->|(pre & nw & i & b & post & k & o & -> & H)]; [left; auto|].
  right. exists pre, nw, i, b, (post ++ [a]), k, o. rewrite <- app_assoc. auto.
Qed.

Lemma history c0 g calls : lenN (c_iv c0) = 13 -> table_ok (c_inter c0) -> c_echo c0 = ECHO_REBOOT -> expected c0 = g ->
  Forall input_ok calls -> echo_history c0 g calls.
Proof.
  intros HI HT HE HG. induction calls as [|a calls IH] using rev_ind; intros HF.
  - left. cbn [run fst]. rewrite HE. split; [discriminate|]. left. exact HG.
  - apply Forall_app in HF as [HF Ha]. specialize (IH HF). inversion Ha as [|? ? Hin _]; subst.
    unfold echo_history in *. 
    assert (K : same_keys c0 (fst (run cr c0 calls)) /\ (table_ok (c_inter (fst (run cr c0 calls))))).
    { apply (run_inv cr (fun c => same_keys c0 c /\ table_ok (c_inter c))); [|split; [apply same_keys_refl|exact HT]].
      intros c b c' o [A B] X. apply exec_keys in X as [C D]. split; [eapply same_keys_trans; eassumption|auto]. }
    assert (HI' : lenN (c_iv (fst (run cr c0 calls))) = 13).
    { destruct K as [(_ & _ & E & _) _]. rewrite E. exact HI. }
    destruct K as [_ HT']. set (c := fst (run cr c0 calls)) in *.
    assert (EQ := run_snoc c0 calls a). fold c in EQ.
    set (cn := fst (run cr c0 (calls ++ [a]))) in *. cbv zeta in IH |- *.
    destruct IH as [[NS KE]|(S & pre & i & b & post & v & -> & A & KE)].
    + destruct EQ as [->|EX].
      { left. split; [exact NS|]. apply known_snoc, KE. }
      destruct (exec cr c a) as [c1 ob] eqn:XE. cbn [fst] in EX. subst cn. 
      destruct a as [nw i b|i b].
      * pose proof XE as XE'. apply exec_send in XE as (s & r & H & -> & _).
        pose proof H as H'. apply core_effect in H' as (_ & (_ & _ & _ & SE) & _).
        destruct (core_echo _ _ _ _ _ H) as [(E1 & E2 & _)|[(EV & k & e & u & elen & EK & EI & EC)|(_ & E1 & E2)]].
        -- left. rewrite EX, SE. split; [exact NS|]. unfold expected. rewrite E1, E2. apply known_snoc. exact KE.
        -- left. rewrite EX, SE. split; [exact NS|]. right.
           apply cache_echo_spec in EC as (_ & o & HO & HN & HV). destruct Hin as [HB HL].
           destruct (split_inner_in _ _ _ _ _ _ HB HL EK EI HO HN) as (o' & HO' & HN' & HV').
           exists calls, nw, i, b, [], k, o'. unfold expected. rewrite HV. repeat split; auto. 
        -- left. rewrite EX, SE. split; [exact NS|]. unfold expected. rewrite E1, E2. apply known_snoc. exact KE.
      * apply exec_recv in XE as (_ & _ & r & H & _).
        pose proof H as H'. apply recv_core_effect in H' as ((_ & _ & E1 & E2) & _).
        destruct (c_echo c1) eqn:E1c.
        -- left. rewrite EX. split; [congruence|]. unfold expected. rewrite E1, E2. apply known_snoc. exact KE.
        -- left. rewrite EX. split; [congruence|]. unfold expected. rewrite E1, E2. apply known_snoc. exact KE.
        -- right. rewrite EX. split; [exact E1c|]. exists calls, i, b, [], (expected c). split; [reflexivity|].
           split; [|exact KE].
           destruct (recv_replay_state _ _ _ _ _ H) as [[A _]|[(A & _)|[(_ & A & _)|(A & _)]]]; try congruence.
           eapply verify_request; try eassumption. left. congruence.
    + right. split.
      * destruct EQ as [->| ->]; [exact S|]. destruct (exec cr c a) as [c1 ob] eqn:XE. cbn [fst]. destruct a as [nw i' b'|i' b'].
        -- apply exec_send in XE as (s & r & H & -> & _). apply core_effect in H as (_ & (_ & _ & _ & SE) & _). congruence.
        -- apply exec_recv in XE as (_ & _ & r & H & _).
           destruct (recv_replay_state _ _ _ _ _ H) as [[A' _]|[(A' & A'' & _)|[(A' & _)|(A' & _)]]]; congruence.
      * exists pre, i, b, (post ++ [a]), v. rewrite <- app_assoc. auto.
Qed.

(** decrypt_wrapper does not look at the Echo state. *)
Lemma decrypt_wrapper_echo c e nn k :
  decrypt_wrapper cr (set_echo c e) nn k = let (c', r) := decrypt_wrapper cr c nn k in (set_echo c' e, r).
Proof.
  unfold decrypt_wrapper. cbn [set_echo c_inter c_iv c_nonce c_alg c_rkey].
  destruct (read_wrapper _ _ _ _) as [[rp rk]|?|?]; cbn [tryc]; try reflexivity.
  destruct (match nn with Some _ => _ | None => _ end) as [n|?|?] eqn:EN; cbn [tryc]; try reflexivity.
  destruct (create_aad _ _ _ _) as [a|?|?]; cbn [tryc]; try reflexivity.
  destruct (oscore_cose_decrypt _ _ _ _ _) as [pt|?|?]; cbn [tryc]; try reflexivity.
  destruct (o_coap_pkg_generate pt k) as [out|?|?]; cbn [tryc]; try (destruct nn; reflexivity).
  destruct (uri_path_create _ _) as [uri|?|?]; cbn [tryc]; try (destruct nn; reflexivity).
  destruct nn; cbn [set_nonce set_echo c_inter]; destruct (update_wrapper _ _ _ _ _ _); reflexivity.
Qed.
End WithCrypto.
