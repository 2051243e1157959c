(** Lemmas about oscore2coap: what a call can do to the context, and what it delivers. *)
From Verif Require Import Base Proof_Base Model_Common Model_Crypto Model_OscorePrims Proof_OscorePrims
  Model_Coap Model_Interactions Model_Replay Model_Context Model_Send Model_Recv
  Spec_Interactions Proof_Interactions Proof_Send.

(** Everything but the stored nonce and the interaction table. *)
Definition same_rest (c c' : ctx) : Prop :=
  same_keys c c' /\ same_recv c c' /\ c_ssn c' = c_ssn c /\
  c_echo_buf c' = c_echo_buf c /\ c_echo_len c' = c_echo_len c.

Lemma same_rest_refl c : same_rest c c.
Proof. unfold same_rest; conj; reflexivity. Qed.

Section WithCrypto.
Variable cr : crypto.

(** The inputs of the AEAD for a received packet, and its acceptance. *)
Definition opened (c : ctx) (nn : option coscore) (k : cpkt) (rpiv rkid nonce aad pt : bytes) : Prop :=
  read_wrapper (coap_get_message_type k) (k_token k) (c_inter c)
    (match nn with Some o => Some (co_piv o, takeN (co_kid_len o) (co_kid_mem o)) | None => None end) = Ok (rpiv, rkid) /\
  (match nn with
   | Some o => exists kid, kid_view o = Ok kid /\ create_nonce kid (co_piv o) (c_iv c) = Ok nonce
   | None => nonce = c_nonce c end) /\
  create_aad (c_alg c) rkid rpiv MAX_AAD_LEN = Ok aad /\
  oscore_cose_decrypt cr (k_payload k) nonce aad (c_rkey c) = Ok pt.

Lemma decrypt_wrapper_effect c nn k c' r : decrypt_wrapper cr c nn k = (c', r) ->
  same_rest c c' /\ (table_ok (c_inter c) -> table_ok (c_inter c')) /\
  (c' = c /\ is_ok r = false \/
   exists rpiv rkid nonce aad pt, opened c nn k rpiv rkid nonce aad pt /\ c_nonce c' = nonce /\
     forall pt' out, r = Ok (pt', out) ->
       pt' = pt /\ o_coap_pkg_generate pt k = Ok out /\
       exists uri, uri_path_create (k_opts out) OSCORE_MAX_URI_PATH_LEN = Ok uri /\
         update_wrapper (coap_get_message_type out) (k_token k) uri (c_inter c) rpiv rkid = Ok (c_inter c')).
Proof.
  intros H. unfold decrypt_wrapper in H.
  assert (FAIL : forall A (z : res A), c' = c /\ same_failure z r ->
     same_rest c c' /\ (table_ok (c_inter c) -> table_ok (c_inter c')) /\
     (c' = c /\ is_ok r = false \/
      exists rpiv rkid nonce aad pt, opened c nn k rpiv rkid nonce aad pt /\ c_nonce c' = nonce /\
       forall pt' out, r = Ok (pt', out) ->
       pt' = pt /\ o_coap_pkg_generate pt k = Ok out /\
       exists uri, uri_path_create (k_opts out) OSCORE_MAX_URI_PATH_LEN = Ok uri /\
         update_wrapper (coap_get_message_type out) (k_token k) uri (c_inter c) rpiv rkid = Ok (c_inter c'))).
  { intros A z [-> F]. split; [apply same_rest_refl|]. split; [auto|]. left. split; [auto|].
    destruct z, r; try destruct F; reflexivity. }
  apply tryc_inv in H as [([rpiv rkid] & ER & H)|X]; [|exact (FAIL _ _ X)].
  apply tryc_inv in H as [(nonce & EN & H)|X]; [|exact (FAIL _ _ X)].
  apply tryc_inv in H as [(aad & EA & H)|X]; [|exact (FAIL _ _ X)].
  apply tryc_inv in H as [(pt & EP & H)|X]; [|exact (FAIL _ _ X)].
  clear FAIL.
  assert (OP : opened c nn k rpiv rkid nonce aad pt).
  { unfold opened. conj; auto. destruct nn as [o|].
    - apply bind_ok in EN as (kid & E1 & E2). exists kid. auto.
    - injection EN as <-. reflexivity. }
  set (c1 := match nn with Some _ => set_nonce c nonce | None => c end) in *.
  assert (S1 : same_rest c c1 /\ c_inter c1 = c_inter c /\ c_nonce c1 = nonce).
  { unfold c1, same_rest. destruct nn; conj; try reflexivity. unfold opened in OP. symmetry. tauto. }
  destruct S1 as (S1 & I1 & N1).
  assert (FAIL : forall A (z : res A), c' = c1 /\ same_failure z r ->
     same_rest c c' /\ (table_ok (c_inter c) -> table_ok (c_inter c')) /\
     (c' = c /\ is_ok r = false \/
      exists rpiv rkid nonce aad pt, opened c nn k rpiv rkid nonce aad pt /\ c_nonce c' = nonce /\
       forall pt' out, r = Ok (pt', out) ->
       pt' = pt /\ o_coap_pkg_generate pt k = Ok out /\
       exists uri, uri_path_create (k_opts out) OSCORE_MAX_URI_PATH_LEN = Ok uri /\
         update_wrapper (coap_get_message_type out) (k_token k) uri (c_inter c) rpiv rkid = Ok (c_inter c'))).
  { intros A z [-> F]. split; [exact S1|]. split; [rewrite I1; auto|]. right.
    exists rpiv, rkid, nonce, aad, pt. conj; auto. intros pt' out ->. destruct z; destruct F. }
  apply tryc_inv in H as [(out & EO & H)|X]; [|exact (FAIL _ _ X)].
  apply tryc_inv in H as [(uri & EU & H)|X]; [|exact (FAIL _ _ X)].
  apply tryc_inv in H as [(t & ET & H)|X]; [|exact (FAIL _ _ X)].
  injection H as <- <-. rewrite I1 in ET. clear FAIL.
  split; [|split].
  - unfold same_rest in *. destruct S1 as (A & B & C & D & E). conj; try apply A; try apply B; auto.
  - intros T. cbn [set_inter c_inter]. eapply update_wrapper_ok; [|exact ET]. exact T.
  - right. exists rpiv, rkid, nonce, aad, pt. conj; auto.
    intros pt' out' EQ. injection EQ as <- <-. conj; auto. exists uri. auto.
Qed.

Lemma decrypt_wrapper_ok c nn k c' pt out : decrypt_wrapper cr c nn k = (c', Ok (pt, out)) ->
  exists rpiv rkid nonce aad uri, opened c nn k rpiv rkid nonce aad pt /\ c_nonce c' = nonce /\
    o_coap_pkg_generate pt k = Ok out /\
    uri_path_create (k_opts out) OSCORE_MAX_URI_PATH_LEN = Ok uri /\
    update_wrapper (coap_get_message_type out) (k_token k) uri (c_inter c) rpiv rkid = Ok (c_inter c').
Proof.
  intros H. apply decrypt_wrapper_effect in H as (_ & _ & [[_ H]|(rp & rk & n & a & p & O & N & H)]); [discriminate|].
  destruct (H pt out eq_refl) as (-> & G & uri & U1 & U2). exists rp, rk, n, a, uri. auto.
Qed.

(** What a received request can do to the replay state, given the number. *)
Definition recv_state (c c' : ctx) : Prop :=
  same_keys c c' /\ c_ssn c' = c_ssn c /\ c_echo_buf c' = c_echo_buf c /\ c_echo_len c' = c_echo_len c.

Lemma same_rest_state c c' : same_rest c c' -> recv_state c c'.
Proof. unfold same_rest, recv_state. tauto. Qed.

(** Complete description of the request branch. *)
Lemma recv_request_inv c o k c' r : recv_request cr c o k = (c', r) ->
  (c' = c /\ is_ok r = false) \/
  exists ssn rd, kid_view o = Ok (c_rid c) /\ co_kid_len o = lenN (c_rid c) /\ piv2ssn (co_piv o) = Ok ssn /\
    (c_echo c = ECHO_SYNCHRONIZED -> rw_valid ssn (c_win c) = true) /\
    exists c1, decrypt_wrapper cr c (Some o) k = (c1, rd) /\
    ((is_ok rd = false /\ c' = c1 /\ is_ok r = false) \/
     exists pt out, rd = Ok (pt, out) /\
       match c_echo c with
       | ECHO_REBOOT => c' = set_echo c1 ECHO_VERIFY /\ r = Err first_request_after_reboot
       | ECHO_VERIFY =>
           (echo_val_is_fresh (takeN (c_echo_len c) (c_echo_buf c)) pt = Ok tt /\
            c' = set_echo (set_win c1 (rw_reinit ssn)) ECHO_SYNCHRONIZED /\ r = Ok out) \/
           (is_ok (echo_val_is_fresh (takeN (c_echo_len c) (c_echo_buf c)) pt) = false /\ c' = c1 /\ is_ok r = false)
       | ECHO_SYNCHRONIZED =>
           (co_piv o = [] /\ c' = c1 /\ is_ok r = false) \/
           (exists b t, co_piv o = b :: t /\ c' = set_win c1 (snd (rw_update b (c_win c))) /\ r = Ok out)
       end).
Proof.
  intros H. unfold recv_request in H.
  destruct (N.eqb_spec (lenN (c_rid c)) (co_kid_len o)) as [EL|EL]; cbn [negb] in H.
  2:{ injection H as <- <-. auto. }
  apply tryc_inv in H as [(kid & EK & H)|[-> X]].
  2:{ left. split; [auto|]. destruct (kid_view o), r; try destruct X; reflexivity. }
  destruct (array_equals (c_rid c) kid) eqn:EA; cbn [negb] in H.
  2:{ injection H as <- <-. auto. }
  apply array_equals_eq in EA. subst kid.
  apply tryc_inv in H as [(ssn & ES & H)|[-> X]].
  2:{ left. split; [auto|]. destruct (piv2ssn _), r; try destruct X; reflexivity. }
  assert (V : (match c_echo c with ECHO_SYNCHRONIZED => negb (rw_valid ssn (c_win c)) | _ => false end) = false \/
              (c' = c /\ is_ok r = false)).
  { destruct (match c_echo c with ECHO_SYNCHRONIZED => _ | _ => _ end); [|auto]. injection H as <- <-. auto. }
  destruct V as [V|V]; [|auto]. rewrite V in H.
  destruct (decrypt_wrapper cr c (Some o) k) as [c1 rd] eqn:ED.
  pose proof ED as ED'. apply decrypt_wrapper_effect in ED' as (SR & _ & _).
  right. exists ssn, rd. conj; auto.
  { intros E. rewrite E in V. destruct (rw_valid ssn (c_win c)); [reflexivity|discriminate]. }
  exists c1. split; [reflexivity|].
  destruct rd as [[pt out]|e|u]; cbn [callc] in H.
  2,3: injection H as <- <-; left; auto.
  right. exists pt, out. split; [reflexivity|].
  destruct SR as (_ & (SW & _ & _ & SE) & _ & SB & SL). rewrite SE, SB, SL, SW in H.
  destruct (c_echo c).
  - injection H as <- <-. auto.
  - destruct (echo_val_is_fresh _ pt) as [[]|e|u]; injection H as <- <-; auto.
  - destruct (co_piv o) as [|b t]; injection H as <- <-; [auto|]. right. exists b, t. auto.
Qed.

(** Complete description of the response branch. *)
Definition resp_nn (o : coscore) : option coscore := match co_piv o with [] => None | _ => Some o end.
Lemma recv_response_inv c o k c' r : recv_response cr c o k = (c', r) ->
  (c' = c /\ is_ok r = false) \/
  exists c1 rd, decrypt_wrapper cr c (resp_nn o) k = (c1, rd) /\
    (is_observe (k_opts k) = true -> co_piv o <> [] /\ exists ssn, piv2ssn (co_piv o) = Ok ssn /\ (c_notif_init c = true -> c_notif c < ssn)) /\
    ((is_ok rd = false /\ c' = c1 /\ is_ok r = false) \/
     exists pt out, rd = Ok (pt, out) /\ r = Ok out /\
       (if is_observe (k_opts k) then exists ssn, piv2ssn (co_piv o) = Ok ssn /\ c' = set_notif c1 ssn else c' = c1)).
Proof.
  intros H. unfold recv_response in H. unfold resp_nn.
  destruct (is_observe (k_opts k)).
  - destruct (co_piv o) as [|b t] eqn:EP; [injection H as <- <-; auto|].
    rewrite <- EP in *.
    apply tryc_inv in H as [([] & EN & H)|[-> X]].
    2:{ left. split; [auto|]. destruct (check_notification _ _ _), r; try destruct X; reflexivity. }
    unfold check_notification in EN. apply bind_ok in EN as (ssn & ES & EN).
    destruct (c_notif_init c && (ssn <=? c_notif c)) eqn:EB; [discriminate|].
    right. destruct (decrypt_wrapper cr c (Some o) k) as [c1 rd] eqn:ED.
    exists c1, rd. split; [reflexivity|]. split.
    { intros _. split; [rewrite EP; discriminate|]. exists ssn. split; [assumption|]. intros EI. rewrite EI in EB.
      cbn in EB. apply N.leb_gt in EB. exact EB. }
    destruct rd as [[pt out]|e|u]; cbn [callc] in H.
    2,3: injection H as <- <-; left; auto.
    right. exists pt, out. split; [reflexivity|].
    rewrite ES in H. cbn [tryc] in H. injection H as <- <-. split; [auto|]. exists ssn. auto.
  - right. destruct (decrypt_wrapper cr c _ k) as [c1 rd] eqn:ED.
    exists c1, rd. split; [reflexivity|]. split; [discriminate|].
    destruct rd as [[pt out]|e|u]; cbn [callc] in H; injection H as <- <-; [|left; auto..].
    right. exists pt, out. auto.
Qed.

(** What must have succeeded before the branch on request or response. *)
Lemma recv_core_inv c input c' r : oscore2coap_core cr c input = (c', r) ->
  (c' = c /\ is_ok r = false) \/
  exists k o, c_ssn c < OSCORE_SSN_OVERFLOW_VALUE /\ coap_deserialize input = Ok k /\
    oscore_option_parser (k_opts k) = Ok o /\
    if is_request k then recv_request cr c o k = (c', r) else recv_response cr c o k = (c', r).
Proof.
  intros H. unfold oscore2coap_core in H.
  assert (F : forall A (z : res A), c' = c /\ same_failure z r -> c' = c /\ is_ok r = false).
  { intros A z [-> X]. split; [auto|]. destruct z, r; try destruct X; reflexivity. }
  apply tryc_inv in H as [([] & HF & H)|X]; [|left; exact (F _ _ X)].
  apply tryc_inv in H as [(k & EK & H)|X]; [|left; exact (F _ _ X)].
  apply tryc_inv in H as [(o & EO & H)|X]; [|left; exact (F _ _ X)].
  apply tryc_inv in H as [([] & _ & H)|X]; [|left; exact (F _ _ X)].
  right. exists k, o. conj; auto.
  - unfold check_context_freshness in HF. destruct (OSCORE_SSN_OVERFLOW_VALUE <=? c_ssn c) eqn:L; [discriminate|]. apply N.leb_gt in L. exact L.
  - destruct (is_request k); exact H.
Qed.

(** Effect of any call on the parts of the context that are not replay state. *)
Lemma recv_core_effect c input c' r : oscore2coap_core cr c input = (c', r) ->
  recv_state c c' /\ (table_ok (c_inter c) -> table_ok (c_inter c')).
Proof.
  intros H. apply recv_core_inv in H as [[-> _]|(k & o & _ & _ & _ & H)].
  { split; [apply same_rest_state, same_rest_refl|auto]. }
  assert (ST : forall nn c1 rd, decrypt_wrapper cr c nn k = (c1, rd) ->
     forall c2, c_inter c2 = c_inter c1 -> recv_state c1 c2 -> recv_state c c2 /\ (table_ok (c_inter c) -> table_ok (c_inter c2))).
  { intros nn c1 rd D c2 EI (K2 & N2 & B2 & L2). apply decrypt_wrapper_effect in D as (S & T & _).
    apply same_rest_state in S as (K1 & N1 & B1 & L1). split; [|rewrite EI; exact T].
    split; [eapply same_keys_trans; eassumption|]. repeat split; congruence. }
  destruct (is_request k).
  - apply recv_request_inv in H as [[-> _]|(ssn & rd & _ & _ & _ & _ & c1 & D & H)].
    { split; [apply same_rest_state, same_rest_refl|auto]. }
    destruct H as [(_ & -> & _)|(pt & out & _ & H)].
    { eapply ST; [exact D|reflexivity|]. apply same_rest_state, same_rest_refl. }
    assert (RS : forall a, recv_state a a) by (intros; apply same_rest_state, same_rest_refl).
    destruct (c_echo c).
    + destruct H as [-> _]. eapply ST; [exact D|reflexivity|]. unfold recv_state; conj; reflexivity.
    + destruct H as [(_ & -> & _)|(_ & -> & _)]; (eapply ST; [exact D|reflexivity|]; unfold recv_state; conj; reflexivity).
    + destruct H as [(_ & -> & _)|(b & t & _ & -> & _)]; (eapply ST; [exact D|reflexivity|]; unfold recv_state; conj; reflexivity).
  - apply recv_response_inv in H as [[-> _]|(c1 & rd & D & _ & H)].
    { split; [apply same_rest_state, same_rest_refl|auto]. }
    destruct H as [(_ & -> & _)|(pt & out & _ & _ & H)].
    { eapply ST; [exact D|reflexivity|]. apply same_rest_state, same_rest_refl. }
    destruct (is_observe (k_opts k)).
    + destruct H as (ssn & _ & ->). eapply ST; [exact D|reflexivity|]. unfold recv_state; conj; reflexivity.
    + subst c'. eapply ST; [exact D|reflexivity|]. apply same_rest_state, same_rest_refl.
Qed.
End WithCrypto.
