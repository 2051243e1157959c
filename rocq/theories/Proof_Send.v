(** Lemmas about coap2oscore: what a call can do to the context, and what it sends. *)
From Verif Require Import Base Proof_Base Model_Common Model_Crypto Model_OscorePrims Proof_OscorePrims
  Model_Coap Model_Interactions Model_Context Model_Send Spec_Interactions Proof_Interactions.

(** Failure carried over to another result type. *)
Definition same_failure {A B} (r : res A) (x : res B) : Prop :=
  match r, x with Err e, Err e' => e = e' | UB u, UB u' => u = u' | _, _ => False end.

Lemma tryc_inv {A B C} (c : C) (r : res A) (k : A -> C * res B) c' x :
  tryc c r k = (c', x) -> (exists a, r = Ok a /\ k a = (c', x)) \/ (c' = c /\ same_failure r x).
Proof.
  destruct r; cbn; intros H; [left; eauto|right; injection H as <- <-; cbn; auto..].
Qed.

Lemma callc_inv {A B C} (r : C * res A) (k : C -> A -> C * res B) c' x :
  callc r k = (c', x) -> (exists c1 a, r = (c1, Ok a) /\ k c1 a = (c', x)) \/ (fst r = c' /\ same_failure (snd r) x).
Proof.
  destruct r as [c1 [a|e|u]]; cbn; intros H; [left; eauto|right; injection H as <- <-; cbn; auto..].
Qed.

Lemma tryc_ok {A B C} (c : C) (r : res A) (k : A -> C * res B) c' b :
  tryc c r k = (c', Ok b) -> exists a, r = Ok a /\ k a = (c', Ok b).
Proof. intros H. apply tryc_inv in H as [H|[_ H]]; [exact H|]. destruct r; destruct H. Qed.

Lemma callc_ok {A B C} (r : C * res A) (k : C -> A -> C * res B) c' b :
  callc r k = (c', Ok b) -> exists c1 a, r = (c1, Ok a) /\ k c1 a = (c', Ok b).
Proof. intros H. apply callc_inv in H as [H|[_ H]]; [exact H|]. destruct r as [? []]; destruct H. Qed.

(** The part of a context no call changes. *)
Definition same_keys (c c' : ctx) : Prop :=
  c_alg c' = c_alg c /\ c_id_context c' = c_id_context c /\ c_iv c' = c_iv c /\ c_fresh c' = c_fresh c /\
  c_sid c' = c_sid c /\ c_skey c' = c_skey c /\ c_rid c' = c_rid c /\ c_rkey c' = c_rkey c.
(** The receiver's state, which sending does not change. *)
Definition same_recv (c c' : ctx) : Prop :=
  c_win c' = c_win c /\ c_notif c' = c_notif c /\ c_notif_init c' = c_notif_init c /\ c_echo c' = c_echo c.

Lemma same_keys_refl c : same_keys c c.
Proof. repeat split. Qed.
Lemma same_keys_trans a b c : same_keys a b -> same_keys b c -> same_keys a c.
Proof. unfold same_keys. intuition congruence. Qed.
Lemma same_recv_refl c : same_recv c c.
Proof. repeat split. Qed.

(** Splits conjunctions only, without introducing hypotheses. *)
Ltac conj := unfold same_keys, same_recv; repeat match goal with |- _ /\ _ => split end.

Section WithCrypto.
Variable cr : crypto.
Variable nw : N -> res unit.

(** An encryption that consumes the sender sequence number. *)
Definition fresh_enc (c : ctx) (nonce : bytes) : Prop :=
  exists piv, ssn2piv (c_ssn c) = Ok piv /\ create_nonce (c_sid c) piv (c_iv c) = Ok nonce.

(** Effect of a call on the sender's numbers, given the message type. *)
Definition send_effect (new : bool) (c : ctx) (s : sstate) : Prop :=
  match s_enc s with
  | None => c_nonce (s_ctx s) = c_nonce c /\
      (c_ssn (s_ctx s) = c_ssn c /\ s_nvm s = None \/ new = true /\ c_ssn (s_ctx s) = u64 (c_ssn c + 1))
  | Some (nonce, aad, pt) =>
      if new then fresh_enc c nonce /\ c_ssn (s_ctx s) = u64 (c_ssn c + 1) /\ c_nonce (s_ctx s) = nonce
      else nonce = c_nonce c /\ c_ssn (s_ctx s) = c_ssn c /\ c_nonce (s_ctx s) = c_nonce c /\ s_nvm s = None
  end.

Lemma generate_new_ssn_spec s s' r : generate_new_ssn nw s = (s', r) ->
  s_ctx s' = set_ssn (s_ctx s) (u64 (c_ssn (s_ctx s) + 1)) /\ s_enc s' = s_enc s.
Proof.
  unfold generate_new_ssn. destruct (c_fresh (s_ctx s)).
  - intros H. injection H as <- <-. auto.
  - destruct (ssn_store_in_nvm _ _); intros H; injection H as <- <-; auto.
Qed.

Definition uses_new_piv (c : ctx) (k : cpkt) : bool := needs_new_piv (coap_get_message_type k) (c_echo c).

Lemma encrypt_wrapper_effect s pt k s' r :
  s_enc s = None -> s_nvm s = None -> encrypt_wrapper cr nw s pt k = (s', r) ->
  same_keys (s_ctx s) (s_ctx s') /\ same_recv (s_ctx s) (s_ctx s') /\
  c_echo_buf (s_ctx s') = c_echo_buf (s_ctx s) /\ c_echo_len (s_ctx s') = c_echo_len (s_ctx s) /\
  send_effect (uses_new_piv (s_ctx s) k) (s_ctx s) s' /\
  (table_ok (c_inter (s_ctx s)) -> table_ok (c_inter (s_ctx s'))).
Proof.
  intros HE HN H. unfold encrypt_wrapper in H. set (c := s_ctx s) in *.
  unfold uses_new_piv. set (new := needs_new_piv (coap_get_message_type k) (c_echo c)) in *.
  assert (P1 : forall t, same_keys c (s_ctx t) -> True) by auto.
  apply callc_inv in H as [(s1 & x & HX & H)|[HX _]].
  2:{ (* failure before the option is generated *)
    destruct new eqn:EN.
    - destruct (tryc s (ssn2piv (c_ssn c)) _) as [s1 r1] eqn:T in HX. cbn [fst] in HX. subst s1.
      apply tryc_inv in T as [(piv & EP & T)|[-> _]].
      + apply callc_inv in T as [(s1 & u & HG & T)|[HG _]].
        * apply generate_new_ssn_spec in HG as [G1 G2]. apply tryc_inv in T as [(n & _ & T)|[-> _]].
          -- injection T as <- <-. rewrite G1. conj; try reflexivity; [|auto].
             unfold send_effect. rewrite G2, HE, G1. split; [reflexivity|]. right; auto.
          -- rewrite G1. conj; try reflexivity; [|auto].
             unfold send_effect. rewrite G2, HE, G1. split; [reflexivity|]. right; auto.
        * destruct (generate_new_ssn nw s) as [s1 r2] eqn:HG'. cbn [fst] in HG. subst s1.
          apply generate_new_ssn_spec in HG' as [G1 G2]. rewrite G1. conj; try reflexivity; [|auto].
          unfold send_effect. rewrite G2, HE, G1. split; [reflexivity|]. right; auto.
      + fold c. conj; try reflexivity; [|auto]. unfold send_effect. rewrite HE. fold c. auto.
    - cbn [fst] in HX. subst s'. fold c. conj; try reflexivity; [|auto]. unfold send_effect. rewrite HE. fold c. auto. }
  destruct x as [[[nonce piv] kid] kctx].
  assert (S1 : same_keys c (s_ctx s1) /\ same_recv c (s_ctx s1) /\
               c_echo_buf (s_ctx s1) = c_echo_buf c /\ c_echo_len (s_ctx s1) = c_echo_len c /\
               c_inter (s_ctx s1) = c_inter c /\ c_nonce (s_ctx s1) = c_nonce c /\ s_enc s1 = None /\
               (if new then c_ssn (s_ctx s1) = u64 (c_ssn c + 1) /\ fresh_enc c nonce
                else c_ssn (s_ctx s1) = c_ssn c /\ nonce = c_nonce c /\ s_nvm s1 = None)).
  { destruct new.
    - apply tryc_ok in HX as (p & EP & HX). apply callc_ok in HX as (s2 & [] & HG & HX).
      apply generate_new_ssn_spec in HG as [G1 G2]. apply tryc_ok in HX as (n & EN & HX).
      injection HX as <- <- <- <- <-. rewrite G1 in *. cbn [set_ssn c_sid c_iv] in EN.
      conj; try reflexivity; [congruence|]. exists p. auto.
    - injection HX as <- <- <- <- <-. fold c. conj; auto. }
  destruct S1 as (K1 & R1 & B1 & L1 & I1 & N1 & E1 & NEW).
  assert (F1 : send_effect new c s1).
  { unfold send_effect. rewrite E1. split; [exact N1|]. destruct new; [right; tauto|left; tauto]. }
  assert (FAIL : s' = s1 -> same_keys c (s_ctx s') /\ same_recv c (s_ctx s') /\
     c_echo_buf (s_ctx s') = c_echo_buf c /\ c_echo_len (s_ctx s') = c_echo_len c /\
     send_effect new c s' /\ (table_ok (c_inter c) -> table_ok (c_inter (s_ctx s')))).
  { intros ->. conj; try apply K1; try apply R1; auto. rewrite I1. auto. }
  apply tryc_inv in H as [(opt & _ & H)|[X _]]; [|exact (FAIL X)].
  apply tryc_inv in H as [([rpiv rkid] & _ & H)|[X _]]; [|exact (FAIL X)].
  apply tryc_inv in H as [(aad & _ & H)|[X _]]; [|exact (FAIL X)].
  apply tryc_inv in H as [(ct & _ & H)|[X _]]; [|exact (FAIL X)].
  clear FAIL F1.
  set (s2 := {| s_ctx := _; s_nvm := _; s_enc := Some _ |}) in *.
  assert (S2 : same_keys c (s_ctx s2) /\ same_recv c (s_ctx s2) /\
     c_echo_buf (s_ctx s2) = c_echo_buf c /\ c_echo_len (s_ctx s2) = c_echo_len c /\
     send_effect new c s2 /\ c_inter (s_ctx s2) = c_inter c).
  { unfold s2; cbn [s_ctx]. destruct new.
    - conj; try apply K1; try apply R1; auto. unfold send_effect; cbn. tauto.
    - conj; try apply K1; try apply R1; auto. unfold send_effect; cbn. tauto. }
  destruct S2 as (K2 & R2 & B2 & L2 & F2 & I2).
  assert (FAIL : s' = s2 -> same_keys c (s_ctx s') /\ same_recv c (s_ctx s') /\
     c_echo_buf (s_ctx s') = c_echo_buf c /\ c_echo_len (s_ctx s') = c_echo_len c /\
     send_effect new c s' /\ (table_ok (c_inter c) -> table_ok (c_inter (s_ctx s')))).
  { intros ->. conj; try apply K2; try apply R2; auto. rewrite I2. auto. }
  apply tryc_inv in H as [(uri & _ & H)|[X _]]; [|exact (FAIL X)].
  apply tryc_inv in H as [(t & EU & H)|[X _]]; [|exact (FAIL X)].
  injection H as <- <-. clear FAIL. cbn [s_set s_ctx set_inter c_inter c_echo_buf c_echo_len].
  conj; try apply K2; try apply R2; auto.
  intros T. eapply update_wrapper_ok; [|exact EU]. rewrite I2. exact T.
Qed.

(** The Echo step of a call. *)
Definition echo_stage (c : ctx) (e : list copt) : sstate * res unit :=
  match c_echo c with
  | ECHO_VERIFY =>
      try (s0 c) let (b, n) := cache_echo_val (c_echo_buf c) (c_echo_len c) e in
      (s_set (s0 c) (set_echo_val c b n), Ok tt)
  | _ => (s0 c, Ok tt)
  end.

Lemma echo_stage_spec c e s r : echo_stage c e = (s, r) ->
  s_enc s = None /\ s_nvm s = None /\
  (s_ctx s = c \/
   exists b n, c_echo c = ECHO_VERIFY /\ cache_echo_val (c_echo_buf c) (c_echo_len c) e = Ok (b, n) /\ s_ctx s = set_echo_val c b n).
Proof.
  unfold echo_stage. destruct (c_echo c) eqn:E; intros H; try (injection H as <- <-; cbn; auto).
  apply tryc_inv in H as [([b n] & EC & H)|[-> _]]; [|cbn; auto].
  injection H as <- <-. cbn. conj; auto. right. exists b, n. auto.
Qed.

(** Effect of a whole call. *)
Definition msg_uses_new_piv (c : ctx) (input : bytes) : bool :=
  match coap_deserialize input with Ok k => uses_new_piv c k | _ => false end.

Lemma core_effect c input s r : coap2oscore_core cr nw c input = (s, r) ->
  same_keys c (s_ctx s) /\ same_recv c (s_ctx s) /\
  send_effect (msg_uses_new_piv c input) c s /\
  (table_ok (c_inter c) -> table_ok (c_inter (s_ctx s))).
Proof.
  intros H. unfold coap2oscore_core in H. unfold msg_uses_new_piv.
  assert (FAIL : forall new, s = s0 c -> same_keys c (s_ctx s) /\ same_recv c (s_ctx s) /\
    send_effect new c s /\ (table_ok (c_inter c) -> table_ok (c_inter (s_ctx s)))).
  { intros new ->. conj; auto. unfold send_effect; cbn. auto. }
  apply tryc_inv in H as [([] & _ & H)|[X _]]; [|exact (FAIL _ X)].
  apply tryc_inv in H as [(k & EK & H)|[X _]]; [|exact (FAIL _ X)]. rewrite EK.
  destruct (_ && _). { injection H as <- <-. apply FAIL. reflexivity. }
  apply tryc_inv in H as [([[e u] elen] & _ & H)|[X _]]; [|exact (FAIL _ X)].
  apply tryc_inv in H as [([] & _ & H)|[X _]]; [|exact (FAIL _ X)].
  apply tryc_inv in H as [(pt & _ & H)|[X _]]; [|exact (FAIL _ X)].
  apply tryc_inv in H as [([] & _ & H)|[X _]]; [|exact (FAIL _ X)].
  fold (echo_stage c e) in H.
  assert (ES : forall t, s_enc t = None /\ s_nvm t = None /\
     (s_ctx t = c \/ exists b n, c_echo c = ECHO_VERIFY /\ cache_echo_val (c_echo_buf c) (c_echo_len c) e = Ok (b, n) /\ s_ctx t = set_echo_val c b n) ->
     forall s', same_keys (s_ctx t) (s_ctx s') -> same_recv (s_ctx t) (s_ctx s') ->
       send_effect (uses_new_piv (s_ctx t) k) (s_ctx t) s' -> (table_ok (c_inter (s_ctx t)) -> table_ok (c_inter (s_ctx s'))) ->
       same_keys c (s_ctx s') /\ same_recv c (s_ctx s') /\ send_effect (uses_new_piv c k) c s' /\
       (table_ok (c_inter c) -> table_ok (c_inter (s_ctx s')))).
  { intros t (_ & _ & [->|(b & n & _ & _ & ->)]) s' A B C D; auto. }
  apply callc_inv in H as [(s1 & [] & HX & H)|[HX _]].
  - apply echo_stage_spec in HX. pose proof (ES s1 HX) as ES1. destruct HX as (HE & HN & _).
    apply callc_inv in H as [(s2 & [ct opt] & HW & H)|[HW _]].
    + apply encrypt_wrapper_effect in HW as (A & B & _ & _ & C & D); [|assumption..].
      assert (s = s2) as ->. { apply tryc_inv in H as [(o & _ & H)|[H _]]; [injection H as <- <-|]; auto. }
      apply ES1; assumption.
    + destruct (encrypt_wrapper cr nw s1 pt k) as [s2 r2] eqn:W. cbn [fst] in HW. subst s2.
      apply encrypt_wrapper_effect in W as (A & B & _ & _ & C & D); [|assumption..].
      apply ES1; assumption.
  - destruct (echo_stage c e) as [s1 r1] eqn:W. cbn [fst] in HX. subst s1.
    apply echo_stage_spec in W. pose proof (ES s W s) as ES1. destruct W as (HE & HN & W).
    apply ES1; [apply same_keys_refl|apply same_recv_refl| |auto]. unfold send_effect. rewrite HE. auto.
Qed.

(** Everything that must have succeeded before a protected message is produced. *)
Lemma core_inl c input s out : coap2oscore_core cr nw c input = (s, Ok (inl out)) ->
  exists k e u elen pt s1 ct opt,
    c_ssn c < OSCORE_SSN_OVERFLOW_VALUE /\ coap_deserialize input = Ok k /\
    (h_type (k_hdr k) =? 2) && (h_code (k_hdr k) =? 0) = false /\
    inner_outer_option_split k = Ok (e, u, elen) /\
    plaintext_setup (h_code (k_hdr k)) e (k_payload k)
      (if lenN (k_payload k) =? 0 then 1 + elen else u32 (1 + elen + 1 + lenN (k_payload k))) = Ok pt /\
    echo_stage c e = (s1, Ok tt) /\ encrypt_wrapper cr nw s1 pt k = (s, Ok (ct, opt)) /\
    oscore_pkg_generate k u ct opt = Ok out /\
    (if lenN (k_payload k) =? 0 then 1 + elen else u32 (1 + elen + 1 + lenN (k_payload k))) <= 1024.
Proof.
  intros H. unfold coap2oscore_core in H.
  apply tryc_ok in H as ([] & HF & H). apply tryc_ok in H as (k & EK & H).
  destruct (_ && _) eqn:EA; [discriminate H|].
  apply tryc_ok in H as ([[e u] elen] & EI & H). apply tryc_ok in H as ([] & EB & H).
  apply tryc_ok in H as (pt & EP & H). apply tryc_ok in H as ([] & _ & H).
  fold (echo_stage c e) in H. apply callc_ok in H as (s1 & [] & HE & H).
  apply callc_ok in H as (s2 & [ct opt] & HW & H). apply tryc_ok in H as (o & EO & H). injection H as <- <-.
  exists k, e, u, elen, pt, s1, ct, opt. conj; auto.
  - unfold check_context_freshness in HF. destruct (OSCORE_SSN_OVERFLOW_VALUE <=? c_ssn c) eqn:L; [discriminate|]. apply N.leb_gt in L. exact L.
  - unfold byte_array_new, check_buffer_size in EB. destruct (_ <? _) eqn:L in EB; [discriminate|]. apply N.ltb_ge in L. exact L.
Qed.

Lemma core_inr c input s w : coap2oscore_core cr nw c input = (s, Ok (inr w)) ->
  s = s0 c /\ w = input /\ exists k, coap_deserialize input = Ok k /\ h_type (k_hdr k) = 2 /\ h_code (k_hdr k) = 0.
Proof.
  intros H. unfold coap2oscore_core in H.
  apply tryc_ok in H as ([] & HF & H). apply tryc_ok in H as (k & EK & H).
  destruct (_ && _) eqn:EA.
  { injection H as <- <-. apply andb_prop in EA as [E1 E2]. apply N.eqb_eq in E1, E2. conj; auto. exists k. auto. }
  apply tryc_ok in H as ([[e u] elen] & EI & H). apply tryc_ok in H as ([] & _ & H).
  apply tryc_ok in H as (pt & EP & H). apply tryc_ok in H as ([] & _ & H).
  apply callc_ok in H as (s1 & [] & HE & H).
  apply callc_ok in H as (s2 & [ct opt] & HW & H). apply tryc_ok in H as (o & EO & H). discriminate H.
Qed.

(** The sender identity and context are put on the wire exactly when a new PIV is used. *)
Definition wire_ids (new : bool) (c : ctx) (piv kid kctx : bytes) : Prop :=
  if new then ssn2piv (c_ssn c) = Ok piv /\ kid = c_sid c /\ kctx = c_id_context c
  else piv = [] /\ kid = [] /\ kctx = [].

(** Everything that must have succeeded inside encrypt_wrapper. *)
Lemma encrypt_wrapper_ok s pt k s' ct opt : encrypt_wrapper cr nw s pt k = (s', Ok (ct, opt)) ->
  exists piv kid kctx nonce rpiv rkid aad uri t,
    wire_ids (uses_new_piv (s_ctx s) k) (s_ctx s) piv kid kctx /\
    (if uses_new_piv (s_ctx s) k then create_nonce (c_sid (s_ctx s)) piv (c_iv (s_ctx s)) = Ok nonce
     else nonce = c_nonce (s_ctx s)) /\
    oscore_option_generate piv kid kctx = Ok opt /\
    read_wrapper (coap_get_message_type k) (k_token k) (c_inter (s_ctx s)) (Some (piv, kid)) = Ok (rpiv, rkid) /\
    create_aad (c_alg (s_ctx s)) rkid rpiv MAX_AAD_LEN = Ok aad /\
    oscore_cose_encrypt cr pt nonce aad (c_skey (s_ctx s)) = Ok ct /\
    uri_path_create (k_opts k) OSCORE_MAX_URI_PATH_LEN = Ok uri /\
    update_wrapper (coap_get_message_type k) (k_token k) uri (c_inter (s_ctx s)) rpiv rkid = Ok t /\
    c_inter (s_ctx s') = t /\ s_enc s' = Some (nonce, aad, pt).
Proof.
  intros H. unfold encrypt_wrapper in H. unfold uses_new_piv.
  set (new := needs_new_piv (coap_get_message_type k) (c_echo (s_ctx s))) in *.
  apply callc_ok in H as (s1 & [[[nonce piv] kid] kctx] & HX & H).
  assert (S1 : c_inter (s_ctx s1) = c_inter (s_ctx s) /\ c_alg (s_ctx s1) = c_alg (s_ctx s) /\ c_skey (s_ctx s1) = c_skey (s_ctx s) /\
     wire_ids new (s_ctx s) piv kid kctx /\
     (if new then create_nonce (c_sid (s_ctx s)) piv (c_iv (s_ctx s)) = Ok nonce else nonce = c_nonce (s_ctx s))).
  { unfold wire_ids. destruct new.
    - apply tryc_ok in HX as (p & EP & HX). apply callc_ok in HX as (s2 & [] & HG & HX).
      apply generate_new_ssn_spec in HG as [G1 G2]. apply tryc_ok in HX as (n & EN & HX).
      injection HX as <- <- <- <- <-. rewrite G1 in *. cbn in EN. cbn. conj; auto.
    - injection HX as <- <- <- <- <-. conj; auto. }
  destruct S1 as (I1 & A1 & K1 & W1 & N1).
  apply tryc_ok in H as (o & EO & H). apply tryc_ok in H as ([rpiv rkid] & ER & H).
  apply tryc_ok in H as (aad & EA & H). apply tryc_ok in H as (ct' & EC & H).
  apply tryc_ok in H as (uri & EU & H). apply tryc_ok in H as (t & ET & H). injection H as <- <- <-.
  rewrite I1 in *. rewrite A1 in *. rewrite K1 in *.
  exists piv, kid, kctx, nonce, rpiv, rkid, aad, uri, t. conj; auto.
  cbn [s_ctx] in ET. destruct new; cbn [set_nonce c_inter] in ET; congruence.
Qed.
End WithCrypto.
