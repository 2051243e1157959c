(** C73: a session with any implementation of RFC 9528. *)
From Verif Require Import Base Proof_Base Model_Common Model_Cbor Proof_Cbor Model_Crypto Model_Toy Model_ToyRun Proof_Toy
  Spec_CborTree Proof_CborTree Spec_Hkdf Spec_Edhoc Spec_EdhocRun Spec_EdhocView Spec_EdhocEad Spec_EdhocInterop
  Model_EdhocCfg Model_EdhocCert Model_EdhocMsg Model_EdhocRun Model_ToyEdhoc
  Proof_EdhocMsg1 Proof_EdhocMsg Proof_EdhocRun Proof_EdhocSound Proof_EdhocEad Proof_CborUnique Proof_EdhocParams Proof_EdhocInterop.

(** The initiator with a peer that is any implementation of RFC 9528. If the parties are
    identified by certificates (x5chain or x5t), C_R is a byte string that is not empty
    and not one of the 48 short integers, and the peer sends no EAD_2, then the run ends
    well: message_3 and PRK_out are those of the RFC. What is missing: the other
    identifiers, the other C_R and EAD_2 (the theorems _refuted below), and a message_3
    longer than message_2 (C38). *)
Theorem C73_initiator_partial : forall cr cf pf, crypto_ok cr -> aead_total cr ->
  forall i creds st t key s2, as_initiator cr cf i st t key s2 ->
  certified (t_id_r t) -> certified (t_id_i t) -> plain (t_c_r t) -> t_ead_2 t = [] ->
  finds cr pf (t_static_r t) creds (id_map (t_id_r t)) (CRED_R_SIZE cf) (t_cred_r t) key ->
  exists s3 m3,
    own_field cr (t_static_i t) st (i_sk i) (i_pk i) (t_tbs_3 (cr_hmac cr) (cr_hash cr) t s2)
      (t_mac_3 (cr_hmac cr) (cr_hash cr) t s2) s3 /\
    t_m3 (cr_hmac cr) (cr_hash cr) (cr_aead_enc cr) t s2 s3 = Some m3 /\
    (lenN m3 <= lenN (t_m2 (cr_hmac cr) (cr_hash cr) t s2) ->
     forall e n, obliging e -> n <= 8128 -> e_rx e 2 [t_m1 t] = Ok (t_m2 (cr_hmac cr) (cr_hash cr) t s2) ->
     initiator_run cr cf pf i creds n e =
     {| o_sent := [t_m1 t; m3]; o_eads := [[]]; o_prk := Some (t_prk_out (cr_hmac cr) (cr_hash cr) t s2 s3 n);
        o_peer_c := Some (t_c_r t); o_peer_pk := None; o_ret := Ok tt |}).
Proof.
  intros cr cf pf K A i creds st t key s2 F CR CI PL NE FD.
  destruct (ai_field3 cr cf K A i st t key s2 F CI) as (s3 & m3 & O & _ & E). exists s3, m3. split; [exact O|]. split; [exact E|].
  intros L e n OB HN RX. exact (ai_run cr cf pf K i creds st t key s2 F CR CI PL NE FD e n s3 m3 OB HN RX O E L).
Qed.
Print Assumptions C73_initiator_partial.

(** The responder with such a peer, which may send EAD_1 items: message_2 is that of the
    RFC, and every right message_3 is accepted. C_I is reported as it was chosen, except
    for 0x20 to 0x37 (C34). *)
Theorem C73_responder_partial : forall cr cf pf, crypto_ok cr ->
  forall r creds st t key me su g_x c_i e1, as_responder cr cf r st t key me su g_x c_i e1 ->
  certified (t_id_r t) -> certified (t_id_i t) -> plain (t_c_r t) -> t_ead_3 t = [] ->
  finds cr pf (t_static_i t) creds (id_map (t_id_i t)) (CRED_I_SIZE cf) (t_cred_i t) key ->
  exists s2, own_field cr (t_static_r t) st (r_sk r) (r_pk r) (t_tbs_2 (cr_hmac cr) (cr_hash cr) t)
      (t_mac_2 (cr_hmac cr) (cr_hash cr) t) s2 /\
    forall e n pk_cap s3 m3, obliging e -> n <= 8128 -> e_rx e 1 [] = Ok (t_m1 t) ->
    e_rx e 3 [t_m2 (cr_hmac cr) (cr_hash cr) t s2] = Ok m3 ->
    right_field cr (t_static_i t) st key (t_tbs_3 (cr_hmac cr) (cr_hash cr) t s2) (t_mac_3 (cr_hmac cr) (cr_hash cr) t s2) s3 ->
    t_m3 (cr_hmac cr) (cr_hash cr) (cr_aead_enc cr) t s2 s3 = Some m3 ->
    lenN m3 <= CIPHERTEXT3_SIZE cf -> lenN m3 <= MSG_MAX_SIZE cf ->
    exists k c', (t_static_i t = false -> k = key) /\ ((forall b, c_i = [b] -> ~ (0x20 <= b <= 0x37)) -> c' = c_i) /\
      responder_run_extended cr cf pf r creds (C_I_SIZE cf) pk_cap n e =
      {| o_sent := [t_m2 (cr_hmac cr) (cr_hash cr) t s2]; o_eads := [repeat 0 (N.to_nat (EAD_SIZE cf)); []];
         o_prk := Some (t_prk_out (cr_hmac cr) (cr_hash cr) t s2 s3 n); o_peer_c := Some c';
         o_peer_pk := match pk_cap with Some c => if c <? lenN k then None else Some k | None => None end; o_ret := Ok tt |}.
Proof.
  intros cr cf pf K r creds st t key me su g_x c_i e1 F CR CI PL NE FD.
  destruct (ar_field cr cf K r st t key me su g_x c_i e1 F) as (s2 & O & L). exists s2. split; [exact O|].
  intros e n pk_cap s3 m3 OB HN R1 R3 RF E3 L1 L2.
  destruct (ar_run cr cf pf K r creds st t key me su g_x c_i e1 F CR PL s2 O L CI NE FD e n pk_cap s3 m3 OB HN R1 R3 RF E3 L1 L2)
    as (k & HK & HR).
  exists k, (arrived c_i). split; [exact HK|]. split; [|exact HR]. intros Q. apply arrived_same, Q.
Qed.
Print Assumptions C73_responder_partial.

(** "Each of the two can be used with any other implementation of RFC 9528" does not
    hold: a peer identified by a kid as the RFC defines it (a byte string), or one whose
    C_R is empty or one of the integers that are sent in one byte, is only accepted
    if its field, made for one text, is also right for another one: the MACs of two
    different contexts under the keys of the session are equal, or the peer's signature
    is valid for a text that it did not sign. *)
Theorem C73_peer_refuted : forall cr cf pf, crypto_ok cr ->
  forall i creds st t key s2, as_initiator cr cf i st t key s2 ->
  (certified (t_id_r t) /\ ~ plain (t_c_r t)) \/ (exists b, t_id_r t = Kid b) ->
  forall e n, n <= 8128 -> e_rx e 2 [t_m1 t] = Ok (t_m2 (cr_hmac cr) (cr_hash cr) t s2) ->
  o_ret (initiator_run cr cf pf i creds n e) = Ok tt ->
  exists id' f prk' ead', retrieve_cred cr pf (t_static_r t) creds (Some id') (CRED_R_SIZE cf) = Ok f /\
    prk_after cr (t_static_r t) st (t_prk_2e (cr_hmac cr) (cr_hash cr) t) L_SALT_3e2m (t_th2 (cr_hash cr) t) (i_x i) (f_g f) prk' /\
    mixed_up cr (t_static_r t) st L_MAC_2 key (t_prk_3e2m (cr_hmac cr) (cr_hash cr) t) (t_context_2 (cr_hash cr) t)
      (rfc_tbs (id_map (t_id_r t)) (t_th2 (cr_hash cr) t) (t_cred_r t) (t_ead_2 t))
      (f_pk f) prk' (rfc_context (context_c (t_c_r t)) id' (t_th2 (cr_hash cr) t) (f_cred f) ead')
      (rfc_tbs id' (t_th2 (cr_hash cr) t) (f_cred f) ead') s2.
Proof.
  intros cr cf pf K i creds st t key s2 F HC e n HN RX HO.
  exact (ai_mixed cr cf pf K i creds st t key s2 F HC e n HN RX HO).
Qed.
Print Assumptions C73_peer_refuted.

(** Nor does it hold for a peer that sends EAD_2 items, even the padding item: the
    initiator, who finds the right credential and key, accepts message_2 only if the
    MAC_2 with and the one without (or with a part of) the items are equal, or the
    signature is valid for both texts. *)
Theorem C73_ead_2_refuted : forall cr cf pf, crypto_ok cr ->
  forall i creds st t key s2, as_initiator cr cf i st t key s2 ->
  certified (t_id_r t) -> plain (t_c_r t) -> t_ead_2 t <> [] ->
  finds cr pf (t_static_r t) creds (id_map (t_id_r t)) (CRED_R_SIZE cf) (t_cred_r t) key ->
  forall e n, n <= 8128 -> e_rx e 2 [t_m1 t] = Ok (t_m2 (cr_hmac cr) (cr_hash cr) t s2) ->
  o_ret (initiator_run cr cf pf i creds n e) = Ok tt ->
  exists ead' k prk', ead' <> t_ead_2 t /\ (t_static_r t = false -> k = key) /\
    prk_after cr (t_static_r t) st (t_prk_2e (cr_hmac cr) (cr_hash cr) t) L_SALT_3e2m (t_th2 (cr_hash cr) t) (i_x i) key prk' /\
    mixed_up cr (t_static_r t) st L_MAC_2 key (t_prk_3e2m (cr_hmac cr) (cr_hash cr) t) (t_context_2 (cr_hash cr) t)
      (rfc_tbs (id_map (t_id_r t)) (t_th2 (cr_hash cr) t) (t_cred_r t) (t_ead_2 t)) k prk'
      (rfc_context (rfc_conn_id (t_c_r t)) (id_map (t_id_r t)) (t_th2 (cr_hash cr) t) (t_cred_r t) ead')
      (rfc_tbs (id_map (t_id_r t)) (t_th2 (cr_hash cr) t) (t_cred_r t) ead') s2.
Proof.
  intros cr cf pf K i creds st t key s2 F CR PL NE FD e n HN RX HO.
  exact (ai_ead cr cf pf K i creds st t key s2 F CR PL NE FD e n HN RX HO).
Qed.
Print Assumptions C73_ead_2_refuted.

(** The same for the responder: an initiator identified by a kid, or one that sends
    EAD_3 items. *)
Theorem C73_initiator_kid_refuted : forall cr cf pf, crypto_ok cr ->
  forall r creds st t key me su g_x c_i e1, as_responder cr cf r st t key me su g_x c_i e1 ->
  certified (t_id_r t) -> plain (t_c_r t) ->
  (exists b, t_id_i t = Kid b) \/ (certified (t_id_i t) /\ t_ead_3 t <> []) ->
  forall s2, own_field cr (t_static_r t) st (r_sk r) (r_pk r) (t_tbs_2 (cr_hmac cr) (cr_hash cr) t)
      (t_mac_2 (cr_hmac cr) (cr_hash cr) t) s2 -> lenN s2 <= 64 ->
  forall e n pk_cap s3 m3, n <= 8128 -> e_rx e 1 [] = Ok (t_m1 t) -> e_rx e 3 [t_m2 (cr_hmac cr) (cr_hash cr) t s2] = Ok m3 ->
  right_field cr (t_static_i t) st key (t_tbs_3 (cr_hmac cr) (cr_hash cr) t s2) (t_mac_3 (cr_hmac cr) (cr_hash cr) t s2) s3 ->
  t_m3 (cr_hmac cr) (cr_hash cr) (cr_aead_enc cr) t s2 s3 = Some m3 -> lenN (t_pt3 t s3) < 2 ^ 32 ->
  (certified (t_id_i t) -> finds cr pf (t_static_i t) creds (id_map (t_id_i t)) (CRED_I_SIZE cf) (t_cred_i t) key) ->
  o_ret (responder_run_extended cr cf pf r creds (C_I_SIZE cf) pk_cap n e) = Ok tt ->
  exists id' f prk' ead', retrieve_cred cr pf (t_static_i t) creds (Some id') (CRED_I_SIZE cf) = Ok f /\
    prk_after cr (t_static_i t) st (t_prk_3e2m (cr_hmac cr) (cr_hash cr) t) L_SALT_4e3m (t_th3 (cr_hash cr) t s2) (r_y r) (f_g f) prk' /\
    mixed_up cr (t_static_i t) st L_MAC_3 key (t_prk_4e3m (cr_hmac cr) (cr_hash cr) t s2) (t_context_3 (cr_hash cr) t s2)
      (rfc_tbs (id_map (t_id_i t)) (t_th3 (cr_hash cr) t s2) (t_cred_i t) (t_ead_3 t))
      (f_pk f) prk' (rfc_context [] id' (t_th3 (cr_hash cr) t s2) (f_cred f) ead')
      (rfc_tbs id' (t_th3 (cr_hash cr) t s2) (f_cred f) ead') s3.
Proof.
  intros cr cf pf K r creds st t key me su g_x c_i e1 F CR PL HC s2 O L e n pk_cap s3 m3 HN R1 R3 RF E3 LP FD HO.
  exact (ar_mixed cr cf pf K r creds st t key me su g_x c_i e1 F CR PL s2 O L HC e n pk_cap s3 m3 HN R1 R3 RF E3 LP FD HO).
Qed.
Print Assumptions C73_initiator_kid_refuted.

(** Nor for a peer whose ID_CRED is any other header map: the code keeps one x5chain or
    x5t parameter of it and forgets the rest, so that it verifies the MAC or signature
    over another ID_CRED than the peer's. Both sides. *)
Definition kept (l : list (item * item)) (id : bytes) : Prop :=
  (exists c, In (CInt 33, CBytes c) l /\ id = id_map (Chain c)) \/
  (exists a h, In (CInt 34, CArr [CInt a; CBytes h]) l /\ id = id_map (Hash a h)).
Theorem C73_other_id_refuted : forall cr cf pf, crypto_ok cr -> forall l, wf_item (CMap l) -> other_params l ->
  (forall i creds st t key s2, as_initiator cr cf i st t key s2 -> t_id_r t = Params l ->
   forall e n, n <= 8128 -> e_rx e 2 [t_m1 t] = Ok (t_m2 (cr_hmac cr) (cr_hash cr) t s2) ->
   o_ret (initiator_run cr cf pf i creds n e) = Ok tt ->
   exists id' f prk' ead', kept l id' /\ retrieve_cred cr pf (t_static_r t) creds (Some id') (CRED_R_SIZE cf) = Ok f /\
     prk_after cr (t_static_r t) st (t_prk_2e (cr_hmac cr) (cr_hash cr) t) L_SALT_3e2m (t_th2 (cr_hash cr) t) (i_x i) (f_g f) prk' /\
     mixed_up cr (t_static_r t) st L_MAC_2 key (t_prk_3e2m (cr_hmac cr) (cr_hash cr) t) (t_context_2 (cr_hash cr) t)
       (rfc_tbs (id_map (t_id_r t)) (t_th2 (cr_hash cr) t) (t_cred_r t) (t_ead_2 t))
       (f_pk f) prk' (rfc_context (context_c (t_c_r t)) id' (t_th2 (cr_hash cr) t) (f_cred f) ead')
       (rfc_tbs id' (t_th2 (cr_hash cr) t) (f_cred f) ead') s2) /\
  (forall r creds st t key me su g_x c_i e1, as_responder cr cf r st t key me su g_x c_i e1 ->
   certified (t_id_r t) -> plain (t_c_r t) -> t_id_i t = Params l ->
   forall s2, own_field cr (t_static_r t) st (r_sk r) (r_pk r) (t_tbs_2 (cr_hmac cr) (cr_hash cr) t)
       (t_mac_2 (cr_hmac cr) (cr_hash cr) t) s2 -> lenN s2 <= 64 ->
   forall e n pk_cap s3 m3, n <= 8128 -> e_rx e 1 [] = Ok (t_m1 t) -> e_rx e 3 [t_m2 (cr_hmac cr) (cr_hash cr) t s2] = Ok m3 ->
   right_field cr (t_static_i t) st key (t_tbs_3 (cr_hmac cr) (cr_hash cr) t s2) (t_mac_3 (cr_hmac cr) (cr_hash cr) t s2) s3 ->
   t_m3 (cr_hmac cr) (cr_hash cr) (cr_aead_enc cr) t s2 s3 = Some m3 -> lenN (t_pt3 t s3) < 2 ^ 32 ->
   o_ret (responder_run_extended cr cf pf r creds (C_I_SIZE cf) pk_cap n e) = Ok tt ->
   exists id' f prk' ead', kept l id' /\ retrieve_cred cr pf (t_static_i t) creds (Some id') (CRED_I_SIZE cf) = Ok f /\
     prk_after cr (t_static_i t) st (t_prk_3e2m (cr_hmac cr) (cr_hash cr) t) L_SALT_4e3m (t_th3 (cr_hash cr) t s2) (r_y r) (f_g f) prk' /\
     mixed_up cr (t_static_i t) st L_MAC_3 key (t_prk_4e3m (cr_hmac cr) (cr_hash cr) t s2) (t_context_3 (cr_hash cr) t s2)
       (rfc_tbs (id_map (t_id_i t)) (t_th3 (cr_hash cr) t s2) (t_cred_i t) (t_ead_3 t))
       (f_pk f) prk' (rfc_context [] id' (t_th3 (cr_hash cr) t s2) (f_cred f) ead')
       (rfc_tbs id' (t_th3 (cr_hash cr) t s2) (f_cred f) ead') s3).
Proof.
  intros cr cf pf K l W OP.
  assert (KE : forall j, made_of l j -> kept l (rfc_id_cred j)).
  { intros [z|c|a h] M; [contradiction|left; exists c; auto|right; exists a, h; auto]. }
  split.
  - intros i creds st t key s2 F EL e n HN RX HO.
    destruct (ai_params cr cf pf K i creds st t key s2 l F EL W OP e n HN RX HO) as (j & f & prk' & ead' & M & Q).
    exists (rfc_id_cred j), f, prk', ead'. split; [exact (KE j M)|exact Q].
  - intros r creds st t key me su g_x c_i e1 F CR PL EL s2 O L e n pk_cap s3 m3 HN R1 R3 RF E3 LP HO.
    destruct (ar_params cr cf pf K r creds st t key me su g_x c_i e1 l F CR PL s2 O L EL W OP e n pk_cap s3 m3 HN R1 R3 RF E3 LP HO)
      as (j & f & prk' & ead' & M & Q).
    exists (rfc_id_cred j), f, prk', ead'. split; [exact (KE j M)|exact Q].
Qed.
Print Assumptions C73_other_id_refuted.
(** In particular a peer that is identified neither by an x5chain with one certificate
    nor by an x5t with a numbered algorithm (C509 certificates, URIs, bags, chains of
    several certificates, ...) is never accepted, whatever its credentials. *)
Theorem C73_unknown_id_refuted : forall cr cf pf, crypto_ok cr -> forall l, wf_item (CMap l) ->
  (forall c, ~ In (CInt 33, CBytes c) l) -> (forall a h, ~ In (CInt 34, CArr [CInt a; CBytes h]) l) ->
  (forall i creds st t key s2, as_initiator cr cf i st t key s2 -> t_id_r t = Params l ->
   forall e n, n <= 8128 -> e_rx e 2 [t_m1 t] = Ok (t_m2 (cr_hmac cr) (cr_hash cr) t s2) ->
   o_ret (initiator_run cr cf pf i creds n e) <> Ok tt) /\
  (forall r creds st t key me su g_x c_i e1, as_responder cr cf r st t key me su g_x c_i e1 ->
   certified (t_id_r t) -> plain (t_c_r t) -> t_id_i t = Params l ->
   forall s2, own_field cr (t_static_r t) st (r_sk r) (r_pk r) (t_tbs_2 (cr_hmac cr) (cr_hash cr) t)
       (t_mac_2 (cr_hmac cr) (cr_hash cr) t) s2 -> lenN s2 <= 64 ->
   forall e n pk_cap s3 m3, n <= 8128 -> e_rx e 1 [] = Ok (t_m1 t) -> e_rx e 3 [t_m2 (cr_hmac cr) (cr_hash cr) t s2] = Ok m3 ->
   right_field cr (t_static_i t) st key (t_tbs_3 (cr_hmac cr) (cr_hash cr) t s2) (t_mac_3 (cr_hmac cr) (cr_hash cr) t s2) s3 ->
   t_m3 (cr_hmac cr) (cr_hash cr) (cr_aead_enc cr) t s2 s3 = Some m3 -> lenN (t_pt3 t s3) < 2 ^ 32 ->
   o_ret (responder_run_extended cr cf pf r creds (C_I_SIZE cf) pk_cap n e) <> Ok tt).
Proof.
  intros cr cf pf K l W N1 N2.
  assert (OP : other_params l). { split; [intros c ->; exact (N1 c (or_introl eq_refl))|intros a h ->; exact (N2 a h (or_introl eq_refl))]. }
  assert (NK : forall id, ~ kept l id). { intros id [(c & I & _)|(a & h & I & _)]; [exact (N1 c I)|exact (N2 a h I)]. }
  destruct (C73_other_id_refuted cr cf pf K l W OP) as [A B]. split.
  - intros i creds st t key s2 F EL e n HN RX HO. destruct (A i creds st t key s2 F EL e n HN RX HO) as (id' & f & p & d & M & _).
    exact (NK id' M).
  - intros r creds st t key me su g_x c_i e1 F CR PL EL s2 O L e n pk_cap s3 m3 HN R1 R3 RF E3 LP HO.
    destruct (B r creds st t key me su g_x c_i e1 F CR PL EL s2 O L e n pk_cap s3 m3 HN R1 R3 RF E3 LP HO) as (id' & f & p & d & M & _).
    exact (NK id' M).
Qed.
Print Assumptions C73_unknown_id_refuted.

(** A party whose own ID_CRED has the form of the RFC for a kid cannot run at all:
    the responder sends nothing, and the initiator gets no key. *)
Theorem C73_own_kid_refuted : forall cr cf pf, crypto_ok cr ->
  forall b, lenN b < 2 ^ 64 ->
  (forall r creds ci_cap pk_cap n e, r_id_cred r = id_map (Kid b) ->
     let o := responder_run_extended cr cf pf r creds ci_cap pk_cap n e in
     o_sent o = [] /\ o_prk o = None /\ o_ret o <> Ok tt) /\
  (forall i creds n e, i_id_cred i = id_map (Kid b) -> n <= 8128 -> o_prk (initiator_run cr cf pf i creds n e) = None).
Proof.
  intros cr cf pf K b L. split.
  - intros r creds ci_cap pk_cap n e HI. cbv zeta. unfold responder_run_extended.
    destruct (receive cf e 1 []) as [m1|?|?]; try (repeat split; discriminate).
    destruct (msg2_gen cr cf r m1 ci_cap) as [[ci rc']|?|?] eqn:E; try (repeat split; discriminate). exfalso.
    apply (msg2_gen_sound cr cf K) in E as (me & su & g_x & ead & sr & pt2 & _ & _ & _ & _ & (sg & cap & P & _) & _).
    rewrite HI in P. exact (rfc_kid_plaintext cf _ b sg _ cap pt2 L P).
  - intros i creds n e HI HN. unfold initiator_run, initiator_run_extended.
    destruct (msg1_gen cr cf i) as [[[m1 st] h1]|?|?] eqn:E1; try reflexivity.
    destruct (e_tx e 1 m1) as [?|?|?]; try reflexivity. destruct (receive cf e 2 [m1]) as [m2|?|?]; try reflexivity.
    destruct (msg3_gen cr cf pf i st h1 m2 creds (C_R_SIZE cf) n) as [[[af m3] prk]|?|?] eqn:E3; try reflexivity.
    destruct (authentication_type_get (i_method i) (false, false)) as [si sr] eqn:EA.
    destruct prk as [p|]; [exfalso|destruct (e_ead e 2 (a2_ead af)); reflexivity].
    assert (GS : exists l, get_suite l = Ok st).
    { unfold msg1_gen in E1. repeat (apply bind_ok in E1 as (? & ? & E1)). injection E1 as _ -> _. eauto. }
    destruct GS as (l & GS).
    destruct (msg3_gen_sound cr cf pf K l _ _ _ _ _ _ _ _ _ _ si sr GS EA HN E3) as [_ E4].
    destruct (E4 p eq_refl) as (pt3 & ct3 & _ & _ & (sg & cap & P & _) & _). rewrite HI in P.
    exact (rfc_kid_plaintext cf _ b sg _ cap pt3 L P).
Qed.
Print Assumptions C73_own_kid_refuted.

(** Nor is anything made of an own ID_CRED with an entry that is not one of [own_param]: several
    certificates, URIs that are text strings, parameters without a number here. *)
Theorem C73_own_params_refuted : forall cr cf pf, crypto_ok cr ->
  forall l, wf_item (CMap l) -> (exists p, In p l /\ ~ own_param p) ->
  (forall r creds ci_cap pk_cap n e, r_id_cred r = id_map (Params l) ->
     let o := responder_run_extended cr cf pf r creds ci_cap pk_cap n e in
     o_sent o = [] /\ o_prk o = None /\ o_ret o <> Ok tt) /\
  (forall i creds n e, i_id_cred i = id_map (Params l) -> n <= 8128 -> o_prk (initiator_run cr cf pf i creds n e) = None).
Proof.
  intros cr cf pf K l W (q & HQ & NQ).
  assert (NO : forall c sg ead cap pt, plaintext_gen cf c (id_map (Params l)) sg ead cap <> Ok pt).
  { intros c sg ead cap pt E. apply own_plaintext in E; [|exact W]. rewrite Forall_forall in E. auto. }
  split.
  - intros r creds ci_cap pk_cap n e HI. cbv zeta. unfold responder_run_extended.
    destruct (receive cf e 1 []) as [m1|?|?]; try (repeat split; discriminate).
    destruct (msg2_gen cr cf r m1 ci_cap) as [[ci rc']|?|?] eqn:E; try (repeat split; discriminate). exfalso.
    apply (msg2_gen_sound cr cf K) in E as (me & su & g_x & ead & sr & pt2 & _ & _ & _ & _ & (sg & cap & P & _) & _).
    rewrite HI in P. exact (NO _ sg _ cap pt2 P).
  - intros i creds n e HI HN. unfold initiator_run, initiator_run_extended.
    destruct (msg1_gen cr cf i) as [[[m1 st] h1]|?|?] eqn:E1; try reflexivity.
    destruct (e_tx e 1 m1) as [?|?|?]; try reflexivity. destruct (receive cf e 2 [m1]) as [m2|?|?]; try reflexivity.
    destruct (msg3_gen cr cf pf i st h1 m2 creds (C_R_SIZE cf) n) as [[[af m3] prk]|?|?] eqn:E3; try reflexivity.
    destruct (authentication_type_get (i_method i) (false, false)) as [si sr] eqn:EA.
    destruct prk as [p|]; [exfalso|destruct (e_ead e 2 (a2_ead af)); reflexivity].
    assert (GS : exists l, get_suite l = Ok st).
    { unfold msg1_gen in E1. repeat (apply bind_ok in E1 as (? & ? & E1)). injection E1 as _ -> _. eauto. }
    destruct GS as (l' & GS).
    destruct (msg3_gen_sound cr cf pf K l' _ _ _ _ _ _ _ _ _ _ si sr GS EA HN E3) as [_ E4].
    destruct (E4 p eq_refl) as (pt3 & ct3 & _ & _ & (sg & cap & P & _) & _). rewrite HI in P.
    exact (NO _ sg _ cap pt3 P).
Qed.
Print Assumptions C73_own_params_refuted.

(** A responder whose own C_R is empty or one of those integers either sends nothing, or
    a message_2 whose field it made for another context than the peer will check: a
    peer that follows the RFC finds its field right only if the two are mixed up. *)
Theorem C73_own_c_r_refuted : forall cr cf pf, crypto_ok cr ->
  forall r creds st t key me su g_x c_i e1, as_responder cr cf r st t key me su g_x c_i e1 ->
  certified (t_id_r t) -> ~ plain (t_c_r t) ->
  forall pk_cap n e, e_rx e 1 [] = Ok (t_m1 t) ->
  let ctx := rfc_context (context_c (t_c_r t)) (id_map (t_id_r t)) (t_th2 (cr_hash cr) t) (t_cred_r t) [] in
  let tbs := rfc_tbs (id_map (t_id_r t)) (t_th2 (cr_hash cr) t) (t_cred_r t) [] in
  let prk := t_prk_3e2m (cr_hmac cr) (cr_hash cr) t in
  let m := rfc_mac (cr_hmac cr) prk L_MAC_2 ctx (if t_static_r t then edhoc_mac_len_static_dh st else 32) in
  forall m2 l, o_sent (responder_run_extended cr cf pf r creds (C_I_SIZE cf) pk_cap n e) = m2 :: l ->
  exists s2, m2 = t_m2 (cr_hmac cr) (cr_hash cr) t s2 /\ own_field cr (t_static_r t) st (r_sk r) (r_pk r) (tbs m) m s2 /\
    forall pk, (forall x s, cr_sign cr (sign_sel (edhoc_sign st)) (r_sk r) (r_pk r) x = Some s ->
                  cr_verify cr (sign_sel (edhoc_sign st)) pk x s = Some true) ->
      right_field cr (t_static_r t) st pk (t_tbs_2 (cr_hmac cr) (cr_hash cr) t) (t_mac_2 (cr_hmac cr) (cr_hash cr) t) s2 ->
      mixed_up cr (t_static_r t) st L_MAC_2 pk prk (t_context_2 (cr_hash cr) t) tbs pk prk ctx tbs s2.
Proof.
  intros cr cf pf K r creds st t key me su g_x c_i e1 F CR NP pk_cap n e RX. cbv zeta. intros m2 l HS.
  exact (ar_c_r_mixed cr cf pf K r creds st t key me su g_x c_i e1 F CR NP pk_cap n e RX m2 l HS).
Qed.
Print Assumptions C73_own_c_r_refuted.

(** RFC 9528 section 3.8: a recipient that does not recognize a critical EAD item (label
    below 0) must discontinue. The responder continues, and the application is not told. *)
Theorem C73_critical_ead_refuted : forall cr cf pf, crypto_ok cr ->
  forall r creds st t key me su g_x c_i label rest, (- 2 ^ 31 <= label < 0)%Z ->
  as_responder cr cf r st t key me su g_x c_i (cbor (CInt label) ++ rest) ->
  certified (t_id_r t) -> certified (t_id_i t) -> plain (t_c_r t) -> t_ead_3 t = [] ->
  finds cr pf (t_static_i t) creds (id_map (t_id_i t)) (CRED_I_SIZE cf) (t_cred_i t) key ->
  exists s2, forall e n pk_cap s3 m3, obliging e -> n <= 8128 -> e_rx e 1 [] = Ok (t_m1 t) ->
    e_rx e 3 [t_m2 (cr_hmac cr) (cr_hash cr) t s2] = Ok m3 ->
    right_field cr (t_static_i t) st key (t_tbs_3 (cr_hmac cr) (cr_hash cr) t s2) (t_mac_3 (cr_hmac cr) (cr_hash cr) t s2) s3 ->
    t_m3 (cr_hmac cr) (cr_hash cr) (cr_aead_enc cr) t s2 s3 = Some m3 ->
    lenN m3 <= CIPHERTEXT3_SIZE cf -> lenN m3 <= MSG_MAX_SIZE cf ->
    let o := responder_run_extended cr cf pf r creds (C_I_SIZE cf) pk_cap n e in
    o_ret o = Ok tt /\ o_eads o = [repeat 0 (N.to_nat (EAD_SIZE cf)); []] /\
    o_prk o = Some (t_prk_out (cr_hmac cr) (cr_hash cr) t s2 s3 n).
Proof.
  intros cr cf pf K r creds st t key me su g_x c_i label rest HL F CR CI PL NE FD.
  destruct (C73_responder_partial cr cf pf K r creds st t key me su g_x c_i _ F CR CI PL NE FD) as (s2 & _ & HR).
  exists s2. intros e n pk_cap s3 m3 OB HN R1 R3 RF E3 L1 L2.
  destruct (HR e n pk_cap s3 m3 OB HN R1 R3 RF E3 L1 L2) as (k & c' & _ & _ & ->). repeat split.
Qed.
Print Assumptions C73_critical_ead_refuted.

(* ---------- sessions that meet the hypotheses ---------- *)

Definition st2 : suite := {| suite_label := 2; edhoc_aead := AES_CCM_16_64_128; edhoc_mac_len_static_dh := 8;
  edhoc_ecdh := P256; edhoc_sign := ES256; app_aead := AES_CCM_16_64_128 |}.
(** method 3 and suite 2; the responder's identifiers and EAD_2, and those of the initiator vary *)
Definition sess (e1 c_r : bytes) (id_r : peer_id) (ead_2 : bytes) (id_i : peer_id) (ead_3 : bytes) : talk := {|
  t_m1 := rfc_message_1 3 [2] (repeat 11 32) [1; 2] [] ++ e1; t_g_y := repeat 21 32;
  t_g_xy := be_enc 32 (be_val (repeat 11 32) + be_val (repeat 21 32));
  t_static_r := true; t_g_rx := be_enc 32 (be_val (repeat 11 32) + be_val (repeat 22 32));
  t_static_i := true; t_g_iy := be_enc 32 (be_val (repeat 12 32) + be_val (repeat 21 32));
  t_c_r := c_r; t_id_r := id_r; t_cred_r := toy_cred_r; t_ead_2 := ead_2;
  t_id_i := id_i; t_cred_i := toy_cred_i; t_ead_3 := ead_3; t_mac_len := 8 |}.
Definition x_r : peer_id := Hash (-15) [0x79; 0xF2; 1; 2; 3; 4; 5; 6].
Definition x_i : peer_id := Hash (-15) [0xC2; 0x4A; 1; 2; 3; 4; 5; 6].
(** a C509 certificate; the x5t of above beside an x5chain; a chain of two certificates *)
Definition p_c509 : list (item * item) := [(CInt 53, CBytes [1; 2; 3])].
Definition p_two (h : bytes) : list (item * item) := [(CInt 33, CBytes [9; 9]); (CInt 34, CArr [CInt (-15); CBytes h])].
Definition p_chain : list (item * item) := [(CInt 33, CArr [CBytes [1; 2]; CBytes [3]])].
Definition h_r : bytes := [0x79; 0xF2; 1; 2; 3; 4; 5; 6].
Definition h_i : bytes := [0xC2; 0x4A; 1; 2; 3; 4; 5; 6].
Definition party_i (id : peer_id) : initiator := {|
  i_c_i := [1; 2]; i_method := 3; i_suites := [2]; i_ead_1 := []; i_ead_3 := []; i_id_cred := id_map id; i_cred := toy_cred_i;
  i_g_x := repeat 11 32; i_x := repeat 11 32; i_g_i := repeat 12 32; i_i := repeat 12 32; i_sk := repeat 13 32; i_pk := repeat 13 32 |}.
Definition party_r (c_r : bytes) (id : peer_id) : responder := {|
  r_c_r := c_r; r_suites := [2]; r_g_y := repeat 21 32; r_y := repeat 21 32; r_g_r := repeat 22 32; r_r := repeat 22 32; r_ead_2 := [];
  r_id_cred := id_map id; r_cred := toy_cred_r; r_sk := repeat 23 32; r_pk := repeat 23 32 |}.
(** the responder, under both of its identifiers *)
Definition known_r : list other_party_cred := [
  {| oc_id_cred := id_map x_r; oc_cred := toy_cred_r; oc_pk := repeat 23 32; oc_g := repeat 22 32; oc_ca := []; oc_ca_pk := [] |};
  {| oc_id_cred := [0xA1; 4; 5]; oc_cred := toy_cred_r; oc_pk := repeat 23 32; oc_g := repeat 22 32; oc_ca := []; oc_ca_pk := [] |}].
Definition known_i : list other_party_cred := [
  {| oc_id_cred := id_map x_i; oc_cred := toy_cred_i; oc_pk := repeat 13 32; oc_g := repeat 12 32; oc_ca := []; oc_ca_pk := [] |};
  {| oc_id_cred := [0xA1; 4; 5]; oc_cred := toy_cred_i; oc_pk := repeat 13 32; oc_g := repeat 12 32; oc_ca := []; oc_ca_pk := [] |}].
Definition m_2 (t : talk) : bytes := t_mac_2 (cr_hmac toy_crypto) (cr_hash toy_crypto) t.
Definition run_i (t : talk) : outcome :=
  initiator_run toy_crypto default_cfg toy_pf (party_i (t_id_i t)) known_r 32
    (toy_env (Ok (t_m2 (cr_hmac toy_crypto) (cr_hash toy_crypto) t (m_2 t))) (Err not_implemented)).
Definition run_r (t : talk) : outcome :=
  responder_run_extended toy_crypto default_cfg toy_pf (party_r (t_c_r t) (t_id_r t)) known_i 10 None 32
    (toy_env (Ok (t_m1 t))
      match t_m3 (cr_hmac toy_crypto) (cr_hash toy_crypto) (cr_aead_enc toy_crypto) t (m_2 t)
              (t_mac_3 (cr_hmac toy_crypto) (cr_hash toy_crypto) t (m_2 t)) with
      | Some m => Ok m | None => Err not_implemented end).
Lemma sess_initiator c_r id_r ead_2 : In (c_r, id_r, ead_2) [([7; 8], x_r, []); ([7; 8], x_r, [0; 0x41; 9]); ([3], x_r, []);
    ([0x22], x_r, []); ([], x_r, []); ([7; 8], Kid [5], []); ([7; 8], Kid [1; 2], []);
    ([7; 8], Params p_c509, []); ([7; 8], Params (p_two h_r), []); ([7; 8], Params p_chain, [])] ->
  let t := sess [] c_r id_r ead_2 x_i [] in as_initiator toy_crypto default_cfg (party_i x_i) st2 t (repeat 22 32) (m_2 t).
Proof.
  assert (B : forall l : list N, forallb (fun b => b <? 256) l = true -> is_bytes l) by apply is_bytes_dec.
  assert (C : forall P : bytes -> peer_id -> bytes -> Prop, P [7; 8] x_r [] -> P [7; 8] x_r [0; 0x41; 9] -> P [3] x_r [] -> P [0x22] x_r [] ->
    P [] x_r [] -> P [7; 8] (Kid [5]) [] -> P [7; 8] (Kid [1; 2]) [] ->
    P [7; 8] (Params p_c509) [] -> P [7; 8] (Params (p_two h_r)) [] -> P [7; 8] (Params p_chain) [] -> In (c_r, id_r, ead_2) [([7; 8], x_r, []); ([7; 8], x_r, [0; 0x41; 9]); ([3], x_r, []);
    ([0x22], x_r, []); ([], x_r, []); ([7; 8], Kid [5], []); ([7; 8], Kid [1; 2], []);
    ([7; 8], Params p_c509, []); ([7; 8], Params (p_two h_r), []); ([7; 8], Params p_chain, [])] -> P c_r id_r ead_2).
  { intros P P1 P2 P3 P4 P5 P6 P7 P8 P9 P10 HI. repeat (destruct HI as [E|HI]; [injection E as <- <- <-; assumption|]). destruct HI. }
  intros HI. cbv zeta. constructor.
  - reflexivity.
  - split; apply N.leb_le; reflexivity.
  - reflexivity.
  - reflexivity.
  - reflexivity.
  - reflexivity.
  - split; [vm_compute; reflexivity|discriminate].
  - intros _. split; [vm_compute; reflexivity|discriminate].
  - split; [vm_compute; reflexivity|discriminate].
  - reflexivity.
  - discriminate.
  - repeat (split; [reflexivity|]). apply B. reflexivity.
  - reflexivity.
  - apply N.leb_le. reflexivity.
  - apply N.leb_le. revert HI. apply (C (fun c i e => lenN c <=? 10 = true)); reflexivity.
  - apply N.leb_le. revert HI. apply (C (fun c i e => lenN (id_map i) <=? ID_CRED_R_SIZE default_cfg = true)); reflexivity.
  - repeat split; apply N.leb_le; reflexivity.
  - split; [discriminate|apply N.leb_le; reflexivity].
  - split; [discriminate|apply N.leb_le; reflexivity].
  - apply N.leb_le. revert HI. apply (C (fun c i e => let t := sess [] c i e x_i [] in
      lenN (t_m2 (cr_hmac toy_crypto) (cr_hash toy_crypto) t (m_2 t)) <=? MSG_MAX_SIZE default_cfg = true)); vm_compute; reflexivity.
  - revert HI. apply (C (fun c i e => let t := sess [] c i e x_i [] in let n := lenN (t_pt2 t (m_2 t)) in
      n <= 8128 /\ (if (224 <=? n) && (n <=? 252) then n + 1 else n) <= CIPHERTEXT2_SIZE default_cfg));
      vm_compute; split; discriminate.
Qed.
(** A session of two parties with certificates; sessions with an EAD_2 item, with a C_R
    that is sent in one byte or is empty, and with a kid: the first one is accepted and all
    others, in which the peer does what the RFC asks for, are not. *)
Example C73_initiator_example :
  let t := sess [] [7; 8] x_r [] x_i [] in
  certified x_r /\ certified x_i /\ plain [7; 8] /\
  finds toy_crypto toy_pf true known_r (id_map x_r) (CRED_R_SIZE default_cfg) toy_cred_r (repeat 22 32) /\
  o_ret (run_i t) = Ok tt /\ lenN (o_sent (run_i t)) = 2 /\
  o_ret (run_i (sess [] [7; 8] x_r [0; 0x41; 9] x_i [])) = Err mac_authentication_failed /\
  o_ret (run_i (sess [] [3] x_r [] x_i [])) = UB OobRead /\
  o_ret (run_i (sess [] [0x22] x_r [] x_i [])) = Err mac_authentication_failed /\
  o_ret (run_i (sess [] [] x_r [] x_i [])) = Err mac_authentication_failed /\
  o_ret (run_i (sess [] [7; 8] (Kid [5]) [] x_i [])) = Err mac_authentication_failed /\
  o_ret (run_i (sess [] [7; 8] (Kid [1; 2]) [] x_i [])) = UB Uninit.
Proof.
  cbv zeta. split; [split; [lia|reflexivity]|]. split; [split; [lia|reflexivity]|]. split; [split; [discriminate|reflexivity]|].
  split; [eexists; split; [vm_compute; reflexivity|split; reflexivity]|]. vm_compute. repeat split.
Qed.
Lemma sess_responder e1 c_r id_i ead_3 : In (e1, c_r, id_i, ead_3) [([], [7; 8], x_i, []); ([0x24; 0x41; 1], [7; 8], x_i, []);
    ([], [7; 8], x_i, [0; 0x41; 9]); ([], [7; 8], Kid [5], []); ([], [7; 8], Kid [1; 2], []); ([], [0x22], x_i, []); ([], [], x_i, []);
    ([], [7; 8], Params p_c509, []); ([], [7; 8], Params (p_two h_i), []); ([], [7; 8], Params p_chain, [])] ->
  let t := sess e1 c_r x_r [] id_i ead_3 in
  as_responder toy_crypto default_cfg (party_r c_r x_r) st2 t (repeat 12 32) 3 [2] (repeat 11 32) [1; 2] e1.
Proof.
  set (L := [([], [7; 8], x_i, []); ([0x24; 0x41; 1], [7; 8], x_i, []);
    ([], [7; 8], x_i, [0; 0x41; 9]); ([], [7; 8], Kid [5], []); ([], [7; 8], Kid [1; 2], []); ([], [0x22], x_i, []); ([], [], x_i, []);
    ([], [7; 8], Params p_c509, []); ([], [7; 8], Params (p_two h_i), []); ([], [7; 8], Params p_chain, [])]).
  assert (C : forall P : bytes -> bytes -> peer_id -> bytes -> Prop, Forall (fun q => let '(a, b, c, d) := q in P a b c d) L ->
    In (e1, c_r, id_i, ead_3) L -> P e1 c_r id_i ead_3).
  { intros P F HI. exact (proj1 (Forall_forall _ _) F _ HI). }
  intros HI. cbv zeta. constructor.
  - reflexivity.
  - revert HI. apply (C (fun e c i d => ead_items e)). unfold L.
    repeat (constructor; [first [left; reflexivity|right; exists (-5)%Z, [0x41; 1]; split; [lia|reflexivity]]|]). constructor.
  - reflexivity.
  - split; [apply is_bytes_dec; reflexivity|]. repeat split; apply N.leb_le; reflexivity.
  - reflexivity.
  - discriminate.
  - reflexivity.
  - reflexivity.
  - split; reflexivity.
  - split; [vm_compute; reflexivity|discriminate].
  - split; [vm_compute; reflexivity|discriminate].
  - intros _. split; [vm_compute; reflexivity|discriminate].
  - discriminate.
  - repeat split.
  - reflexivity.
  - apply N.leb_le. revert HI. apply (C (fun e c i d => lenN (t_m1 (sess e c x_r [] i d)) <=? MSG_MAX_SIZE default_cfg = true)).
    unfold L. repeat (constructor; [vm_compute; reflexivity|]). constructor.
  - apply N.leb_le. reflexivity.
  - cut (lenN c_r <= 10); [intros Q; split; exact Q|]. apply N.leb_le. revert HI. apply (C (fun e c i d => lenN c <=? 10 = true)).
    unfold L. repeat (constructor; [vm_compute; reflexivity|]). constructor.
  - apply N.leb_le. reflexivity.
  - apply N.leb_le. revert HI. apply (C (fun e c i d => lenN (id_map i) <=? ID_CRED_I_SIZE default_cfg = true)).
    unfold L. repeat (constructor; [vm_compute; reflexivity|]). constructor.
  - split; [discriminate|apply N.leb_le; reflexivity].
  - split; [discriminate|apply N.leb_le; reflexivity].
  - intros s2 LS. assert (LC : lenN (rfc_conn_id c_r) <= 3).
    { apply N.leb_le. revert HI. apply (C (fun e c i d => lenN (rfc_conn_id c) <=? 3 = true)).
      unfold L. repeat (constructor; [vm_compute; reflexivity|]). constructor. }
    assert (LP : lenN (t_pt2 (sess e1 c_r x_r [] id_i ead_3) s2) <= 200).
    { unfold t_pt2. cbn [sess t_c_r t_id_r t_ead_2]. rewrite !lenN_app, cbor_bytes. change (lenN (id_short x_r)) with 14. change (lenN []) with 0.
      pose proof (enc_bstr_len_le s2). lia. }
    split; [lia|]. unfold t_m2. rewrite cbor_bytes.
    assert (LX : forall a b, lenN (rfc_xor a b) <= lenN a).
    { intros a b. rewrite rfc_xor_eq. unfold lenN. revert b. induction a as [|x a IH]; intros [|y b]; cbn; try lia. specialize (IH b). cbn in IH. lia. }
    match goal with |- lenN (enc_bstr (?g ++ ?x)) <= _ => assert (LE : lenN (g ++ x) <= 232) end.
    { rewrite lenN_app. cbn [sess t_g_y]. change (lenN (repeat 21 32)) with 32. eapply N.le_trans; [apply N.add_le_mono_l, LX|]. lia. }
    eapply N.le_trans; [apply enc_bstr_len_le|]. eapply N.le_trans; [apply N.add_le_mono_l, LE|]. apply N.leb_le. reflexivity.
Qed.
(** The first session, and also the one with a critical EAD_1 item, are accepted; those with an
    EAD_3 item or with a kid are not. *)
Example C73_responder_example :
  let t := sess [] [7; 8] x_r [] x_i [] in
  finds toy_crypto toy_pf true known_i (id_map x_i) (CRED_I_SIZE default_cfg) toy_cred_i (repeat 12 32) /\
  o_ret (run_r t) = Ok tt /\ o_prk (run_r t) = o_prk (run_i t) /\
  o_ret (run_r (sess [0x24; 0x41; 1] [7; 8] x_r [] x_i [])) = Ok tt /\
  o_ret (run_r (sess [] [7; 8] x_r [] x_i [0; 0x41; 9])) = Err mac_authentication_failed /\
  o_ret (run_r (sess [] [7; 8] x_r [] (Kid [5]) [])) = Err mac_authentication_failed /\
  o_ret (run_r (sess [] [7; 8] x_r [] (Kid [1; 2]) [])) = UB Uninit /\
  o_ret (run_r (sess [] [7; 8] (Kid [5]) [] x_i [])) = UB Uninit /\
  o_ret (run_r (sess [] [3] x_r [] x_i [])) = UB OobRead /\
  lenN (o_sent (run_r (sess [] [0x22] x_r [] x_i []))) = 1.
Proof.
  cbv zeta. split; [eexists; split; [vm_compute; reflexivity|split; reflexivity]|]. vm_compute. repeat split.
Qed.

(** Peers with the other maps: their parameters are well formed, and neither party accepts them. *)
Example C73_other_id_example :
  wf_item (CMap p_c509) /\ wf_item (CMap (p_two h_r)) /\ wf_item (CMap p_chain) /\
  other_params p_c509 /\ other_params (p_two h_r) /\ other_params p_chain /\
  (forall l c, In l [p_c509; p_chain] -> ~ In (CInt 33, CBytes c) l) /\
  (forall l a h, In l [p_c509; p_chain] -> ~ In (CInt 34, CArr [CInt a; CBytes h]) l) /\
  o_ret (run_i (sess [] [7; 8] (Params p_c509) [] x_i [])) = UB Uninit /\
  o_ret (run_i (sess [] [7; 8] (Params p_chain) [] x_i [])) = Err unexpected_result_from_ext_lib /\
  o_ret (run_i (sess [] [7; 8] (Params (p_two h_r)) [] x_i [])) <> Ok tt /\
  o_ret (run_r (sess [] [7; 8] x_r [] (Params p_c509) [])) = UB Uninit /\
  o_ret (run_r (sess [] [7; 8] x_r [] (Params p_chain) [])) = Err unexpected_result_from_ext_lib /\
  o_ret (run_r (sess [] [7; 8] x_r [] (Params (p_two h_i)) [])) <> Ok tt.
Proof.
  do 3 (split; [cbn; intuition (try lia; try reflexivity)|]).
  do 3 (split; [split; intros; discriminate|]).
  split; [intros l c [<-|[<-|[]]] [E|[]]; discriminate|]. split; [intros l a h [<-|[<-|[]]] [E|[]]; discriminate|].
  vm_compute. repeat split; discriminate.
Qed.
Example C73_own_params_example :
  wf_item (CMap p_chain) /\ (exists p, In p p_chain /\ ~ own_param p) /\ Forall own_param p_c509 /\
  (let o := run_r (sess [] [7; 8] (Params p_chain) [] x_i []) in
   o_sent o = [] /\ o_ret o = Err unexpected_result_from_ext_lib) /\
  lenN (o_sent (run_r (sess [] [7; 8] (Params p_c509) [] x_i []))) = 1.
Proof.
  split; [cbn; repeat split; try lia; reflexivity|]. split.
  { eexists. split; [left; reflexivity|]. intros [(z & E)|[(k & b & HK & E)|(k & a & h & HK & E)]]; [discriminate E|discriminate E|].
    injection E as <- <-. cbn in HK. intuition discriminate. }
  split; [constructor; [|constructor]; right; left; exists 53%Z, [1; 2; 3]; split; [cbn; tauto|reflexivity]|].
  split; [split|]; vm_compute; reflexivity.
Qed.
