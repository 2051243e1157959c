(** Property C58 in the build with MESSAGE_4: message_4 adds nothing that makes an
    initiator misbehave; the responder also has to have room for message_4. *)
From Verif Require Import Base Proof_Base Model_Common Model_Cbor Proof_Cbor Model_Crypto
  Spec_CborTree Proof_CborTree Spec_Hkdf Proof_Hkdf Spec_Edhoc Model_EdhocCfg Model_EdhocCbor Model_EdhocKeys
  Proof_EdhocBase Model_EdhocCert Model_EdhocMsg Model_EdhocRun Model_EdhocMsg4 Proof_EdhocMsg1 Proof_EdhocMsg Proof_EdhocRun
  Spec_EdhocRun Spec_EdhocView Proof_EdhocAgree Proof_EdhocSound Proof_EdhocMsg4 Proof_EdhocSafe Spec_EdhocUb Proof_EdhocUb
  Model_Toy Proof_Toy Model_ToyEdhoc Prop_EdhocMsg4 Prop_EdhocUb.

Lemma no_ub_key_gen_4 cr cf st prk th : crypto_ok cr -> no_ub (key_gen_4 cr cf st prk th).
Proof.
  intros K. unfold key_gen_4. apply no_ub_bind; [apply no_ub_kdf; [exact K|destruct (edhoc_aead st); cbn; lia]|].
  intros k _. apply no_ub_bind; [apply no_ub_kdf; [exact K|destruct (edhoc_aead st); cbn; lia]|]. discriminate.
Qed.
Lemma no_ub_msg4_process cr cf st ead prk th m : crypto_ok cr -> no_ub (msg4_process cr cf st ead prk th m).
Proof.
  intros K. unfold msg4_process, ciphertext4_decrypt, ead4_get.
  apply no_ub_bind.
  { unfold decode_bstr. apply no_ub_bind; [apply no_ub_ext|]. intros [b r] _. apply no_ub_bind; [apply no_ub_check|discriminate]. }
  intros ct _. apply no_ub_bind; [apply no_ub_new|]. intros ? _. apply no_ub_bind; [apply no_ub_new|]. intros ? _.
  apply no_ub_bind; [now apply no_ub_key_gen_4|]. intros [key iv] _. apply no_ub_bind; [apply no_ub_aad|]. intros aad _. cbv zeta.
  destruct (_ <? _); [discriminate|]. apply no_ub_bind; [apply no_ub_ext|]. intros pt _. destruct (_ =? _); [discriminate|].
  apply no_ub_bind; [apply no_ub_ext|]. intros [b r] _. destruct (_ =? _); [discriminate|]. destruct (_ =? _); [discriminate|].
  apply no_ub_bind; [apply no_ub_check|discriminate].
Qed.
(** what can go wrong in message_4: the tag does not fit *)
Lemma msg4_gen_ub cr cf st ead prk th cap u : crypto_ok cr -> msg4_gen cr cf st ead prk th cap = UB u ->
  EAD_SIZE cf + 8 < lenN ead + get_aead_mac_len (edhoc_aead st).
Proof.
  intros K H. unfold msg4_gen, ciphertext4_gen in H. apply bind_ub in H as [H|(ct & _ & H)]; [|now apply no_ub_encode in H].
  apply bind_ub in H as [H|(x & _ & H)]; [now apply no_ub_new in H|]. apply bind_ub in H as [H|(y & _ & H)]; [now apply no_ub_encode in H|].
  apply bind_ub in H as [H|(p & EP & H)].
  { destruct (_ <? _) in H; [now apply no_ub_append in H|discriminate]. }
  assert (LP : lenN p <= lenN ead).
  { destruct (N.ltb_spec 0 (lenN ead)) in EP; [|injection EP as <-; apply N.le_0_l].
    unfold append in EP. destruct (_ <? _) in EP; [discriminate|]. injection EP as <-. cbn [app]. lia. }
  apply bind_ub in H as [H|(z & _ & H)]; [now apply no_ub_new in H|]. apply bind_ub in H as [H|([key iv] & _ & H)]; [now apply no_ub_key_gen_4 in H|].
  apply bind_ub in H as [H|(aad & _ & H)]; [now apply no_ub_aad in H|]. cbv zeta in H.
  match type of H with context [if ?a <? ?b then _ else _] => destruct (N.ltb_spec a b) as [Q|Q]; [|now apply no_ub_ext in H] end.
  unfold CIPHERTEXT4_SIZE, PLAINTEXT4_SIZE in Q. change COSE_ENC0_STR_LEN with 8 in Q. lia.
Qed.

(** Whatever is received as message_2 and message_4, an initiator of the build with
    MESSAGE_4 misbehaves only if message_2 is one of those of C58_initiator_partial:
    no message_4 does any harm. *)
Theorem C58_initiator_4_partial :
  forall (cr : crypto) (cf : cfg) (pf : platform) (i : initiator) (creds : list other_party_cred) (c_cap n : N) (e : env) (id_i : cred_id),
  crypto_ok cr -> usable_cfg cf -> set_up_initiator i id_i -> n <= 8128 -> correct_callbacks cf e ->
  is_ub (o_ret (initiator_run4_extended cr cf pf i creds c_cap n e)) = true ->
  let m1 := rfc_message_1 (i_method i) (i_suites i) (i_g_x i) (i_c_i i) (i_ead_1 i) in
  exists st si sr m2 g_y ct rest g_xy,
    get_suite (last (i_suites i) 0) = Ok st /\ (i_method i <= 3 -> method_static (i_method i) si sr) /\
    e_rx e 2 [m1] = Ok m2 /\ dec_bstr m2 = Some (g_y ++ ct, rest) /\ lenN g_y = 32 /\
    cr_dh cr (ecdh_id (edhoc_ecdh st)) (key_bytes (edhoc_ecdh st) (i_x i)) g_y = Some g_xy /\
    let th2 := rfc_th2 (cr_hash cr) g_y m1 in
    let prk := rfc_prk_2e (cr_hmac cr) th2 g_xy in
    harmful_2 c_cap cr cf pf i creds st sr prk th2 (rfc_xor ct (rfc_kdf (cr_hmac cr) prk L_KEYSTREAM_2 th2 (lenN ct))).
Proof.
  intros cr cf pf i creds c_cap n e id_i K UC SI HN CB H. apply (C58_initiator_partial cr cf pf i creds c_cap n e id_i K UC SI HN CB).
  destruct CB as (CT & CE & CR). pose proof (receive_quiet cf e 4) as CQ.
  unfold initiator_run4_extended in H. unfold initiator_run_extended.
  destruct (msg1_gen cr cf i) as [[[m1 st] h1]|?|?]; [|exact H..].
  destruct (e_tx e 1 m1) as [?|?|?]; [|exact H..]. destruct (receive cf e 2 [m1]) as [m2|?|?]; [|exact H..].
  destruct (msg3_gen cr cf pf i st h1 m2 creds c_cap n) as [[[am m3] prk]|?|?]; [|exact H..].
  destruct (e_ead e 2 (a2_ead am)) as [?|?|?]; [|exact H..].
  pose proof (CT 3 m3) as C3. destruct (e_tx e 3 m3) as [?|?|?]; [|exact H|discriminate C3]. exfalso.
  specialize (CQ [m1; m3] (conj CT (conj CE CR))). destruct (receive cf e 4 [m1; m3]) as [m4|?|?]; [|discriminate H|discriminate CQ].
  destruct (msg4_process _ _ _ _ _ _ _) as [ead4|?|?] eqn:E4; [|discriminate H|now apply no_ub_msg4_process in E4].
  rewrite stop_ub, CE in H. discriminate H.
Qed.
Print Assumptions C58_initiator_4_partial.

(** The same for a responder, which also misbehaves if its EAD_4 and the tag of the
    suite selected by message_1 do not fit EAD_SIZE + 8 bytes (C48_overflow_refuted). *)
Theorem C58_responder_4_partial :
  forall (cr : crypto) (cf : cfg) (pf : platform) (r : responder) (ead_4 : bytes) (creds : list other_party_cred) (ci_cap : N)
    (pk_cap : option N) (n : N) (e : env) (id_r : cred_id),
  crypto_ok cr -> usable_cfg cf -> set_up_responder r id_r -> 0 < ci_cap -> n <= 8128 -> correct_callbacks cf e ->
  is_ub (o_ret (responder_run4_extended cr cf pf r ead_4 creds ci_cap pk_cap n e)) = true ->
  exists m1 me su g_x c_i ead,
    e_rx e 1 [] = Ok m1 /\ msg1_parse cf m1 ci_cap = Ok (me, su, g_x, c_i, ead) /\
    ((last su 0 <= 1 /\ lenN g_x < 32) \/
     (exists st, get_suite (last su 0) = Ok st /\ EAD_SIZE cf + 8 < lenN ead_4 + edhoc_mac_len_static_dh st) \/
     exists st si sr m2 m3 v ct rest,
       get_suite (last su 0) = Ok st /\ method_static me si sr /\ e_rx e 3 [m2] = Ok m3 /\
       made_message_2 cr r st sr g_x m1 m2 v /\ dec_bstr m3 = Some (ct, rest) /\
       let th3 := cr_hash cr (v_th3_input cr v) in
       cr_aead_dec cr (rfc_kdf (cr_hmac cr) (v_prk_3e2m v) L_K_3 th3 16) (rfc_kdf (cr_hmac cr) (v_prk_3e2m v) L_IV_3 th3 13)
         (rfc_aad th3) (edhoc_mac_len_static_dh st) ct = Some (v_pt3 v) /\
       harmful_3 cr cf pf r creds st si (v_prk_3e2m v) th3 (v_pt3 v)).
Proof.
  intros cr cf pf r ead_4 creds ci_cap pk_cap n e id_r K UC SR HC HN CB H.
  assert (D : is_ub (o_ret (responder_run_extended cr cf pf r creds ci_cap pk_cap n e)) = true \/
    exists m1 c_i rc, e_rx e 1 [] = Ok m1 /\ msg2_gen cr cf r m1 ci_cap = Ok (c_i, rc) /\
      EAD_SIZE cf + 8 < lenN ead_4 + get_aead_mac_len (edhoc_aead (rr_suite rc))).
  { destruct CB as (CT & CE & CR). unfold responder_run4_extended in H. unfold responder_run_extended.
    destruct (receive cf e 1 []) as [m1|?|?] eqn:ER; [|left; exact H..]. apply receive_rx in ER.
    destruct (msg2_gen cr cf r m1 ci_cap) as [[c_i rc]|?|?] eqn:E2; [|left; exact H..].
    destruct (e_ead e 1 (rr_ead rc)) as [?|?|?]; [|left; exact H..]. destruct (e_tx e 2 (rr_msg rc)) as [?|?|?]; [|left; exact H..].
    destruct (receive cf e 3 [rr_msg rc]) as [m3|?|?]; [|left; exact H..]. unfold msg3_process.
    destruct (msg3_process_full _ _ _ _ _ _ _ _) as [[[[e3 k] prk] [p4 t4]]|?|?]; [|left; exact H..]. cbn [bind].
    pose proof (CE 3 e3) as C3. destruct (e_ead e 3 e3) as [?|?|?]; [|discriminate H|discriminate C3].
    destruct (msg4_gen _ _ _ _ _ _ _) as [m4|?|?] eqn:E4.
    - rewrite stop_ub, CT in H. discriminate H.
    - discriminate H.
    - right. exists m1, c_i, rc. split; [exact ER|]. split; [exact E2|]. now apply msg4_gen_ub in E4. }
  destruct D as [D|(m1 & c_i & rc & ER & E2 & Q)].
  - destruct (C58_responder_partial cr cf pf r creds ci_cap pk_cap n e id_r K UC SR HC HN CB D)
      as (m1 & me & su & g_x & c_i & ead & A & B & [C|(st & si & sr & m2 & m3 & v & ct & rest & X1 & X2 & _ & X)]).
    + exists m1, me, su, g_x, c_i, ead. auto.
    + exists m1, me, su, g_x, c_i, ead. split; [exact A|]. split; [exact B|]. right; right.
      exists st, si, sr, m2, m3, v, ct, rest. auto.
  - apply (msg2_gen_sound cr cf K) in E2. destruct E2 as (me & su & g_x & ead & sr & pt2 & P & _ & GS & _).
    exists m1, me, su, g_x, c_i, ead. split; [exact ER|]. split; [exact P|]. right; left. exists (rr_suite rc).
    split; [exact GS|]. pose proof (suite_lens _ _ GS) as (S1 & S2 & S3 & S4 & S5). rewrite S4 in Q. lia.
Qed.
Print Assumptions C58_responder_4_partial.

(** What makes a party misbehave in the build without MESSAGE_4 makes it misbehave in
    the same way with it: all counterexamples to C58 are also counterexamples there. *)
Theorem C58_both_builds :
  forall (cr : crypto) (cf : cfg) (pf : platform) (creds : list other_party_cred) (cap n : N) (e : env) (u : ub),
  (forall i, o_ret (initiator_run_extended cr cf pf i creds cap n e) = UB u ->
     o_ret (initiator_run4_extended cr cf pf i creds cap n e) = UB u) /\
  (forall r ead_4 pk_cap, o_ret (responder_run_extended cr cf pf r creds cap pk_cap n e) = UB u ->
     o_ret (responder_run4_extended cr cf pf r ead_4 creds cap pk_cap n e) = UB u).
Proof.
  intros cr cf pf creds cap n e u. split.
  - intros i H. unfold initiator_run_extended in H. unfold initiator_run4_extended.
    destruct (msg1_gen cr cf i) as [[[m1 st] h1]|?|?]; [|exact H..].
    destruct (e_tx e 1 m1) as [?|?|?]; [|exact H..]. destruct (receive cf e 2 [m1]) as [m2|?|?]; [|exact H..].
    destruct (msg3_gen cr cf pf i st h1 m2 creds cap n) as [[[am m3] prk]|?|?]; [|exact H..].
    destruct (e_ead e 2 (a2_ead am)) as [?|?|?]; [|exact H..].
    destruct (e_tx e 3 m3) as [?|?|?]; [discriminate H|exact H..].
  - intros r ead_4 pk_cap H. unfold responder_run_extended in H. unfold responder_run4_extended.
    destruct (receive cf e 1 []) as [m1|?|?]; [|exact H..]. destruct (msg2_gen cr cf r m1 cap) as [[c_i rc]|?|?]; [|exact H..].
    destruct (e_ead e 1 (rr_ead rc)) as [?|?|?]; [|exact H..]. destruct (e_tx e 2 (rr_msg rc)) as [?|?|?]; [|exact H..].
    destruct (receive cf e 3 [rr_msg rc]) as [m3|?|?]; [|exact H..]. unfold msg3_process in H.
    destruct (msg3_process_full _ _ _ _ _ _ _ _) as [[[[e3 k] prk] [p4 t4]]|?|?]; [|exact H..]. cbn [bind] in H.
    destruct (e_ead e 3 e3) as [?|?|?]; [discriminate H|exact H..].
Qed.
Print Assumptions C58_both_builds.

(** The last disjunct but one happens, with the suite 3 and an empty EAD_4. With the
    suite 2, a message_4 that is not one is refused. *)
Example C58_message_4_ex :
  let i s := toy_initiator 3 [s] [1; 2] [] in
  let r s := toy_responder [s] [7; 8] in
  let bad c := o_ret (initiator_run4 toy_crypto default_cfg toy_pf (i 2) toy_creds_r 32
    (toy_env4 (toy_m2 default_cfg (i 2) (r 2)) (Err not_implemented) (Ok c))) in
  is_ub (o_ret (toy_or4 default_cfg (i 3) (r 3) [])) = true /\
  is_ub (o_ret (toy_or4 default_cfg (i 2) (r 2) [])) = false /\
  bad [] = Err unexpected_result_from_ext_lib /\ bad [0x41; 7] = Err error_message_received /\
  bad (0x49 :: repeat 7 9) = Err buffer_to_small /\
  o_ret (responder_run4 toy_crypto default_cfg toy_pf (r 0) [] toy_creds_i 32
    (toy_env4 (Ok (rfc_message_1 0 [0] (repeat 7 31) [5; 5] [])) (Err not_implemented) (Err not_implemented))) = UB Uninit.
Proof. vm_compute. repeat split. Qed.
(** These parties and callbacks meet the hypotheses. *)
Example C58_message_4_hypotheses :
  let i := toy_initiator 3 [3] [1; 2] [] in
  let r := toy_responder [3] [7; 8] in
  usable_cfg default_cfg /\ set_up_responder r (KidInt (-3)) /\ set_up_initiator i (KidInt 5) /\
  correct_callbacks default_cfg (toy_env4 (toy_m1 default_cfg i) (toy_m3 default_cfg i r) (Err not_implemented)).
Proof.
  intros i r. split; [split; [apply N.ltb_lt; reflexivity|split; [apply N.leb_le; reflexivity|apply N.ltb_lt; reflexivity]]|].
  split; [constructor; [split; [reflexivity|cbn; lia]|intros b Q; discriminate Q|split; apply N.leb_le; reflexivity]|].
  split; [constructor; [split; [reflexivity|cbn; lia]|split; apply N.leb_le; reflexivity|split; apply N.leb_le; reflexivity]|].
  assert (L : forall x : res bytes, match x with Ok m => lenN m <=? MSG_MAX_SIZE default_cfg | Err _ => true | UB _ => false end = true ->
    is_ub x = false /\ forall m, x = Ok m -> lenN m <= MSG_MAX_SIZE default_cfg).
  { intros [m|?|?] Q; [|split; [reflexivity|discriminate]|discriminate]. split; [reflexivity|]. intros m' [= <-]. now apply N.leb_le. }
  assert (L1 := L (toy_m1 default_cfg i) ltac:(vm_compute; reflexivity)).
  assert (L3 := L (toy_m3 default_cfg i r) ltac:(vm_compute; reflexivity)).
  split; [reflexivity|]. split; [reflexivity|]. unfold toy_env4. cbn [e_rx]. split.
  - intros n s. destruct (n =? 4); [reflexivity|]. destruct (n =? 3); [apply L3|apply L1].
  - intros n s m. destruct (n =? 4); [discriminate|]. destruct (n =? 3); [apply L3|apply L1].
Qed.
