(** Property C71: external authorization data (EAD) of the peer reaches the
    application, which decides about it. *)
From Verif Require Import Base Proof_Base Model_Common Model_Cbor Proof_Cbor Model_Crypto
  Spec_CborTree Proof_CborTree Spec_Hkdf Proof_Hkdf Spec_Edhoc Spec_EdhocRun Spec_EdhocView Spec_EdhocEad
  Model_EdhocCfg Model_EdhocCbor Model_EdhocKeys
  Proof_EdhocBase Model_EdhocCert Model_EdhocMsg Model_EdhocRun Model_EdhocMsg4 Proof_EdhocMsg1 Proof_EdhocMsg Proof_EdhocRun
  Proof_Ids Proof_EdhocSound Proof_EdhocEad Model_Toy Proof_Toy Model_ToyEdhoc.

(** In all runs of the four functions, whatever the peer sends: the application is
    asked about EAD_1 before message_2 is sent, about EAD_2 before message_3, about
    EAD_3 before message_4; a refusal ends the run with the application's error, and ok
    means that it accepted everything. *)
Theorem C71_decisions :
  forall (cr : crypto) (cf : cfg) (pf : platform) (i : initiator) (r : responder) (ead_4 : bytes) (creds : list other_party_cred)
    (c_cap : N) (pk_cap : option N) (prk_len : N) (e : env),
  let all st (o : outcome) := decided st e (o_eads o) (o_sent o) (o_ret o) in
  all [(2, 1%nat)] (initiator_run_extended cr cf pf i creds c_cap prk_len e) /\
  all [(2, 1%nat); (4, 2%nat)] (initiator_run4_extended cr cf pf i creds c_cap prk_len e) /\
  all [(1, 0%nat); (3, 1%nat)] (responder_run_extended cr cf pf r creds c_cap pk_cap prk_len e) /\
  all [(1, 0%nat); (3, 1%nat)] (responder_run4_extended cr cf pf r ead_4 creds c_cap pk_cap prk_len e).
Proof.
  intros. unfold all, initiator_run_extended, initiator_run4_extended, responder_run_extended, responder_run4_extended.
  repeat split.
  all: repeat match goal with
    | |- context [let '(_, _) := ?t in _] => destruct t
    | |- context [match ?t with Ok _ => _ | Err _ => _ | UB _ => _ end] =>
        lazymatch t with context [match _ with _ => _ end] => fail | _ => destruct t as [?|?|?] eqn:? end
    end; cbn [stop o_eads o_sent o_ret decided length].
  all: repeat match goal with H : ?x = _ |- context [match ?x with _ => _ end] => rewrite H end.
  all: repeat match goal with |- context [e_ead ?e ?k ?d] => destruct (e_ead e k d) as [?|?|?] end.
  all: repeat split; auto with arith; try discriminate.
Qed.
Print Assumptions C71_decisions.

(** EAD_1 of an honest initiator is what the responder's application gets, in both
    builds. Missing: a message_1 without EAD_1 (below). *)
Theorem C71_ead_1_partial :
  forall (cr : crypto) (cf : cfg) (pf : platform) (m4 : bool) (r : responder) (ead_4 : bytes) (creds : list other_party_cred)
    (ci_cap : N) (pk_cap : option N) (prk_len : N) (e : env) (me : N) (su g_x c_i ead_1 : bytes),
  me <= 3 -> is_bytes su -> 1 <= lenN su <= 10 -> lenN su <= SUITES_I_SIZE cf -> lenN g_x <= 32 ->
  lenN c_i <= ci_cap -> lenN c_i < 2 ^ 64 -> lenN ead_1 <= EAD_SIZE cf -> lenN ead_1 < 2 ^ 64 ->
  e_rx e 1 [] = Ok (rfc_message_1 me su g_x c_i ead_1) -> ead_1 <> [] ->
  forall d ds, o_eads (run_r m4 cr cf pf r ead_4 creds ci_cap pk_cap prk_len e) = d :: ds -> d = ead_1.
Proof.
  intros cr cf pf m4 r ead_4 creds ci_cap pk_cap n e me su g_x c_i ead_1 H1 H2 H3 H4 H5 H6 H7 H8 H9 RX NE d ds HO.
  destruct (run_r_first m4 cr cf pf r ead_4 creds ci_cap pk_cap n e d ds HO) as (m1 & ci & rc & R1 & G & ->).
  unfold receive in R1. rewrite RX in R1. cbn [bind] in R1. destruct (_ <? _); [discriminate|]. apply ok_inj in R1. subst m1.
  erewrite (msg2_gen_ead _ _ _ _ _ _ _ _ _ _ _ _ G); [|apply msg1_parse_rfc; assumption]. destruct ead_1; [contradiction|reflexivity].
Qed.
Print Assumptions C71_ead_1_partial.

(** Without EAD_1 in message_1 the application is handed EAD_SIZE zero bytes, which it
    cannot tell from an EAD_1 of these bytes. *)
Theorem C71_absent_refuted :
  forall (cr : crypto) (cf : cfg) (pf : platform) (m4 : bool) (r : responder) (ead_4 : bytes) (creds : list other_party_cred)
    (ci_cap : N) (pk_cap : option N) (prk_len : N) (e : env) (me : N) (su g_x c_i : bytes),
  me <= 3 -> is_bytes su -> 1 <= lenN su <= 10 -> lenN su <= SUITES_I_SIZE cf -> lenN g_x <= 32 ->
  lenN c_i <= ci_cap -> lenN c_i < 2 ^ 64 ->
  e_rx e 1 [] = Ok (rfc_message_1 me su g_x c_i []) ->
  forall d ds, o_eads (run_r m4 cr cf pf r ead_4 creds ci_cap pk_cap prk_len e) = d :: ds ->
  d = repeat 0 (N.to_nat (EAD_SIZE cf)).
Proof.
  intros cr cf pf m4 r ead_4 creds ci_cap pk_cap n e me su g_x c_i H1 H2 H3 H4 H5 H6 H7 RX d ds HO.
  destruct (run_r_first m4 cr cf pf r ead_4 creds ci_cap pk_cap n e d ds HO) as (m1 & ci & rc & R1 & G & ->).
  unfold receive in R1. rewrite RX in R1. cbn [bind] in R1. destruct (_ <? _); [discriminate|]. apply ok_inj in R1. subst m1.
  erewrite (msg2_gen_ead _ _ _ _ _ _ _ _ _ _ _ _ G); [|apply msg1_parse_rfc; try assumption; change (lenN (@nil N)) with 0; [apply N.le_0_l|apply N.ltb_lt; reflexivity]].
  reflexivity.
Qed.
Print Assumptions C71_absent_refuted.

(** EAD_2 is never handed over. Two parties that agree if they have nothing to say in
    EAD_2 and EAD_3 (C37); the responder has an EAD_2 and sends message_2, the initiator
    receives it. If the initiator gets as far as asking the application, then a part of
    EAD_2 has the same 8 or 16 byte MAC as EAD_2, or one signature is valid for two
    texts. *)
Theorem C71_ead_2_refuted :
  forall (cr : crypto) (cf : cfg) (pf : platform) (i : initiator) (r : responder) (creds_i creds_r : list other_party_cred)
    (st : suite) (si sr : bool) (id_i id_r : cred_id) (key_i key_r g_xy g_rx g_iy : bytes)
    (m4 : bool) (ead_4 : bytes) (ei er : env) (prk_len c_cap ci_cap : N) (pk_cap : option N),
  crypto_ok cr ->
  fit cr cf pf (quiet_i i) (quiet_r r) creds_i creds_r st si sr id_i id_r key_i key_r g_xy g_rx g_iy ->
  r_ead_2 r <> [] -> lenN (r_ead_2 r) + pt2_size (r_c_r r) id_r 64 <= 8128 -> lenN (i_c_i i) <= ci_cap -> prk_len <= 8128 ->
  let oi := run_i m4 cr cf pf i creds_r c_cap prk_len ei in
  let or := run_r m4 cr cf pf r ead_4 creds_i ci_cap pk_cap prk_len er in
  connected ei er oi or -> o_sent or <> [] ->
  forall d ds, o_eads oi = d :: ds ->
  let m1 := rfc_message_1 (i_method i) (i_suites i) (i_g_x i) (i_c_i i) (i_ead_1 i) in
  let th2 := rfc_th2 (cr_hash cr) (r_g_y r) m1 in
  let prk3 := rfc_prk_next (cr_hmac cr) sr (rfc_prk_2e (cr_hmac cr) th2 g_xy) L_SALT_3e2m th2 g_rx in
  inner (r_ead_2 r) d /\
  confused cr sr st (r_sk r) (r_pk r) prk3 (r_c_r r) th2 (r_id_cred r) (r_cred r) (r_ead_2 r) d L_MAC_2.
Proof.
  intros cr cf pf i r creds_i creds_r st si sr id_i id_r key_i key_r g_xy g_rx g_iy m4 ead_4 ei er n c_cap ci_cap pk_cap
    K F NE HE HC HP oi or (C1 & C2 & C3) SN d ds HD m1 th2 prk3.
  destruct (run_i_inv m4 cr cf pf i creds_r c_cap n ei) as [_ RI]. fold oi in RI. rewrite HD in RI.
  destruct (RI ltac:(discriminate)) as (m1' & st' & h & m2 & a & m3 & prk & S1 & G1 & R2 & G3 & EA & _).
  cbn [hd] in EA. subst d. specialize (C1 _ S1). apply msg1_gen_ok in G1 as (_ & -> & GS & -> & _). fold m1 in C1, R2, G3.
  pose proof (fit_suite _ _ _ _ _ _ _ _ _ _ _ _ _ _ _ _ _ F) as FS. cbn [quiet_i i_suites] in FS. rewrite FS in GS. apply ok_inj in GS. subst st'.
  destruct (o_sent or) as [|x xs] eqn:ES; [contradiction|].
  destruct (run_r_inv m4 cr cf pf r ead_4 creds_i ci_cap pk_cap n er) as [RR _]. fold or in RR. rewrite ES in RR.
  destruct (RR x eq_refl) as (m1' & c_i & rc & R1 & G2 & ->). unfold receive in R1. rewrite C1 in R1. cbn [bind] in R1.
  destruct (_ <? _) in R1; [discriminate|]. apply ok_inj in R1. subst m1'.
  unfold receive in R2. rewrite (C2 (rr_msg rc) [m1] eq_refl) in R2. cbn [bind] in R2. destruct (_ <? _) in R2; [discriminate|].
  apply ok_inj in R2. subst m2.
  destruct (ead_made cr cf pf K i r creds_i creds_r st si sr id_i id_r key_i key_r g_xy g_rx g_iy F HE ci_cap c_i rc HC G2)
    as (s2 & _ & _ & _ & _ & L2 & EM & MF).
  pose proof (fit_method _ _ _ _ _ _ _ _ _ _ _ _ _ _ _ _ _ F) as FM. cbn [quiet_i i_method] in FM.
  assert (EA : authentication_type_get (i_method i) (false, false) = (si, sr)).
  { unfold method_static in FM. rewrite FM. destruct si, sr; reflexivity. }
  destruct (msg3_gen_sound cr cf pf K (last (i_suites i) 0) i st _ _ _ _ _ _ _ _ si sr FS EA HP G3) as [P2 _].
  eapply (ead_2_confused cr cf pf K i r creds_i creds_r st si sr id_i id_r key_i key_r g_xy g_rx g_iy F HE); eassumption.
Qed.
Print Assumptions C71_ead_2_refuted.

(** Nor is EAD_3, under the same conditions: the initiator has an EAD_3 and reports a
    key, the responder receives its message_3. Here s2 is the Signature_or_MAC field of
    message_2. *)
Theorem C71_ead_3_refuted :
  forall (cr : crypto) (cf : cfg) (pf : platform) (i : initiator) (r : responder) (creds_i creds_r : list other_party_cred)
    (st : suite) (si sr : bool) (id_i id_r : cred_id) (key_i key_r g_xy g_rx g_iy : bytes)
    (m4 : bool) (ead_4 : bytes) (ei er : env) (prk_len c_cap ci_cap : N) (pk_cap : option N),
  crypto_ok cr ->
  fit cr cf pf (quiet_i i) (quiet_r r) creds_i creds_r st si sr id_i id_r key_i key_r g_xy g_rx g_iy ->
  i_ead_3 i <> [] -> lenN (i_ead_3 i) < 2 ^ 32 ->
  lenN (r_ead_2 r) + pt2_size (r_c_r r) id_r 64 <= 8128 -> lenN (i_c_i i) <= ci_cap -> prk_len <= 8128 ->
  let oi := run_i m4 cr cf pf i creds_r c_cap prk_len ei in
  let or := run_r m4 cr cf pf r ead_4 creds_i ci_cap pk_cap prk_len er in
  connected ei er oi or -> nth_error (o_sent oi) 1 <> None -> o_prk oi <> None ->
  forall d ead_3, o_eads or = [d; ead_3] ->
  let m1 := rfc_message_1 (i_method i) (i_suites i) (i_g_x i) (i_c_i i) (i_ead_1 i) in
  let th2 := rfc_th2 (cr_hash cr) (r_g_y r) m1 in
  let prk2 := rfc_prk_2e (cr_hmac cr) th2 g_xy in
  let prk3 := rfc_prk_next (cr_hmac cr) sr prk2 L_SALT_3e2m th2 g_rx in
  exists s2,
  let pt2 := rfc_plaintext_2 (r_c_r r) id_r s2 (r_ead_2 r) in
  let th3 := rfc_th34 (cr_hash cr) th2 pt2 (r_cred r) in
  let prk4 := rfc_prk_next (cr_hmac cr) si prk3 L_SALT_4e3m th3 g_iy in
  nth_error (o_sent or) 0 =
    Some (cbor (CBytes (r_g_y r ++ rfc_xor pt2 (rfc_kdf (cr_hmac cr) prk2 L_KEYSTREAM_2 th2 (lenN pt2))))) /\
  inner (i_ead_3 i) ead_3 /\
  confused cr si st (i_sk i) (i_pk i) prk4 [] th3 (i_id_cred i) (i_cred i) (i_ead_3 i) ead_3 L_MAC_3.
Proof.
  intros cr cf pf i r creds_i creds_r st si sr id_i id_r key_i key_r g_xy g_rx g_iy m4 ead_4 ei er n c_cap ci_cap pk_cap
    K F NE LE HE HC HP oi or (C1 & C2 & C3) SN PK d ead3 HD m1 th2 prk2 prk3.
  destruct (run_r_inv m4 cr cf pf r ead_4 creds_i ci_cap pk_cap n er) as [_ RR]. fold or in RR.
  destruct (RR d ead3 HD) as (m1' & c_i & rc & m3' & pk & prk' & p4 & t4 & R1 & G2 & S2 & R3 & G4). clear RR.
  destruct (run_i_inv m4 cr cf pf i creds_r c_cap n ei) as [RI0 RI]. fold oi in RI, RI0.
  assert (NE' : o_eads oi <> []).
  { clear - SN PK. revert SN PK. unfold oi, run_i. destruct m4; unfold initiator_run4_extended, initiator_run_extended;
      repeat match goal with |- context [match ?t with _ => _ end] => destruct t eqn:?; try (intros; cbn in *; congruence) end;
      cbn; intros; discriminate. }
  destruct (RI NE') as (m1'' & st' & h & m2 & a & m3 & prk & S1 & G1 & R2 & G3 & _ & EP & S3). clear RI RI0.
  destruct (nth_error (o_sent oi) 1) as [m|] eqn:SM; [|contradiction]. specialize (S3 m eq_refl). subst m.
  destruct prk as [k|]; [|contradiction].
  specialize (C1 _ S1). apply msg1_gen_ok in G1 as (_ & -> & GS & -> & _). fold m1 in C1, R2, G3.
  pose proof (fit_suite _ _ _ _ _ _ _ _ _ _ _ _ _ _ _ _ _ F) as FS. cbn [quiet_i i_suites] in FS. rewrite FS in GS. apply ok_inj in GS. subst st'.
  unfold receive in R1. rewrite C1 in R1. cbn [bind] in R1. destruct (_ <? _) in R1; [discriminate|]. apply ok_inj in R1. subst m1'.
  unfold receive in R2. rewrite (C2 (rr_msg rc) [m1] S2) in R2. cbn [bind] in R2. destruct (_ <? _) in R2; [discriminate|].
  apply ok_inj in R2. subst m2.
  unfold receive in R3. rewrite (C3 m3 [rr_msg rc] eq_refl) in R3. cbn [bind] in R3. destruct (_ <? _) in R3; [discriminate|].
  apply ok_inj in R3. subst m3'.
  destruct (ead_made cr cf pf K i r creds_i creds_r st si sr id_i id_r key_i key_r g_xy g_rx g_iy F HE ci_cap c_i rc HC G2)
    as (s2 & Q1 & Q2 & Q3 & Q4 & L2 & EM & MF).
  pose proof (fit_method _ _ _ _ _ _ _ _ _ _ _ _ _ _ _ _ _ F) as FM. cbn [quiet_i i_method] in FM.
  assert (EA : authentication_type_get (i_method i) (false, false) = (si, sr)).
  { unfold method_static in FM. rewrite FM. destruct si, sr; reflexivity. }
  destruct (msg3_gen_sound cr cf pf K (last (i_suites i) 0) i st _ _ _ _ _ _ _ _ si sr FS EA HP G3) as [P2 QP].
  destruct (QP k eq_refl) as (pt3 & ct3 & AE & E3 & PM & _).
  destruct (ead_read cr cf pf K i r creds_i creds_r st si sr id_i id_r key_i key_r g_xy g_rx g_iy F HE _ s2 c_cap a L2 EM P2)
    as (W1 & W2 & W3 & _).
  rewrite W1, W3 in AE. rewrite W2, W3 in PM.
  exists s2. cbv zeta. split; [rewrite S2, EM; reflexivity|].
  eapply (ead_3_confused cr cf pf K i r creds_i creds_r st si sr id_i id_r key_i key_r g_xy g_rx g_iy F HE s2 rc m3 ct3 pt3); eassumption.
Qed.
Print Assumptions C71_ead_3_refuted.

(** EAD_4 may not be longer than the EAD_2 that was handed over. Together: the only EAD
    that reaches an application is EAD_1. *)
Theorem C71_ead_4_refuted :
  forall (cr : crypto) (cf : cfg) (pf : platform) (i : initiator) (creds : list other_party_cred) (c_cap prk_len : N) (e : env)
    (ead_2 ead_4 : bytes),
  o_eads (initiator_run4_extended cr cf pf i creds c_cap prk_len e) = [ead_2; ead_4] -> lenN ead_4 <= lenN ead_2.
Proof.
  intros cr cf pf i creds c_cap n e e2 e4. unfold initiator_run4_extended.
  destruct (msg1_gen cr cf i) as [[[m1 st] h]|?|?]; [|discriminate..].
  destruct (e_tx e 1 m1); [|discriminate..]. destruct (receive cf e 2 [m1]) as [m2|?|?]; [|discriminate..].
  destruct (msg3_gen cr cf pf i st h m2 creds c_cap n) as [[[av m3] prk]|?|?]; [|discriminate..].
  destruct (e_ead e 2 (a2_ead av)); [|discriminate..]. destruct (e_tx e 3 m3); [|discriminate..].
  destruct (receive cf e 4 [m1; m3]) as [m4|?|?]; [|discriminate..].
  destruct (msg4_process cr cf st (a2_ead av) (a2_prk_4e3m av) (rc_th4 cr cf i st av m2) m4) as [x|?|?] eqn:E4; [|discriminate..].
  cbn [stop o_eads]. intros Q. injection Q as <- <-. unfold msg4_process in E4.
  apply bind_ok in E4 as (ct & _ & E4). apply bind_ok in E4 as (? & _ & E4). unfold ciphertext4_decrypt in E4.
  apply bind_ok in E4 as (? & _ & E4). apply bind_ok in E4 as ([k iv] & _ & E4). apply bind_ok in E4 as (aad & _ & E4). cbv zeta in E4.
  destruct (_ <? _) in E4; [discriminate|]. apply bind_ok in E4 as (pt & _ & E4). unfold ead4_get in E4.
  destruct (lenN pt =? 0); [apply ok_inj in E4; subst x; apply N.le_0_l|].
  apply bind_ok in E4 as ([b rest] & _ & E4). destruct (lenN b =? 0); [apply ok_inj in E4; subst x; apply N.le_0_l|].
  destruct (EAD_SIZE cf =? 0); [discriminate|]. apply bind_ok in E4 as ([] & C & E4). apply check_ok in C. apply ok_inj in E4. subst x. exact C.
Qed.
Print Assumptions C71_ead_4_refuted.

(** The application's refusal of EAD_3 comes too late for the key: whatever it answers,
    the array of the caller then holds the PRK_out of the session. *)
Theorem C71_key_refuted :
  forall (cr : crypto) (cf : cfg) (pf : platform) (m4 : bool) (r : responder) (ead_4 : bytes) (creds : list other_party_cred)
    (ci_cap : N) (pk_cap : option N) (prk_len : N) (e : env) (d ead_3 : bytes) (refusal : err),
  crypto_ok cr -> prk_len <= 8128 ->
  let o := run_r m4 cr cf pf r ead_4 creds ci_cap pk_cap prk_len e in
  o_eads o = [d; ead_3] -> e_ead e 3 ead_3 = Err refusal ->
  o_ret o = Err refusal /\ exists k, o_prk o = Some k /\ lenN k = prk_len.
Proof.
  intros cr cf pf m4 r ead_4 creds ci_cap pk_cap n e d x er K HP. cbv zeta.
  unfold run_r. destruct m4; unfold responder_run4_extended, responder_run_extended.
  all: destruct (receive cf e 1 []) as [m1|?|?] eqn:E1; [|discriminate..].
  all: destruct (msg2_gen cr cf r m1 ci_cap) as [[c_i rc]|?|?] eqn:E2; [|discriminate..].
  all: destruct (e_ead e 1 (rr_ead rc)); [|discriminate..].
  all: destruct (e_tx e 2 (rr_msg rc)); [|discriminate..].
  all: destruct (receive cf e 3 [rr_msg rc]) as [m3|?|?] eqn:E3; [|discriminate..].
  all: unfold msg3_process; destruct (msg3_process_full cr cf pf r rc m3 creds n) as [[[[e3 pk] prk] [p4 t4]]|?|?] eqn:E4; [|discriminate..].
  all: cbn [bind]; intros Q HE.
  all: assert (LP : lenN prk = n) by
    (unfold msg3_process_full in E4; cbv zeta in E4;
     repeat match type of E4 with bind _ _ = _ => apply bind_ok in E4 as (? & ?EQ & E4) | (let '(_, _) := ?t in _) = _ => destruct t end;
     injection E4 as _ _ <- _ _; match goal with EQ : edhoc_kdf _ _ _ PRK_out _ _ = Ok _ |- _ => 
       apply kdf_ok in EQ as [_ EQ]; [exact EQ|exact (ok_hmac_len cr K)|lia] end).
  - destruct (e_ead e 3 e3) as [?|?|?] eqn:EE; cycle 1.
    + cbn in *. injection Q as _ <-. rewrite HE in EE. injection EE as <-. eauto.
    + cbn in *. injection Q as _ <-. rewrite HE in EE. discriminate.
    + exfalso. destruct (msg4_gen _ _ _ _ _ _ _); cbn in Q; injection Q as _ <-; rewrite HE in EE; discriminate.
  - cbn in Q. injection Q as _ <-. rewrite HE. cbn. eauto.
Qed.
Print Assumptions C71_key_refuted.

(** Nor does the initiator's refusal of EAD_2 keep the key back: the array of the caller
    holds what it would hold had the application accepted everything. *)
Theorem C71_key_initiator_refuted :
  forall (cr : crypto) (cf : cfg) (pf : platform) (m4 : bool) (i : initiator) (creds : list other_party_cred)
    (c_cap prk_len : N) (e : env) (ead_2 : bytes) (refusal : err),
  let accepting := {| e_tx := e_tx e; e_rx := e_rx e; e_ead := fun _ _ => Ok tt |} in
  let o := run_i m4 cr cf pf i creds c_cap prk_len e in
  o_eads o = [ead_2] -> e_ead e 2 ead_2 = Err refusal ->
  o_ret o = Err refusal /\ o_prk o = o_prk (run_i m4 cr cf pf i creds c_cap prk_len accepting).
Proof.
  intros cr cf pf m4 i creds c_cap n e x er. cbv zeta.
  unfold run_i. destruct m4; unfold initiator_run4_extended, initiator_run_extended; cbn [e_tx e_rx e_ead].
  all: destruct (msg1_gen cr cf i) as [[[m1 st] h1]|?|?]; [|discriminate..].
  all: destruct (e_tx e 1 m1) as [[]|?|?]; [|discriminate..].
  all: change (receive cf {| e_tx := e_tx e; e_rx := e_rx e; e_ead := fun _ _ => Ok tt |} 2 [m1]) with (receive cf e 2 [m1]).
  all: destruct (receive cf e 2 [m1]) as [m2|?|?]; [|discriminate..].
  all: destruct (msg3_gen cr cf pf i st h1 m2 creds c_cap n) as [[[a m3] prk]|?|?]; [|discriminate..].
  all: destruct (e_ead e 2 (a2_ead a)) as [?|?|?] eqn:EE; intros Q HE.
  - exfalso. destruct (e_tx e 3 m3); [destruct (receive cf e 4 [m1; m3]) as [z|?|?]; [destruct (msg4_process _ _ _ _ _ _ _)|..]|..]; cbn in Q;
      injection Q; intros; subst; congruence.
  - cbn in Q. injection Q as <-. rewrite HE in EE. injection EE as <-. split; [reflexivity|].
    destruct (e_tx e 3 m3); [destruct (receive _ _ 4 [m1; m3]) as [z|?|?]; [destruct (msg4_process _ _ _ _ _ _ _)|..]|..]; reflexivity.
  - cbn in Q. injection Q as <-. congruence.
  - cbn in Q. injection Q as <-. congruence.
  - cbn in Q. injection Q as <-. rewrite HE in EE. injection EE as <-. split; reflexivity.
  - cbn in Q. injection Q as <-. congruence.
Qed.
Print Assumptions C71_key_initiator_refuted.

(** Non-trivial instances. The parties have something to say in all four messages. With
    the toy cryptography EAD_1 is handed over and EAD_2 and EAD_3 are refused, although
    the hypotheses of the theorems hold; with a broken HMAC they are handed over. *)
Definition ead_cf : cfg := {| EAD_SIZE := 10; C_I_SIZE := 10; C_R_SIZE := 10; ID_CRED_I_SIZE := 100; ID_CRED_R_SIZE := 100;
  CRED_I_SIZE := 100; CRED_R_SIZE := 100; SUITES_I_SIZE := 6 |}.
Definition ead_cr (broken : bool) : crypto := {|
  cr_hmac := if broken then fun _ _ => repeat 5 32 else cr_hmac toy_crypto; cr_hash := cr_hash toy_crypto;
  cr_aead_enc := cr_aead_enc toy_crypto; cr_aead_dec := cr_aead_dec toy_crypto; cr_dh := cr_dh toy_crypto; cr_pub := cr_pub toy_crypto;
  cr_sign := cr_sign toy_crypto; cr_verify := cr_verify toy_crypto |}.
Definition ead_i (e1 e3 : bytes) : initiator := {|
  i_c_i := [1; 2]; i_method := 3; i_suites := [2]; i_ead_1 := e1; i_ead_3 := e3; i_id_cred := toy_id_i; i_cred := toy_cred_i;
  i_g_x := repeat 11 32; i_x := repeat 11 32; i_g_i := repeat 12 32; i_i := repeat 12 32; i_sk := repeat 13 32; i_pk := repeat 13 32 |}.
Definition ead_r (e2 : bytes) : responder := {|
  r_c_r := [7; 8]; r_suites := [2]; r_g_y := repeat 21 32; r_y := repeat 21 32; r_g_r := repeat 22 32; r_r := repeat 22 32; r_ead_2 := e2;
  r_id_cred := toy_id_r; r_cred := toy_cred_r; r_sk := repeat 23 32; r_pk := repeat 23 32 |}.
(** callbacks; the application refuses EAD in message [k] *)
Definition ead_env (k : N) (ms : list bytes) : env := {|
  e_tx := fun _ _ => Ok tt;
  e_rx := fun n s => match ms with m :: _ => match n with 3 => match ms with _ :: m' :: _ => Ok m' | _ => Err not_implemented end | _ => Ok m end
                     | [] => Err not_implemented end;
  e_ead := fun n _ => if n =? k then Err wrong_parameter else Ok tt |}.
Definition ead_runs (broken : bool) (ki kr : N) (e1 e2 e3 : bytes) : outcome * outcome :=
  let cr := ead_cr broken in
  let go_i ms := run_i false cr ead_cf toy_pf (ead_i e1 e3) toy_creds_r 10 32 (ead_env ki ms) in
  let go_r ms := run_r false cr ead_cf toy_pf (ead_r e2) [] toy_creds_i 10 None 32 (ead_env kr ms) in
  let o1 := go_i [] in
  let o2 := go_r (o_sent o1) in
  let o3 := go_i (o_sent o2) in
  (o3, go_r (o_sent o3)).
Example C71_example :
  let eads x := (o_eads (fst x), o_eads (snd x)) in
  let oks x := (o_ret (fst x), o_ret (snd x)) in
  (* only EAD_1 *)
  eads (ead_runs false 0 0 [9; 9; 9] [] []) = ([[]], [[9; 9; 9]; []]) /\
  oks (ead_runs false 0 0 [9; 9; 9] [] []) = (Ok tt, Ok tt) /\
  (* refused *)
  eads (ead_runs false 0 1 [9; 9; 9] [] []) = ([], [[9; 9; 9]]) /\
  o_ret (snd (ead_runs false 0 1 [9; 9; 9] [] [])) = Err wrong_parameter /\
  o_sent (snd (ead_runs false 0 1 [9; 9; 9] [] [])) = [] /\
  oks (ead_runs false 2 0 [9; 9; 9] [] []) = (Err wrong_parameter, Err not_implemented) /\
  (* no EAD_1 *)
  eads (ead_runs false 0 0 [] [] []) = ([[]], [repeat 0 10; []]) /\
  (* EAD_2, EAD_3 *)
  eads (ead_runs false 0 0 [9; 9; 9] [0x41; 1] []) = ([], [[9; 9; 9]]) /\
  eads (ead_runs false 0 0 [9; 9; 9] [] [0x42; 7; 7]) = ([[]], [[9; 9; 9]]) /\
  o_prk (fst (ead_runs false 0 0 [9; 9; 9] [] [0x42; 7; 7])) <> None /\
  eads (ead_runs true 0 0 [9; 9; 9] [0x41; 1] [0x42; 7; 7]) = ([[1]], [[9; 9; 9]; [7; 7]]) /\
  oks (ead_runs true 0 0 [9; 9; 9] [0x41; 1] [0x42; 7; 7]) = (Ok tt, Ok tt) /\
  (* the key of a refused session *)
  let o := snd (ead_runs false 0 3 [] [] []) in
  o_ret o = Err wrong_parameter /\ o_prk o <> None /\
  let o := fst (ead_runs false 2 0 [9; 9; 9] [] []) in
  o_eads o = [[]] /\ o_ret o = Err wrong_parameter /\ o_prk o <> None.
Proof. vm_compute. repeat split; discriminate. Qed.
Lemma ead_cr_ok b : crypto_ok (ead_cr b).
Proof.
  destruct b; [|exact toy_ok]. destruct toy_ok. constructor; try assumption; cbn [ead_cr cr_hmac]; try reflexivity.
  all: intros; apply is_bytes_dec; reflexivity.
Qed.
Example C71_hypotheses :
  forall b : bool, crypto_ok (ead_cr b) /\
  exists st g_xy g_rx g_iy, fit (ead_cr b) ead_cf toy_pf (quiet_i (ead_i [9; 9; 9] [0x42; 7; 7])) (quiet_r (ead_r [0x41; 1])) toy_creds_i toy_creds_r st true true
    (KidInt 5) (KidInt (-3)) (repeat 12 32) (repeat 22 32) g_xy g_rx g_iy.
Proof.
  intros b. split; [apply ead_cr_ok|].
  exists {| suite_label := 2; edhoc_aead := AES_CCM_16_64_128; edhoc_mac_len_static_dh := 8;
       edhoc_ecdh := P256; edhoc_sign := ES256; app_aead := AES_CCM_16_64_128 |},
    (be_enc 32 (be_val (repeat 11 32) + be_val (repeat 21 32))), (be_enc 32 (be_val (repeat 11 32) + be_val (repeat 22 32))),
    (be_enc 32 (be_val (repeat 12 32) + be_val (repeat 21 32))).
  constructor; cbn [quiet_i quiet_r ead_i ead_r i_method i_suites i_c_i i_g_x i_x r_g_y r_y r_r i_i r_id_cred i_id_cred r_cred i_cred r_ead_2 i_ead_3 i_ead_1 r_c_r r_suites].
  - reflexivity.
  - split; [apply is_bytes_dec; reflexivity|]. repeat split; apply N.leb_le; reflexivity.
  - reflexivity.
  - discriminate.
  - reflexivity.
  - reflexivity.
  - split; [destruct b; vm_compute; reflexivity|discriminate].
  - split; [destruct b; vm_compute; reflexivity|discriminate].
  - split; (split; [destruct b; vm_compute; reflexivity|discriminate]).
  - split; (split; [destruct b; vm_compute; reflexivity|discriminate]).
  - split; [reflexivity|]. cbn. unfold is_int32. lia.
  - split; [reflexivity|]. cbn. unfold is_int32. lia.
  - apply is_bytes_dec. reflexivity.
  - eexists. split; [destruct b; vm_compute; reflexivity|]. split; reflexivity.
  - eexists. split; [destruct b; vm_compute; reflexivity|]. split; reflexivity.
  - reflexivity.
  - reflexivity.
  - apply N.leb_le; reflexivity.
  - apply N.leb_le; reflexivity.
  - split; [apply N.leb_le; reflexivity|discriminate].
  - repeat split; try (apply N.leb_le; reflexivity); discriminate.
  - split; apply N.leb_le; reflexivity.
  - split; apply N.leb_le; reflexivity.
  - split; [discriminate|apply N.leb_le; reflexivity].
  - split; [discriminate|apply N.leb_le; reflexivity].
  - apply N.ltb_lt; reflexivity.
  - cbv zeta. split; apply N.leb_le; reflexivity.
  - apply N.leb_le; reflexivity.
  - apply N.leb_le; reflexivity.
  - apply N.leb_le; reflexivity.
Qed.
