(** C58, C36: the field Signature_or_MAC_3 and the static key of the initiator, in message_3 to any
    responder. *)
From Verif Require Import Base Proof_Base Model_Common Model_Cbor Proof_Cbor Model_Crypto
  Spec_CborTree Proof_CborTree Spec_Hkdf Proof_Hkdf Spec_Edhoc Model_EdhocCfg Model_EdhocCbor Model_EdhocKeys
  Proof_EdhocBase Model_EdhocCert Model_EdhocMsg Model_EdhocRun Proof_EdhocMsg1 Proof_EdhocMsg Proof_EdhocRun
  Spec_EdhocRun Spec_EdhocView Proof_EdhocAgree Proof_EdhocSound Proof_EdhocSafe Spec_EdhocUb Proof_EdhocUb Model_Toy Proof_Toy Model_ToyEdhoc
  Prop_EdhocRun Prop_EdhocAuth Spec_EdhocCred Prop_EdhocCred Prop_EdhocUb Prop_EdhocBadId.

(** What comes of a message_3 that can be read and names an initiator that the responder
    knows is what comes of its field Signature_or_MAC_3. *)
Lemma msg3_field cr cf pf (K : crypto_ok cr) l r rc creds n ct id_i field cred_i key_i g_iy vr :
  let pt := rfc_plaintext_3 id_i field [] in
  let prk_4 := rfc_prk_next (cr_hmac cr) (rr_static_i rc) (rr_prk_3e2m rc) L_SALT_4e3m (rr_th3 rc) g_iy in
  small cf -> get_suite l = Ok (rr_suite rc) -> lenN (rr_th3 rc) = 32 -> 16 <= CIPHERTEXT2_SIZE cf ->
  lenN (cbor (CBytes ct)) <= CIPHERTEXT3_SIZE cf -> lenN ct <= PLAINTEXT3_SIZE cf + edhoc_mac_len_static_dh (rr_suite rc) -> lenN ct < 2 ^ 64 ->
  cr_aead_dec cr (rfc_kdf (cr_hmac cr) (rr_prk_3e2m rc) L_K_3 (rr_th3 rc) 16) (rfc_kdf (cr_hmac cr) (rr_prk_3e2m rc) L_IV_3 (rr_th3 rc) 13)
      (rfc_aad (rr_th3 rc)) (edhoc_mac_len_static_dh (rr_suite rc)) ct = Some pt ->
  resolves cr pf (rr_static_i rc) creds id_i (CRED_I_SIZE cf) cred_i key_i -> cid_ok id_i ->
  lenN (rfc_id_cred id_i) <= ID_CRED_I_SIZE cf -> lenN field <= 64 ->
  (rr_static_i rc = true -> shared_secret_derive cr (edhoc_ecdh (rr_suite rc)) (r_y r) key_i = Ok g_iy) ->
  (forall pk, (rr_static_i rc = false -> pk = key_i) ->
     sig_or_mac_verify cr cf (rr_static_i rc) (rr_suite rc) pk prk_4 [] (rr_th3 rc) (rfc_id_cred id_i) cred_i [] MAC_3 field = vr) ->
  exists pk, msg3_process cr cf pf r rc (cbor (CBytes ct)) creds n =
    let* _ := vr in let* th4 := th34_calculate cr cf (rr_th3 rc) pt cred_i in
    let* prk := edhoc_kdf cr cf prk_4 PRK_out th4 n in Ok ([], pk, prk).
Proof.
  intros pt prk_4 SM HL HT H16 HC HP HC64 HD (f & RF & FC & FG) CO LI LF DH BAD. exists (f_pk f).
  pose proof (suite_lens l _ HL) as (S1 & S2 & S3 & S4 & S5).
  unfold msg3_process, msg3_process_full. cbv zeta. rewrite new_fits by exact HC. cbn [bind].
  unfold decode_bstr. rewrite cbor_bytes, <- (app_nil_r (enc_bstr _)), dec_enc_bstr by exact HC64. cbn [ext bind].
  rewrite check_fits by (rewrite app_nil_r; unfold enc_bstr; rewrite lenN_app; lia). cbn [bind].
  rewrite S4, new_fits by exact HP. cbn [bind]. unfold ciphertext3_decrypt_split. rewrite S2, new_fits by exact H16. cbn [bind].
  unfold key_gen_3. rewrite S2, S3. rewrite !(kdf32 cr cf K) by (first [reflexivity|exact HT|lia]). cbn [bind].
  rewrite aad_rfc by exact HT. cbn [bind]. rewrite S4. pose proof (ok_aead_dec_len cr K _ _ _ _ _ _ HD) as LD.
  destruct (N.ltb_spec (lenN ct) (edhoc_mac_len_static_dh (rr_suite rc))); [lia|].
  change K_3 with L_K_3. change IV_3 with L_IV_3. rewrite HD. cbn [ext bind].
  unfold pt at 1. rewrite plaintext3_split_fits; [|exact CO|exact LI|exact LF|apply N.le_0_l].
  cbn [bind sp_id_cred sp_sig sp_ead]. change (read_ead []) with (@nil N). rewrite RF. cbn [bind].
  rewrite (prk_derive_fits cr cf) with (dh := g_iy); cbn [bind].
  - rewrite FC. change SALT_4e3m with L_SALT_4e3m. fold prk_4. rewrite BAD.
    + destruct vr as [[]|?|?]; [|reflexivity|reflexivity]. cbn [bind]. destruct (th34_calculate _ _ _ _ _); [|reflexivity|reflexivity]. cbn [bind].
      destruct (edhoc_kdf _ _ _ _ _ _); reflexivity.
    + intros E. rewrite E in FG. exact FG.
  - exact (ok_hmac_len cr K).
  - reflexivity.
  - exact HT.
  - pose proof (info_max_ge cf). lia.
  - intros E. rewrite E in FG. cbn in FG. rewrite FG. apply DH. exact E.
Qed.

(** What the two sides share is fixed by message_1, message_2 and the ephemeral keys. *)
Lemma shared_fixed cr r st sr g_x m1 m2 v w : crypto_ok cr -> lenN (r_g_y r) < 2 ^ 32 ->
  made_message_2 cr r st sr g_x m1 m2 v -> lenN (v_pt2 v) <= 8128 ->
  made_message_2 cr r st sr g_x m1 m2 w -> lenN (v_pt2 w) <= 8128 ->
  v_prk_3e2m v = v_prk_3e2m w /\ v_th3_input cr v = v_th3_input cr w.
Proof.
  intros K LG (V1 & V2 & V3 & g & VX & VC & VP) LV (W1 & W2 & W3 & g' & WX & WC & WP) LW.
  rewrite VX in WX. injection WX as <-. cbv zeta in *.
  assert (T : v_th2_input cr v = v_th2_input cr w) by (unfold v_th2_input; congruence).
  rewrite <- T in WC, WP. set (th2 := cr_hash cr (v_th2_input cr v)) in *.
  assert (P : v_prk_3e2m v = v_prk_3e2m w).
  { destruct VP as (d & -> & D), WP as (d' & -> & D'). destruct sr; [|reflexivity].
    specialize (D eq_refl). specialize (D' eq_refl). congruence. }
  split; [exact P|].
  destruct VC as (c & E & VC), WC as (c' & E' & WC). specialize (VC LV). specialize (WC LW).
  assert (LK : forall k, lenN (rfc_kdf (cr_hmac cr) (rfc_prk_2e (cr_hmac cr) th2 g) L_KEYSTREAM_2 th2 k) = k)
    by (intros k; apply kdf_len, (ok_hmac_len cr K)).
  rewrite rfc_xor_eq in VC, WC.
  assert (LC : lenN c = lenN (v_pt2 v)) by (rewrite VC; apply xor_len, LK).
  assert (LC' : lenN c' = lenN (v_pt2 w)) by (rewrite WC; apply xor_len, LK).
  assert (EC : c = c').
  { rewrite E, !cbor_bytes in E'. rewrite <- (app_nil_r (enc_bstr (_ ++ c))), <- (app_nil_r (enc_bstr (_ ++ c'))) in E'.
    apply enc_bstr_inj in E' as [E' _].
    - apply app_inv_head in E'. exact E'.
    - rewrite lenN_app. change (2 ^ 64) with 18446744073709551616. change (2 ^ 32) with 4294967296 in LG. lia.
    - rewrite lenN_app. change (2 ^ 64) with 18446744073709551616. change (2 ^ 32) with 4294967296 in LG. lia. }
  assert (EP : v_pt2 v = v_pt2 w).
  { rewrite <- (xor_xor (v_pt2 v) _ (LK _)), <- (xor_xor (v_pt2 w) _ (LK _)). rewrite <- VC, <- WC, <- LC, <- LC', EC. reflexivity. }
  unfold v_th3_input. rewrite EP, V3, W3, T. reflexivity.
Qed.
(** So it is enough to say what is sent for one of these views. *)
Lemma sends_one cr cf r e m1 m2 me su g_x pt st si sr w ct : crypto_ok cr -> lenN (r_g_y r) < 2 ^ 32 ->
  get_suite (last su 0) = Ok st -> method_static me si sr -> made_message_2 cr r st sr g_x m1 m2 w -> lenN (v_pt2 w) <= 8128 ->
  (forall v, v_prk_3e2m v = v_prk_3e2m w -> v_th3_input cr v = v_th3_input cr w -> pt v = pt w) ->
  e_rx e 3 [m2] = Ok (cbor (CBytes ct)) -> lenN (cbor (CBytes ct)) <= MSG_MAX_SIZE cf -> lenN (cbor (CBytes ct)) <= CIPHERTEXT3_SIZE cf ->
  (let th3 := cr_hash cr (v_th3_input cr w) in
   cr_aead_enc cr (rfc_kdf (cr_hmac cr) (v_prk_3e2m w) L_K_3 th3 16) (rfc_kdf (cr_hmac cr) (v_prk_3e2m w) L_IV_3 th3 13)
     (rfc_aad th3) (edhoc_mac_len_static_dh st) (pt w) = Some ct) ->
  sends_message_3 cr cf r e m1 m2 me su g_x pt.
Proof.
  intros K LG GS MS W LW PT R3 L1 L2 EN st' si' sr' v GS' MS' V LV. rewrite GS in GS'. injection GS' as <-.
  assert (sr' = sr) as ->.
  { unfold method_static in *. destruct si, sr, si', sr'; cbn in *; lia || reflexivity. }
  destruct (shared_fixed cr r st sr g_x m1 m2 v w K LG V LV W LW) as [E1 E2].
  exists ct. rewrite (PT v E1 E2), E1, E2. auto.
Qed.

(** Somebody sends message_3 with the identifier of an initiator that the responder knows and
    with the field [field]; neither needs any credential. *)
Definition answers_3 (cr : crypto) (cf : cfg) (pf : platform) (r : responder) (creds : list other_party_cred) (ci_cap : N) (st : suite) (si : bool)
    (id_i : cred_id) (cred_i key_i g_iy : bytes) (field : view -> bytes) (m1 m2 : bytes) (e : env) : Prop :=
  small cf /\ PLAINTEXT2_SIZE cf <= 8128 /\
  (forall k m, e_ead e k m = Ok tt) /\ (forall k m, e_tx e k m = Ok tt) /\ e_rx e 1 [] = Ok m1 /\
  (exists me su g_x c_i ead_1 sr, msg1_parse cf m1 ci_cap = Ok (me, su, g_x, c_i, ead_1) /\ method_static me si sr /\
     get_suite (last su 0) = Ok st /\ sends_message_3 cr cf r e m1 m2 me su g_x (fun v => rfc_plaintext_3 id_i (field v) [])) /\
  (forall v, lenN (field v) <= 64 /\ lenN (rfc_plaintext_3 id_i (field v) []) <= PLAINTEXT3_SIZE cf) /\
  resolves cr pf si creds id_i (CRED_I_SIZE cf) cred_i key_i /\ id_range id_i /\
  lenN (rfc_id_cred id_i) <= ID_CRED_I_SIZE cf /\ lenN cred_i <= CRED_MAX_SIZE cf /\
  (si = true -> dh_secret cr (edhoc_ecdh st) (r_y r) key_i g_iy).

Lemma field_3_any cr cf pf r creds ci_cap pk_cap n st si id_i cred_i key_i g_iy field m1 m2 e vr :
  crypto_ok cr -> answers_3 cr cf pf r creds ci_cap st si id_i cred_i key_i g_iy field m1 m2 e ->
  (forall pk v, (si = false -> pk = key_i) ->
     let th3 := cr_hash cr (v_th3_input cr v) in
     sig_or_mac_verify cr cf si st pk (rfc_prk_next (cr_hmac cr) si (v_prk_3e2m v) L_SALT_4e3m th3 g_iy) [] th3
       (rfc_id_cred id_i) cred_i [] MAC_3 (field v) = vr) ->
  let o := responder_run_extended cr cf pf r creds ci_cap pk_cap n e in
  o_sent o = [m2] ->
  exists v, let th3 := cr_hash cr (v_th3_input cr v) in
  let r := let* _ := vr in let* th4 := th34_calculate cr cf th3 (rfc_plaintext_3 id_i (field v) []) cred_i in
    edhoc_kdf cr cf (rfc_prk_next (cr_hmac cr) si (v_prk_3e2m v) L_SALT_4e3m th3 g_iy) PRK_out th4 n in
  match r with
  | Ok prk => o_ret o = Ok tt /\ o_prk o = Some prk
  | Err x => o_ret o = Err x
  | UB u => o_ret o = UB u
  end.
Proof.
  intros K (SM & P8 & EE & ET & HR & (me & su & g_x & c_i & ead_1 & sr & HP & MS & GS & HA) & LF & RES & IR & LI & LC & DH) BAD o HO.
  subst o. unfold responder_run_extended in *.
  destruct (receive cf e 1 []) as [m1'|?|?] eqn:ER1; [|discriminate HO|discriminate HO].
  apply receive_rx in ER1. rewrite HR in ER1. injection ER1 as <-.
  destruct (msg2_gen cr cf r m1 ci_cap) as [[c_i' rc]|?|?] eqn:E2; [|discriminate HO|discriminate HO].
  rewrite EE, ET in *.
  apply (msg2_gen_sound_len cr cf K) in E2. destruct E2 as (me' & su' & g_x' & ead' & sr' & pt2 & P & MS' & GS' & L3 & _ & ETH & LP2 & V).
  rewrite HP in P. injection P as <- <- <- <- <-. rewrite GS in GS'. injection GS' as ES.
  assert (EQ : rr_static_i rc = si) by (unfold method_static in *; destruct si, sr, (rr_static_i rc), sr'; cbn in *; lia || reflexivity).
  assert (EM : rr_msg rc = m2).
  { destruct (receive cf e 3 [rr_msg rc]) as [m3|?|?]; [destruct (msg3_process cr cf pf r rc m3 creds n) as [[[? ?] ?]|?|?]|..];
      cbn in HO; now injection HO. }
  set (v := {| v_m1 := m1; v_g_y := r_g_y r; v_pt2 := pt2; v_cred_r := r_cred r; v_prk_3e2m := rr_prk_3e2m rc; v_pt3 := [];
            v_cred_i := []; v_prk_4e3m := [] |}).
  specialize (V [] [] []). rewrite <- ES, EM in V.
  destruct (HA st (rr_static_i rc) sr' v GS MS' V (N.le_trans _ _ _ LP2 P8)) as (ct & R3 & L1 & L2 & EN).
  rewrite EM. unfold receive. rewrite R3. cbn [bind].
  destruct (N.ltb_spec (MSG_MAX_SIZE cf) (lenN (cbor (CBytes ct)))); [lia|].
  change (cr_hash cr (v_th3_input cr v)) with (rfc_th34 (cr_hash cr) (rfc_th2 (cr_hash cr) (r_g_y r) m1) pt2 (r_cred r)) in EN.
  rewrite <- ETH in EN. cbv zeta in EN. change (v_prk_3e2m v) with (rr_prk_3e2m rc) in EN.
  pose proof (ok_aead_enc_len cr K _ _ _ _ _ _ EN) as LE. apply (ok_aead cr K) in EN.
  pose proof (suite_lens _ _ GS) as (S1 & _). destruct (LF v) as [LF1 LF2].
  destruct (msg3_field cr cf pf K (last su 0) r rc creds n ct id_i (field v) cred_i key_i g_iy vr) as [pk EP]; rewrite <- ?ES, ?EQ; try assumption.
  - rewrite ETH. apply (ok_hash_len cr K).
  - pose proof (ct2_size_ge cf). lia.
  - lia.
  - assert (PLAINTEXT3_SIZE cf < 2 ^ 32).
    { unfold PLAINTEXT3_SIZE, small in *. change (as_bstr_size SIG_OR_MAC_SIZE) with 66. change (2 ^ 30) with 1073741824 in SM. change (2 ^ 32) with 4294967296. lia. }
    change (2 ^ 64) with 18446744073709551616. change (2 ^ 32) with 4294967296 in *. lia.
  - intros E. apply ssd, DH, E.
  - intros pk PK. specialize (BAD pk v PK). cbv zeta in BAD.
    change (cr_hash cr (v_th3_input cr v)) with (rfc_th34 (cr_hash cr) (rfc_th2 (cr_hash cr) (r_g_y r) m1) pt2 (r_cred r)) in BAD.
    rewrite <- ETH in BAD. exact BAD.
  - rewrite EQ in EP. rewrite EP. exists v. cbv zeta.
    change (cr_hash cr (v_th3_input cr v)) with (rfc_th34 (cr_hash cr) (rfc_th2 (cr_hash cr) (r_g_y r) m1) pt2 (r_cred r)).
    rewrite <- ETH. change (v_prk_3e2m v) with (rr_prk_3e2m rc). destruct vr as [[]|?|?]; cbn [bind]; [|reflexivity|reflexivity].
    destruct (th34_calculate _ _ _ _ _); cbn [bind]; [|reflexivity|reflexivity].
    destruct (edhoc_kdf _ _ _ _ _ _); cbn [bind]; [|reflexivity|reflexivity]. rewrite EE. split; reflexivity.
Qed.

Lemma field_3 cr cf pf r creds ci_cap pk_cap n st si id_i cred_i key_i g_iy field m1 m2 e u :
  crypto_ok cr -> answers_3 cr cf pf r creds ci_cap st si id_i cred_i key_i g_iy field m1 m2 e ->
  (forall pk v, (si = false -> pk = key_i) ->
     let th3 := cr_hash cr (v_th3_input cr v) in
     sig_or_mac_verify cr cf si st pk (rfc_prk_next (cr_hmac cr) si (v_prk_3e2m v) L_SALT_4e3m th3 g_iy) [] th3
       (rfc_id_cred id_i) cred_i [] MAC_3 (field v) = UB u) ->
  let o := responder_run_extended cr cf pf r creds ci_cap pk_cap n e in
  o_sent o = [m2] -> o_ret o = UB u.
Proof.
  intros K A BAD o HO.
  destruct (field_3_any cr cf pf r creds ci_cap pk_cap n st si id_i cred_i key_i g_iy field m1 m2 e (UB u) K A BAD HO) as [v R].
  exact R.
Qed.

(** An EdDSA signature of less than 64 bytes, or one to be verified with a key of less than
    32: memory that was never written is part of it. *)
Theorem C58_short_signature_3_refuted :
  forall (cr : crypto) (cf : cfg) (pf : platform) (r : responder) (creds : list other_party_cred) (ci_cap : N) (pk_cap : option N) (n : N)
    (st : suite) (id_i : cred_id) (cred_i key_i : bytes) (field : view -> bytes) (m1 m2 : bytes) (e : env),
  crypto_ok cr -> answers_3 cr cf pf r creds ci_cap st false id_i cred_i key_i [] field m1 m2 e ->
  edhoc_sign st = EdDSA -> (forall v, lenN (field v) < 64) \/ lenN key_i < 32 ->
  let o := responder_run_extended cr cf pf r creds ci_cap pk_cap n e in
  o_sent o = [m2] -> o_ret o = UB Uninit.
Proof.
  intros cr cf pf r creds ci_cap pk_cap n st id_i cred_i key_i field m1 m2 e K A ED SH.
  apply (field_3 cr cf pf r creds ci_cap pk_cap n st false id_i cred_i key_i [] field m1 m2 e Uninit K A).
  destruct A as (SM & _ & _ & _ & _ & (me & su & _ & _ & _ & _ & _ & _ & GS & _) & _ & _ & _ & LI & LC & _).
  intros pk v PK th3. rewrite (PK eq_refl). clear pk PK.
  assert (TH : lenN th3 = 32) by apply (ok_hash_len cr K). assert (SH' : lenN (field v) < 64 \/ lenN key_i < 32) by (destruct SH; auto).
  unfold sig_or_mac_verify. rewrite mac_fits; try assumption.
  - cbn [bind]. rewrite tbs_fits; try assumption.
    + cbn [bind]. unfold verify. rewrite ED. destruct (N.ltb_spec (lenN (field v)) 64), (N.ltb_spec (lenN key_i) 32); cbn [orb bind]; try reflexivity. lia.
    + rewrite (the_mac_len cr (ok_hmac_len cr K)). apply N.leb_le. reflexivity.
    + unfold ID_CRED_MAX_SIZE. lia.
    + change (lenN (@nil N)) with 0. lia.
    + change (lenN (@nil N)) with 0. unfold small, ID_CRED_MAX_SIZE, CRED_MAX_SIZE in *. lia.
  - exact (ok_hmac_len cr K).
  - reflexivity.
  - pose proof (mac_len_le _ st false GS). lia.
  - reflexivity.
  - change (lenN (@nil N)) with 0. lia.
  - unfold ID_CRED_MAX_SIZE. lia.
  - change (lenN (@nil N)) with 0. lia.
  - change (lenN (@nil N)) with 0. unfold small, ID_CRED_MAX_SIZE, CRED_MAX_SIZE in *. lia.
Qed.
Print Assumptions C58_short_signature_3_refuted.

(** A MAC_3 of more than 32 bytes: the comparison goes on behind the buffer. *)
Theorem C58_long_mac_3_refuted :
  forall (cr : crypto) (cf : cfg) (pf : platform) (r : responder) (creds : list other_party_cred) (ci_cap : N) (pk_cap : option N) (n : N)
    (st : suite) (id_i : cred_id) (cred_i key_i g_iy : bytes) (field : view -> bytes) (m1 m2 : bytes) (e : env),
  crypto_ok cr -> answers_3 cr cf pf r creds ci_cap st true id_i cred_i key_i g_iy field m1 m2 e ->
  (forall v, 32 < lenN (field v)) ->
  let o := responder_run_extended cr cf pf r creds ci_cap pk_cap n e in
  o_sent o = [m2] -> o_ret o = UB OobRead.
Proof.
  intros cr cf pf r creds ci_cap pk_cap n st id_i cred_i key_i g_iy field m1 m2 e K A LN.
  apply (field_3 cr cf pf r creds ci_cap pk_cap n st true id_i cred_i key_i g_iy field m1 m2 e OobRead K A).
  destruct A as (SM & _ & _ & _ & _ & (me & su & _ & _ & _ & _ & _ & _ & GS & _) & _ & _ & _ & LI & LC & _).
  intros pk v _ th3. assert (TH : lenN th3 = 32) by apply (ok_hash_len cr K). specialize (LN v).
  unfold sig_or_mac_verify. rewrite mac_fits; try assumption.
  - cbn [bind]. change HASH_SIZE with 32. destruct (N.ltb_spec 32 (lenN (field v))); [reflexivity|lia].
  - exact (ok_hmac_len cr K).
  - reflexivity.
  - pose proof (mac_len_le _ st true GS). lia.
  - reflexivity.
  - change (lenN (@nil N)) with 0. lia.
  - unfold ID_CRED_MAX_SIZE. lia.
  - change (lenN (@nil N)) with 0. lia.
  - change (lenN (@nil N)) with 0. unfold small, ID_CRED_MAX_SIZE, CRED_MAX_SIZE in *. lia.
Qed.
Print Assumptions C58_long_mac_3_refuted.

(** The right MAC_3 and more, from an initiator with the static key: the comparison goes on
    behind the MAC. *)
Theorem C58_extended_mac_3_refuted :
  forall (cr : crypto) (cf : cfg) (pf : platform) (r : responder) (creds : list other_party_cred) (ci_cap : N) (pk_cap : option N) (n : N)
    (st : suite) (id_i : cred_id) (cred_i key_i g_iy : bytes) (more m1 m2 : bytes) (e : env),
  let right v := let th3 := cr_hash cr (v_th3_input cr v) in
    expected_mac cr (rfc_prk_next (cr_hmac cr) true (v_prk_3e2m v) L_SALT_4e3m th3 g_iy) [] th3 (rfc_id_cred id_i) cred_i [] L_MAC_3 true st in
  crypto_ok cr -> answers_3 cr cf pf r creds ci_cap st true id_i cred_i key_i g_iy (fun v => right v ++ more) m1 m2 e ->
  more <> [] -> (forall v, lenN (right v ++ more) <= 32) ->
  let o := responder_run_extended cr cf pf r creds ci_cap pk_cap n e in
  o_sent o = [m2] -> o_ret o = UB Uninit.
Proof.
  intros cr cf pf r creds ci_cap pk_cap n st id_i cred_i key_i g_iy more m1 m2 e right K A NE LN.
  apply (field_3 cr cf pf r creds ci_cap pk_cap n st true id_i cred_i key_i g_iy _ m1 m2 e Uninit K A).
  destruct A as (SM & _ & _ & _ & _ & (me & su & _ & _ & _ & _ & _ & _ & GS & _) & _ & _ & _ & LI & LC & _).
  intros pk v _ th3. assert (TH : lenN th3 = 32) by apply (ok_hash_len cr K). specialize (LN v).
  unfold sig_or_mac_verify. rewrite mac_fits; try assumption.
  - cbn [bind]. change HASH_SIZE with 32. destruct (N.ltb_spec 32 (lenN (right v ++ more))); [lia|].
    change (the_mac cr (rfc_prk_next (cr_hmac cr) true (v_prk_3e2m v) L_SALT_4e3m th3 g_iy) [] th3 (rfc_id_cred id_i) cred_i [] MAC_3 true st) with (right v).
    assert (LM : lenN more <> 0) by (intros Q; apply NE, lenN_0, Q).
    rewrite lenN_app. destruct (N.leb_spec (lenN (right v) + lenN more) (lenN (right v))); [lia|].
    rewrite takeN_app, beqb_refl. reflexivity.
  - exact (ok_hmac_len cr K).
  - reflexivity.
  - pose proof (mac_len_le _ st true GS). lia.
  - reflexivity.
  - change (lenN (@nil N)) with 0. lia.
  - unfold ID_CRED_MAX_SIZE. lia.
  - change (lenN (@nil N)) with 0. lia.
  - change (lenN (@nil N)) with 0. unfold small, ID_CRED_MAX_SIZE, CRED_MAX_SIZE in *. lia.
Qed.
Print Assumptions C58_extended_mac_3_refuted.

(** A static X25519 key of less than 32 bytes found for the initiator: the derivation goes on
    behind it. *)
Theorem C58_short_static_key_3_refuted :
  forall (cr : crypto) (cf : cfg) (pf : platform) (r : responder) (creds : list other_party_cred) (ci_cap : N) (pk_cap : option N)
    (n : N) (e : env) (id_i : cred_id) (cred_i key_i sig m1 : bytes) (me : N) (su g_x c_i : bytes) (ead_1 : option bytes) (st : suite) (sr : bool)
    (m2 : bytes),
  crypto_ok cr -> resolves cr pf true creds id_i (CRED_I_SIZE cf) cred_i key_i -> lenN key_i < 32 -> id_range id_i ->
  lenN (rfc_id_cred id_i) <= ID_CRED_I_SIZE cf -> lenN sig <= 64 -> lenN (r_y r) = 32 ->
  (forall k m, e_ead e k m = Ok tt) -> (forall k m, e_tx e k m = Ok tt) ->
  e_rx e 1 [] = Ok m1 -> msg1_parse cf m1 ci_cap = Ok (me, su, g_x, c_i, ead_1) ->
  method_static me true sr -> get_suite (last su 0) = Ok st -> edhoc_ecdh st = X25519 ->
  let pt := rfc_plaintext_3 id_i sig [] in
  lenN pt <= PLAINTEXT3_SIZE cf -> PLAINTEXT3_SIZE cf < 2 ^ 32 ->
  PLAINTEXT2_SIZE cf <= 8128 -> sends_message_3 cr cf r e m1 m2 me su g_x (fun _ => pt) ->
  let o := responder_run_extended cr cf pf r creds ci_cap pk_cap n e in
  o_sent o = [m2] -> o_ret o = UB Uninit.
Proof.
  intros cr cf pf r creds ci_cap pk_cap n e id_i cred_i key_i sig m1 me su g_x c_i ead_1 st sr m2 K (f & RF & FC & FG) LK IR LI LS LY EE ET HR HP
    MS GS EC pt LP P32 P8 HA.
  eapply (fatal_3 cr cf pf r creds ci_cap pk_cap n e pt m1 me su g_x c_i ead_1 m2 Uninit); try eassumption.
  intros st' si' sr' a GS' MS'. rewrite GS in GS'. injection GS' as <-.
  assert (si' = true) as -> by (unfold method_static in *; destruct sr, si', sr'; cbn in *; lia || reflexivity).
  right. right. eexists. exists f. split; [apply plaintext3_split_fits; try assumption; apply N.le_0_l|].
  cbn [sp_id_cred]. split; [exact RF|]. split; [reflexivity|]. cbn in FG. rewrite FG, EC. unfold shared_secret_derive. rewrite LY.
  destruct (N.ltb_spec (lenN key_i) 32); [reflexivity|lia].
Qed.
Print Assumptions C58_short_static_key_3_refuted.

(** C36: the comparison of MAC_3 runs over what was received. Every beginning of the right MAC_3
    is taken for it, by every responder that knows an initiator with a static DH key; also the
    empty one, for which nothing that is secret need be known: whoever made G_X can finish the
    session in the name of the initiator. *)
Theorem C36_short_mac_3_refuted :
  forall (cr : crypto) (cf : cfg) (pf : platform) (r : responder) (creds : list other_party_cred) (ci_cap : N) (pk_cap : option N) (n : N)
    (st : suite) (id_i : cred_id) (cred_i key_i g_iy : bytes) (k : N) (m1 m2 : bytes) (e : env),
  let right v := let th3 := cr_hash cr (v_th3_input cr v) in
    expected_mac cr (rfc_prk_next (cr_hmac cr) true (v_prk_3e2m v) L_SALT_4e3m th3 g_iy) [] th3 (rfc_id_cred id_i) cred_i [] L_MAC_3 true st in
  crypto_ok cr -> answers_3 cr cf pf r creds ci_cap st true id_i cred_i key_i g_iy (fun v => takeN k (right v)) m1 m2 e ->
  cred_i <> [] -> n <= 8128 ->
  let o := responder_run_extended cr cf pf r creds ci_cap pk_cap n e in
  o_sent o = [m2] -> o_ret o = Ok tt /\ exists prk, o_prk o = Some prk /\ lenN prk = n.
Proof.
  intros cr cf pf r creds ci_cap pk_cap n st id_i cred_i key_i g_iy k m1 m2 e right K A NE LN o HO.
  destruct (field_3_any cr cf pf r creds ci_cap pk_cap n st true id_i cred_i key_i g_iy _ m1 m2 e (Ok tt) K A) with (2 := HO) as [v R].
  - destruct A as (SM & _ & _ & _ & _ & (me & su & _ & _ & _ & _ & _ & _ & GS & _) & _ & _ & _ & LI & LC & _).
    intros pk v _ th3. assert (TH : lenN th3 = 32) by apply (ok_hash_len cr K).
    assert (LR : lenN (right v) <= 32).
    { unfold right, expected_mac. unfold rfc_mac. rewrite kdf_len by apply (ok_hmac_len cr K). pose proof (mac_len_le _ st true GS) as Q. exact Q. }
    pose proof (lenN_takeN k (right v)) as LT.
    unfold sig_or_mac_verify. rewrite mac_fits; try assumption.
    + cbn [bind]. change HASH_SIZE with 32.
      change (the_mac cr (rfc_prk_next (cr_hmac cr) true (v_prk_3e2m v) L_SALT_4e3m th3 g_iy) [] th3 (rfc_id_cred id_i) cred_i [] MAC_3 true st) with (right v).
      destruct (N.ltb_spec 32 (lenN (takeN k (right v)))); [lia|].
      destruct (N.leb_spec (lenN (takeN k (right v))) (lenN (right v))); [|lia].
      replace (takeN (lenN (takeN k (right v))) (right v)) with (takeN k (right v)); [rewrite beqb_refl; reflexivity|].
      rewrite LT. destruct (N.le_gt_cases k (lenN (right v))); [rewrite N.min_l by assumption; reflexivity|].
      rewrite N.min_r by lia. rewrite !takeN_all by lia. reflexivity.
    + exact (ok_hmac_len cr K).
    + reflexivity.
    + pose proof (mac_len_le _ st true GS). lia.
    + reflexivity.
    + change (lenN (@nil N)) with 0. lia.
    + unfold ID_CRED_MAX_SIZE. lia.
    + change (lenN (@nil N)) with 0. lia.
    + change (lenN (@nil N)) with 0. unfold small, ID_CRED_MAX_SIZE, CRED_MAX_SIZE in *. lia.
  - destruct A as (SM & _ & _ & _ & _ & _ & LF & _ & _ & _ & LC & _).
    cbv zeta in R. cbn [bind] in R. rewrite (th34_run cr cf SM) in R; [|apply (ok_hash_len cr K)|apply pt3_nonempty|exact NE| |exact LC].
    + cbn [bind] in R. rewrite (kdf32 cr cf K) in R; [|reflexivity|exact LN|apply (ok_hash_len cr K)].
      split; [apply R|]. eexists. split; [apply R|]. apply kdf_len, (ok_hmac_len cr K).
    + unfold PLAINTEXT23_MAX_SIZE. pose proof (proj2 (LF v)). lia.
Qed.
Print Assumptions C36_short_mac_3_refuted.
Theorem C36_forged_message_3_refuted :
  forall (cr : crypto) (cf : cfg) (pf : platform) (r : responder) (creds : list other_party_cred) (ci_cap : N) (pk_cap : option N) (n : N)
    (st : suite) (id_i : cred_id) (cred_i key_i g_iy : bytes) (m1 m2 : bytes) (e : env),
  crypto_ok cr -> answers_3 cr cf pf r creds ci_cap st true id_i cred_i key_i g_iy (fun _ => []) m1 m2 e ->
  cred_i <> [] -> n <= 8128 ->
  let o := responder_run_extended cr cf pf r creds ci_cap pk_cap n e in
  o_sent o = [m2] -> o_ret o = Ok tt /\ exists prk, o_prk o = Some prk /\ lenN prk = n.
Proof.
  intros cr cf pf r creds ci_cap pk_cap n st id_i cred_i key_i g_iy m1 m2 e K A NE LN o HO.
  apply (C36_short_mac_3_refuted cr cf pf r creds ci_cap pk_cap n st id_i cred_i key_i g_iy 0 m1 m2 e K A NE LN HO).
Qed.
Print Assumptions C36_forged_message_3_refuted.

(** What is asked of the sender can be met in every session in which the responder answers:
    the keys of message_3 are those that the responder keeps, and follow from G_XY (and the
    responder's static key) on the other side too. *)
Lemma sends_computed cr cf r e m1 cap c_i rc me su g_x c ead_1 (f : bytes -> bytes -> bytes) ct :
  crypto_ok cr -> lenN (r_g_y r) < 2 ^ 32 -> PLAINTEXT2_SIZE cf <= 8128 ->
  msg2_gen cr cf r m1 cap = Ok (c_i, rc) -> msg1_parse cf m1 cap = Ok (me, su, g_x, c, ead_1) ->
  e_rx e 3 [rr_msg rc] = Ok (cbor (CBytes ct)) -> lenN (cbor (CBytes ct)) <= MSG_MAX_SIZE cf -> lenN (cbor (CBytes ct)) <= CIPHERTEXT3_SIZE cf ->
  cr_aead_enc cr (rfc_kdf (cr_hmac cr) (rr_prk_3e2m rc) L_K_3 (rr_th3 rc) 16) (rfc_kdf (cr_hmac cr) (rr_prk_3e2m rc) L_IV_3 (rr_th3 rc) 13)
     (rfc_aad (rr_th3 rc)) (edhoc_mac_len_static_dh (rr_suite rc)) (f (rr_prk_3e2m rc) (rr_th3 rc)) = Some ct ->
  sends_message_3 cr cf r e m1 (rr_msg rc) me su g_x (fun v => f (v_prk_3e2m v) (cr_hash cr (v_th3_input cr v))).
Proof.
  intros K LG P8 E2 HP R3 L1 L2 EN.
  apply (msg2_gen_sound_len cr cf K) in E2. destruct E2 as (me' & su' & g_x' & ead' & sr & pt2 & P & MS & GS & L3 & _ & ETH & LP2 & V).
  rewrite HP in P. injection P as <- <- <- <- <-.
  eapply (sends_one cr cf r e m1 (rr_msg rc) me su g_x _ (rr_suite rc) (rr_static_i rc) sr _ ct K LG GS MS (V [] [] [])); try assumption.
  - exact (N.le_trans _ _ _ LP2 P8).
  - intros v E1 E2. now rewrite E1, E2.
  - cbv zeta. cbn [v_prk_3e2m].
    set (w := {| v_m1 := m1; v_g_y := r_g_y r; v_pt2 := pt2; v_cred_r := r_cred r; v_prk_3e2m := rr_prk_3e2m rc; v_pt3 := [];
            v_cred_i := []; v_prk_4e3m := [] |}).
    change (cr_hash cr (v_th3_input cr w)) with (rfc_th34 (cr_hash cr) (rfc_th2 (cr_hash cr) (r_g_y r) m1) pt2 (r_cred r)).
    rewrite <- ETH. exact EN.
Qed.

(** Sessions of the toy parties to which the theorems apply: method 0 with a signature of 63
    bytes, method 3 with a MAC of 33 bytes, and with the right MAC and another byte. *)
Definition toy_rc (i : initiator) (r : responder) : res responder_rc :=
  let* m1 := toy_m1 default_cfg i in let* (_, rc) := msg2_gen toy_crypto default_cfg r m1 32 in Ok rc.
Definition toy_ct_3 (i : initiator) (r : responder) (field : bytes -> bytes -> bytes) : res bytes :=
  let* rc := toy_rc i r in
  let th3 := rr_th3 rc in let prk := rr_prk_3e2m rc in
  ext (cr_aead_enc toy_crypto (rfc_kdf (cr_hmac toy_crypto) prk L_K_3 th3 16) (rfc_kdf (cr_hmac toy_crypto) prk L_IV_3 th3 13)
         (rfc_aad th3) (edhoc_mac_len_static_dh (rr_suite rc)) (rfc_plaintext_3 (KidInt 5) (field prk th3) [])).
Definition toy_env_3 (i : initiator) (r : responder) (field : bytes -> bytes -> bytes) : env :=
  toy_env (toy_m1 default_cfg i) (let* ct := toy_ct_3 i r field in Ok (cbor (CBytes ct))).
Lemma toy_sends i r field m1 c_i rc me su g_x c ead_1 ct :
  lenN (r_g_y r) < 2 ^ 32 -> toy_m1 default_cfg i = Ok m1 -> msg2_gen toy_crypto default_cfg r m1 32 = Ok (c_i, rc) ->
  msg1_parse default_cfg m1 32 = Ok (me, su, g_x, c, ead_1) ->
  toy_ct_3 i r field = Ok ct -> lenN (cbor (CBytes ct)) <= MSG_MAX_SIZE default_cfg -> lenN (cbor (CBytes ct)) <= CIPHERTEXT3_SIZE default_cfg ->
  sends_message_3 toy_crypto default_cfg r (toy_env_3 i r field) m1 (rr_msg rc) me su g_x
    (fun v => rfc_plaintext_3 (KidInt 5) (field (v_prk_3e2m v) (cr_hash toy_crypto (v_th3_input toy_crypto v))) []).
Proof.
  intros LG E1 E2 EP EC L1 L2.
  apply (sends_computed toy_crypto default_cfg r (toy_env_3 i r field) m1 32 c_i rc me su g_x c ead_1
    (fun p t => rfc_plaintext_3 (KidInt 5) (field p t) []) ct toy_ok LG); try assumption.
  - apply N.leb_le. vm_compute. reflexivity.
  - unfold toy_env_3, toy_env. cbn [e_rx]. rewrite EC. reflexivity.
  - unfold toy_ct_3, toy_rc in EC. rewrite E1 in EC. cbn [bind] in EC. rewrite E2 in EC. cbn [bind] in EC. apply ext_ok in EC. exact EC.
Qed.
Lemma toy_pt3_len x : lenN x <= 64 -> lenN (rfc_plaintext_3 (KidInt 5) x []) <= PLAINTEXT3_SIZE default_cfg.
Proof.
  intros H. unfold rfc_plaintext_3. rewrite app_nil_r, lenN_app, cbor_bytes, enc_bstr_len.
  pose proof (head_len_mono _ _ H) as HL. change (head_len 64) with 2 in HL.
  change (lenN (rfc_id_cred_compact (KidInt 5))) with 1. apply N.le_trans with 67; [lia|]. apply N.leb_le. vm_compute. reflexivity.
Qed.
Lemma toy_answers_3 m (si sr : bool) st field g_iy m1 c_i rc g_x ead_1 ct pk :
  let i := toy_initiator m [0] [5; 5] [] in let r := toy_responder [0] [9; 9] in
  toy_m1 default_cfg i = Ok m1 -> msg2_gen toy_crypto default_cfg r m1 32 = Ok (c_i, rc) ->
  msg1_parse default_cfg m1 32 = Ok (m, [0], g_x, [5; 5], ead_1) -> method_static m si sr -> get_suite 0 = Ok st ->
  toy_ct_3 i r field = Ok ct -> lenN (cbor (CBytes ct)) <= MSG_MAX_SIZE default_cfg -> lenN (cbor (CBytes ct)) <= CIPHERTEXT3_SIZE default_cfg ->
  (forall p t, lenN (field p t) <= 64) ->
  resolves toy_crypto toy_pf si toy_creds_i (KidInt 5) (CRED_I_SIZE default_cfg) toy_cred_i pk ->
  (si = true -> dh_secret toy_crypto (edhoc_ecdh st) (repeat 21 32) pk g_iy) ->
  answers_3 toy_crypto default_cfg toy_pf r toy_creds_i 32 st si (KidInt 5) toy_cred_i pk g_iy
    (fun v => field (v_prk_3e2m v) (cr_hash toy_crypto (v_th3_input toy_crypto v))) m1 (rr_msg rc) (toy_env_3 i r field).
Proof.
  intros i r E1 E2 EP MS GS EC L1 L2 LF RES DH. unfold answers_3.
  split; [apply N.ltb_lt; vm_compute; reflexivity|]. split; [apply N.leb_le; vm_compute; reflexivity|].
  do 2 (split; [intros; reflexivity|]). split; [exact E1|].
  split; [exists m, [0], g_x, [5; 5], ead_1, sr; do 3 (split; [assumption|])|].
  - eapply toy_sends; try eassumption. apply N.ltb_lt. reflexivity.
  - split; [intros v; split; [apply LF|apply toy_pt3_len, LF]|]. split; [exact RES|]. split; [cbn; lia|].
    do 2 (split; [apply N.leb_le; vm_compute; reflexivity|]). exact DH.
Qed.
Definition toy_g_iy : bytes := match shared_secret_derive toy_crypto X25519 (repeat 21 32) (repeat 12 32) with Ok s => s | _ => [] end.
Definition toy_right_3 (st : suite) (prk th3 : bytes) : bytes :=
  expected_mac toy_crypto (rfc_prk_next (cr_hmac toy_crypto) true prk L_SALT_4e3m th3 toy_g_iy) [] th3 (rfc_id_cred (KidInt 5)) toy_cred_i [] L_MAC_3 true st.
Lemma toy_res_13 : resolves toy_crypto toy_pf false toy_creds_i (KidInt 5) (CRED_I_SIZE default_cfg) toy_cred_i (repeat 13 32).
Proof. eexists. split; [vm_compute; reflexivity|]. split; reflexivity. Qed.
Lemma toy_res_12 : resolves toy_crypto toy_pf true toy_creds_i (KidInt 5) (CRED_I_SIZE default_cfg) toy_cred_i (repeat 12 32).
Proof. eexists. split; [vm_compute; reflexivity|]. split; reflexivity. Qed.
Example C58_field_3_hypotheses :
  let r := toy_responder [0] [9; 9] in
  let i m := toy_initiator m [0] [5; 5] [] in
  exists st m1 m1' m2 m2', get_suite 0 = Ok st /\ edhoc_sign st = EdDSA /\
  answers_3 toy_crypto default_cfg toy_pf r toy_creds_i 32 st false (KidInt 5) toy_cred_i (repeat 13 32) []
    (fun _ => repeat 0 63) m1 m2 (toy_env_3 (i 0) r (fun _ _ => repeat 0 63)) /\
  answers_3 toy_crypto default_cfg toy_pf r toy_creds_i 32 st true (KidInt 5) toy_cred_i (repeat 12 32) toy_g_iy
    (fun _ => repeat 0 33) m1' m2' (toy_env_3 (i 3) r (fun _ _ => repeat 0 33)) /\
  answers_3 toy_crypto default_cfg toy_pf r toy_creds_i 32 st true (KidInt 5) toy_cred_i (repeat 12 32) toy_g_iy
    (fun v => toy_right_3 st (v_prk_3e2m v) (cr_hash toy_crypto (v_th3_input toy_crypto v)) ++ [0]) m1' m2'
    (toy_env_3 (i 3) r (fun p t => toy_right_3 st p t ++ [0])) /\
  (forall p t, lenN (toy_right_3 st p t ++ [0]) <= 32) /\
  let run m f := responder_run_extended toy_crypto default_cfg toy_pf r toy_creds_i 32 None 32 (toy_env_3 (i m) r f) in
  (o_sent (run 0 (fun _ _ => repeat 0 63)) = [m2] /\ o_ret (run 0 (fun _ _ => repeat 0 63)) = UB Uninit) /\
  (o_sent (run 3 (fun _ _ => repeat 0 33)) = [m2'] /\ o_ret (run 3 (fun _ _ => repeat 0 33)) = UB OobRead) /\
  (o_sent (run 3 (fun p t => toy_right_3 st p t ++ [0])) = [m2'] /\ o_ret (run 3 (fun p t => toy_right_3 st p t ++ [0])) = UB Uninit) /\
  o_ret (run 3 (fun p t => toy_right_3 st p t)) = Ok tt.
Proof.
  cbv zeta.
  let s := eval vm_compute in (get_suite 0) in match s with Ok ?x => set (st := x) end.
  assert (LR : forall p t, lenN (toy_right_3 st p t ++ [0]) = 9).
  { intros p t. rewrite lenN_app. unfold toy_right_3, expected_mac, rfc_mac. rewrite kdf_len by apply (ok_hmac_len toy_crypto toy_ok). reflexivity. }
  set (m1 := fun m => match toy_m1 default_cfg (toy_initiator m [0] [5; 5] []) with Ok b => b | _ => [] end).
  set (m2 := fun m => match msg2_gen toy_crypto default_cfg (toy_responder [0] [9; 9]) (m1 m) 32 with Ok (_, rc) => rr_msg rc | _ => [] end).
  exists st, (m1 0), (m1 3), (m2 0), (m2 3). split; [reflexivity|]. split; [reflexivity|].
  assert (R0 : resolves toy_crypto toy_pf false toy_creds_i (KidInt 5) (CRED_I_SIZE default_cfg) toy_cred_i (repeat 13 32)) by exact toy_res_13.
  assert (R3 : resolves toy_crypto toy_pf true toy_creds_i (KidInt 5) (CRED_I_SIZE default_cfg) toy_cred_i (repeat 12 32)) by exact toy_res_12.
  assert (DH : dh_secret toy_crypto (edhoc_ecdh st) (repeat 21 32) (repeat 12 32) toy_g_iy)
    by (split; [vm_compute; reflexivity|intros _; split; vm_compute; reflexivity]).
  destruct (msg2_gen toy_crypto default_cfg (toy_responder [0] [9; 9]) (m1 0) 32) as [[c0 rc0]|?|?] eqn:E0; [|vm_compute in E0; discriminate|vm_compute in E0; discriminate].
  destruct (msg2_gen toy_crypto default_cfg (toy_responder [0] [9; 9]) (m1 3) 32) as [[c3 rc3]|?|?] eqn:E3; [|vm_compute in E3; discriminate|vm_compute in E3; discriminate].
  assert (M0 : m2 0 = rr_msg rc0) by (unfold m2; rewrite E0; reflexivity).
  assert (M3 : m2 3 = rr_msg rc3) by (unfold m2; rewrite E3; reflexivity).
  set (ct := fun m f => match toy_ct_3 (toy_initiator m [0] [5; 5] []) (toy_responder [0] [9; 9]) f with Ok b => b | _ => [] end).
  assert (P0 : msg1_parse default_cfg (m1 0) 32 = Ok (0, [0], repeat 11 32, [5; 5], None)) by (vm_compute; reflexivity).
  assert (P3 : msg1_parse default_cfg (m1 3) 32 = Ok (3, [0], repeat 11 32, [5; 5], None)) by (vm_compute; reflexivity).
  split; [|split; [|split; [|split]]].
  - rewrite M0. refine (toy_answers_3 0 false false st (fun _ _ => repeat 0 63) [] (m1 0) c0 rc0 (repeat 11 32) None (ct 0 (fun _ _ => repeat 0 63))
      (repeat 13 32) _ E0 P0 eq_refl eq_refl _ _ _ _ R0 _).
    1,2: vm_compute; reflexivity.
    1,2: apply N.leb_le; vm_compute; reflexivity.
    + intros _ _. apply N.leb_le. reflexivity.
    + discriminate.
  - rewrite M3. refine (toy_answers_3 3 true true st (fun _ _ => repeat 0 33) toy_g_iy (m1 3) c3 rc3 (repeat 11 32) None (ct 3 (fun _ _ => repeat 0 33))
      (repeat 12 32) _ E3 P3 eq_refl eq_refl _ _ _ _ R3 (fun _ => DH)).
    1,2: vm_compute; reflexivity.
    1,2: apply N.leb_le; vm_compute; reflexivity.
    intros _ _. apply N.leb_le. reflexivity.
  - rewrite M3. refine (toy_answers_3 3 true true st (fun p t => toy_right_3 st p t ++ [0]) toy_g_iy (m1 3) c3 rc3 (repeat 11 32) None
      (ct 3 (fun p t => toy_right_3 st p t ++ [0])) (repeat 12 32) _ E3 P3 eq_refl eq_refl _ _ _ _ R3 (fun _ => DH)).
    1,2: vm_compute; reflexivity.
    1,2: apply N.leb_le; vm_compute; reflexivity.
    intros p t. rewrite LR. apply N.leb_le. reflexivity.
  - intros p t. rewrite LR. apply N.leb_le. reflexivity.
  - repeat split; vm_compute; reflexivity.
Qed.
(** The same with the first 0 and 5 bytes of the right MAC. *)
Example C36_field_3_hypotheses :
  let r := toy_responder [0] [9; 9] in
  let i := toy_initiator 3 [0] [5; 5] [] in
  exists st m1 m2, get_suite 0 = Ok st /\
  (forall k, k = 0 \/ k = 5 -> answers_3 toy_crypto default_cfg toy_pf r toy_creds_i 32 st true (KidInt 5) toy_cred_i (repeat 12 32) toy_g_iy
     (fun v => takeN k (toy_right_3 st (v_prk_3e2m v) (cr_hash toy_crypto (v_th3_input toy_crypto v)))) m1 m2
     (toy_env_3 i r (fun p t => takeN k (toy_right_3 st p t)))) /\
  let run f := responder_run_extended toy_crypto default_cfg toy_pf r toy_creds_i 32 None 32 (toy_env_3 i r f) in
  (o_sent (run (fun _ _ => [])) = [m2] /\ o_ret (run (fun _ _ => [])) = Ok tt) /\
  o_ret (run (fun p t => takeN 5 (toy_right_3 st p t))) = Ok tt /\ o_ret (run (fun _ _ => [1])) = Err mac_authentication_failed.
Proof.
  cbv zeta.
  let s := eval vm_compute in (get_suite 0) in match s with Ok ?x => set (st := x) end.
  set (m1 := match toy_m1 default_cfg (toy_initiator 3 [0] [5; 5] []) with Ok b => b | _ => [] end).
  set (m2 := fun x => match msg2_gen toy_crypto default_cfg (toy_responder [0] [9; 9]) x 32 with Ok (_, rc) => rr_msg rc | _ => [] end).
  exists st, m1, (m2 m1). split; [reflexivity|].
  assert (DH : dh_secret toy_crypto (edhoc_ecdh st) (repeat 21 32) (repeat 12 32) toy_g_iy)
    by (split; [vm_compute; reflexivity|intros _; split; vm_compute; reflexivity]).
  destruct (msg2_gen toy_crypto default_cfg (toy_responder [0] [9; 9]) m1 32) as [[c3 rc3]|?|?] eqn:E3; [|vm_compute in E3; discriminate|vm_compute in E3; discriminate].
  assert (M3 : m2 m1 = rr_msg rc3) by (unfold m2; rewrite E3; reflexivity).
  set (ct := fun f => match toy_ct_3 (toy_initiator 3 [0] [5; 5] []) (toy_responder [0] [9; 9]) f with Ok b => b | _ => [] end).
  assert (P3 : msg1_parse default_cfg m1 32 = Ok (3, [0], repeat 11 32, [5; 5], None)) by (vm_compute; reflexivity).
  split; [|repeat split; vm_compute; reflexivity].
  intros k Hk. rewrite M3. refine (toy_answers_3 3 true true st (fun p t => takeN k (toy_right_3 st p t)) toy_g_iy m1 c3 rc3 (repeat 11 32) None
      (ct (fun p t => takeN k (toy_right_3 st p t))) (repeat 12 32) _ E3 P3 eq_refl eq_refl _ _ _ _ toy_res_12 (fun _ => DH)).
  1: vm_compute; reflexivity.
  1: destruct Hk as [-> | ->]; vm_compute; reflexivity.
  1,2: apply N.leb_le; destruct Hk as [-> | ->]; vm_compute; reflexivity.
  intros p t. rewrite lenN_takeN. destruct Hk as [-> | ->]; lia.
Qed.
