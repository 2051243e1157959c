(** EAD_2 and EAD_3 between honest parties. *)
From Verif Require Import Base Proof_Base Model_Common Model_Cbor Proof_Cbor Model_Crypto
  Spec_CborTree Proof_CborTree Proof_CborStable Spec_Hkdf Proof_Hkdf Spec_Edhoc Spec_EdhocRun Spec_EdhocView Spec_EdhocEad
  Model_EdhocCfg Model_EdhocCbor Model_EdhocKeys
  Proof_EdhocBase Model_EdhocCert Model_EdhocMsg Model_EdhocRun Model_EdhocMsg4 Proof_EdhocMsg1 Proof_EdhocMsg Proof_EdhocRun
  Proof_EdhocCred Prop_EdhocAuth Proof_EdhocSound Proof_EdhocSame.

Lemma dh_bytes cr alg sk pk s : dh_secret cr alg sk pk s -> cr_dh cr (ecdh_id alg) (key_bytes alg sk) (key_bytes alg pk) = Some s.
Proof.
  intros [H L]. destruct alg; [exact H|]. destruct (L eq_refl) as [L1 L2]. cbn [key_bytes].
  rewrite !takeN_all by lia. exact H.
Qed.
Lemma after_unique cr sdh st prk label th sk pk next s :
  prk_after cr sdh st prk label th sk pk next ->
  (sdh = true -> cr_dh cr (ecdh_id (edhoc_ecdh st)) (key_bytes (edhoc_ecdh st) sk) (key_bytes (edhoc_ecdh st) pk) = Some s) ->
  next = rfc_prk_next (cr_hmac cr) sdh prk label th s.
Proof.
  intros (dh & -> & H) Q. destruct sdh; [|reflexivity]. specialize (H eq_refl). rewrite (Q eq_refl) in H. now injection H as ->.
Qed.
Lemma static_unique m si sr si' sr' : method_static m si sr -> method_static m si' sr' -> si = si' /\ sr = sr'.
Proof. unfold method_static. intros -> H. destruct si, sr, si', sr'; try discriminate; auto. Qed.

(** EAD as it is read *)
Lemma inner_read ead e cap : (match dec_opt_bstr ead with Some e => copy_null cap e | None => Ok [] end) = Ok e -> inner ead e.
Proof.
  unfold dec_opt_bstr, inner. destruct (dec_bstr ead) as [[b rest]|] eqn:E; intros H.
  - apply copy_null_inv in H as [-> _]. right. destruct (dec_bstr_part _ _ _ E) as (h & -> & L & _). exists h, rest.
    split; [|reflexivity]. intros ->. change (lenN (@nil N)) with 0 in L. lia.
  - injection H as <-. now left.
Qed.
Lemma inner_ne ead e : ead <> [] -> inner ead e -> e <> ead.
Proof.
  intros NE [->|(h & r & NH & E)] Q; [now symmetry in Q|]. subst e. apply (f_equal lenN) in E. rewrite !lenN_app in E.
  destruct h as [|x h]; [contradiction|]. rewrite lenN_cons in E. lia.
Qed.
Lemma split2_ead c i sig ead c_cap id_cap ead_cap s :
  cid_ok i -> lenN c < 2 ^ 64 -> lenN sig < 2 ^ 64 ->
  plaintext2_split (rfc_plaintext_2 c i sig ead) c_cap id_cap ead_cap = Ok s ->
  sp_c_r s = c /\ sp_id_cred s = Some (rfc_id_cred i) /\ sp_sig s = sig /\ inner ead (sp_ead s).
Proof.
  intros HI HC HS H. pose proof (read_2 _ [] c i sig ead [] _ _ _ _ HI HC HS H eq_refl) as (-> & -> & -> & _).
  do 3 (split; [reflexivity|]). unfold plaintext2_split in H. apply bind_ok in H as (p & EP & H). apply ext_ok in EP.
  unfold cbor_decode_ptxt2, cbor_decode_ptxt3, rfc_plaintext_2 in EP. rewrite dec_conn_id, dec_cid_choice, cbor_bytes, dec_enc_bstr in EP by assumption.
  injection EP as <-. cbn [pt_ead] in H. do 3 (apply bind_ok in H as (? & _ & H)). apply bind_ok in H as (e & EE & H).
  injection H as <-. cbn [sp_ead]. eapply inner_read, EE.
Qed.
Lemma split3_ead i sig ead id_cap ead_cap s :
  cid_ok i -> lenN sig < 2 ^ 64 ->
  plaintext3_split (rfc_plaintext_3 i sig ead) id_cap ead_cap = Ok s ->
  sp_id_cred s = Some (rfc_id_cred i) /\ sp_sig s = sig /\ inner ead (sp_ead s).
Proof.
  intros HI HS H. pose proof (read_3 _ [] i sig ead [] _ _ _ HI HS H eq_refl) as (-> & -> & _).
  do 2 (split; [reflexivity|]). unfold plaintext3_split in H. apply bind_ok in H as (p & EP & H). apply ext_ok in EP.
  unfold cbor_decode_ptxt3, rfc_plaintext_3 in EP. rewrite dec_cid_choice, cbor_bytes, dec_enc_bstr in EP by assumption.
  injection EP as <-. cbn [pt_ead] in H. do 2 (apply bind_ok in H as (? & _ & H)). apply bind_ok in H as (e & EE & H).
  injection H as <-. cbn [sp_ead]. eapply inner_read, EE.
Qed.

Lemma enc_bstr_len_le b : lenN (enc_bstr b) <= 9 + lenN b.
Proof.
  rewrite enc_bstr_len. unfold head_len. repeat match goal with |- context [if ?c then _ else _] => destruct c end; lia.
Qed.

Section Ead.
Variable cr : crypto.
Variable cf : cfg.
Variable pf : platform.
Hypothesis K : crypto_ok cr.

Lemma field_len l sdh st sk pk prk c th id cred ead label sg : get_suite l = Ok st ->
  made_field cr sdh st sk pk prk c th id cred ead label sg -> lenN sg <= 64.
Proof.
  intros HL H. destruct (suite_lens l _ HL) as (L & _). unfold made_field in H. destruct sdh.
  - subst sg. unfold expected_mac, rfc_mac. rewrite kdf_len by apply (ok_hmac_len cr K). lia.
  - rewrite (ok_sign_len cr K _ _ _ _ _ H). lia.
Qed.
(** a field that was made for one EAD and is right for another *)
Lemma confuse sdh st sk pk prk c th id cred ead ead' label sg :
  lenN id < 2 ^ 32 -> lenN cred < 2 ^ 32 -> lenN ead < 2 ^ 32 -> lenN th = 32 ->
  made_field cr sdh st sk pk prk c th id cred ead label sg ->
  vouches cr sdh st pk prk c th id cred ead' label sg -> ead' <> ead ->
  confused cr sdh st sk pk prk c th id cred ead ead' label.
Proof.
  intros LI LC LE LT M V NE. split; [exact NE|]. unfold made_field, vouches in *. destruct sdh.
  - assert (L : forall e, lenN (expected_mac cr prk c th id cred e label true st) = edhoc_mac_len_static_dh st).
    { intros e. unfold expected_mac, rfc_mac. apply kdf_len, (ok_hmac_len cr K). }
    rewrite <- M, V. apply takeN_all. rewrite L, M, L. reflexivity.
  - split; [|exists sg; split; [exact M|exact V]].
    unfold to_sign. intros E. apply NE. symmetry. apply tbs_inj in E as (_ & _ & E & _); [now apply app_inv_head in E|].
    rewrite tbs_parts, !lenN_app. unfold rfc_mac.
    pose proof (enc_bstr_len_le id).
    match goal with |- context [enc_bstr (rfc_kdf ?h ?p ?l ?x 32)] =>
      pose proof (enc_bstr_len_le (rfc_kdf h p l x 32)) as Q1;
      rewrite kdf_len in Q1 by apply (ok_hmac_len cr K) end.
    pose proof (enc_bstr_len_le th).
    pose proof (enc_bstr_len_le (enc_bstr th ++ cred ++ ead)) as Q2. rewrite !lenN_app in Q2.
    match goal with |- lenN ?l + _ < _ => change (lenN l) with 12 end.
    lia.
Qed.

(** The parties fit together, apart from what they say in EAD_2 and EAD_3. *)
Variables (i : initiator) (r : responder) (creds_i creds_r : list other_party_cred) (st : suite) (si sr : bool)
  (id_i id_r : cred_id) (key_i key_r g_xy g_rx g_iy : bytes).
Hypothesis F : fit cr cf pf (quiet_i i) (quiet_r r) creds_i creds_r st si sr id_i id_r key_i key_r g_xy g_rx g_iy.
Let m1 := rfc_message_1 (i_method i) (i_suites i) (i_g_x i) (i_c_i i) (i_ead_1 i).
Let th2 := rfc_th2 (cr_hash cr) (r_g_y r) m1.
Let prk2 := rfc_prk_2e (cr_hmac cr) th2 g_xy.
Let prk3 := rfc_prk_next (cr_hmac cr) sr prk2 L_SALT_3e2m th2 g_rx.
Let pt2 (s2 : bytes) := rfc_plaintext_2 (r_c_r r) id_r s2 (r_ead_2 r).
Let ct2 (s2 : bytes) := rfc_xor (pt2 s2) (rfc_kdf (cr_hmac cr) prk2 L_KEYSTREAM_2 th2 (lenN (pt2 s2))).
Let th3 (s2 : bytes) := rfc_th34 (cr_hash cr) th2 (pt2 s2) (r_cred r).
Let prk4 (s2 : bytes) := rfc_prk_next (cr_hmac cr) si prk3 L_SALT_4e3m (th3 s2) g_iy.
Hypothesis HE : lenN (r_ead_2 r) + pt2_size (r_c_r r) id_r 64 <= 8128.

Lemma ead_cid_r : cid_ok id_r.
Proof. destruct (fit_id_r _ _ _ _ _ _ _ _ _ _ _ _ _ _ _ _ _ F) as [_ Q]. destruct id_r; exact Q. Qed.
Lemma ead_cid_i : cid_ok id_i.
Proof. destruct (fit_id_i _ _ _ _ _ _ _ _ _ _ _ _ _ _ _ _ _ F) as [_ Q]. destruct id_i; exact Q. Qed.
Lemma pt2_short s2 : lenN s2 <= 64 -> lenN (pt2 s2) <= 8128.
Proof.
  intros L. unfold pt2, rfc_plaintext_2. unfold pt2_size in HE. rewrite !lenN_app, cbor_bytes, enc_bstr_len.
  change (bstr_len 64) with 66 in HE. assert (head_len (lenN s2) <= 2).
  { unfold head_len. destruct (_ <? 24); [lia|]. destruct (N.ltb_spec (lenN s2) (2 ^ 8)); [lia|]. change (2 ^ 8) with 256 in *. lia. }
  lia.
Qed.

Lemma ead_made ci_cap c_i rc : lenN (i_c_i i) <= ci_cap -> msg2_gen cr cf r m1 ci_cap = Ok (c_i, rc) ->
  exists s2, rr_suite rc = st /\ rr_static_i rc = si /\ rr_prk_3e2m rc = prk3 /\ rr_th3 rc = th3 s2 /\ lenN s2 <= 64 /\
    rr_msg rc = cbor (CBytes (r_g_y r ++ ct2 s2)) /\
    made_field cr sr st (r_sk r) (r_pk r) prk3 (r_c_r r) th2 (r_id_cred r) (r_cred r) (r_ead_2 r) L_MAC_2 s2.
Proof.
  intros HC H. apply (msg2_gen_sound cr cf K) in H.
  destruct H as (me & su & g_x & ead & sr' & pt & P1 & MS & GS & L3 & (s2 & cap & PT & MF) & ET & V).
  pose proof (fit_method _ _ _ _ _ _ _ _ _ _ _ _ _ _ _ _ _ F) as FM. cbn [quiet_i i_method] in FM.
  pose proof (fit_suites _ _ _ _ _ _ _ _ _ _ _ _ _ _ _ _ _ F) as (FS1 & FS2 & FS3). cbn [quiet_i i_suites] in FS1, FS2, FS3.
  pose proof (fit_g_x _ _ _ _ _ _ _ _ _ _ _ _ _ _ _ _ _ F) as FX. cbn [quiet_i i_g_x] in FX.
  pose proof (fit_ead_1_size _ _ _ _ _ _ _ _ _ _ _ _ _ _ _ _ _ F) as F1. cbn [quiet_i i_ead_1] in F1.
  pose proof (fit_c_i _ _ _ _ _ _ _ _ _ _ _ _ _ _ _ _ _ F) as (FC & _). cbn [quiet_i i_c_i] in FC.
  pose proof (fit_cfg _ _ _ _ _ _ _ _ _ _ _ _ _ _ _ _ _ F) as FF.
  unfold m1 in P1. rewrite msg1_parse_rfc in P1; try assumption; try lia.
  2:{ unfold method_static in FM. destruct si, sr; lia. }
  injection P1 as <- <- <- _ _. destruct (static_unique _ _ _ _ _ FM MS) as [ES1 ES2]. symmetry in ES1, ES2.
  pose proof (fit_suite _ _ _ _ _ _ _ _ _ _ _ _ _ _ _ _ _ F) as FS. cbn [quiet_i i_suites] in FS. rewrite FS in GS. injection GS as GS. symmetry in GS.
  rewrite ES2, GS in *. clear sr' ES2. pose proof (fit_id_r _ _ _ _ _ _ _ _ _ _ _ _ _ _ _ _ _ F) as (FI & _). cbn [quiet_r r_id_cred] in FI.
  rewrite FI in PT. apply pt_gen_inv in PT as [-> LS]; [|exact ead_cid_r]. fold (pt2 s2) in *.
  pose proof (field_len _ _ _ _ _ _ _ _ _ _ _ _ _ FS MF) as L2.
  destruct (V [] [] []) as (_ & _ & _ & gxy & DH & (ct & EM & EC) & PA). cbn [v_pt2 v_prk_3e2m] in EC, PA.
  unfold v_th2_input in EC, PA. cbn [v_g_y v_m1] in EC, PA. fold (rfc_th2 (cr_hash cr) (r_g_y r) m1) in EC, PA. fold th2 in EC, PA, MF, ET.
  pose proof (dh_bytes _ _ _ _ _ (fit_yx _ _ _ _ _ _ _ _ _ _ _ _ _ _ _ _ _ F)) as DY. cbn [quiet_i quiet_r r_y i_g_x] in DY.
  rewrite DY in DH. injection DH as <-. fold prk2 in EC, PA.
  assert (E3 : rr_prk_3e2m rc = prk3).
  { eapply after_unique; [exact PA|]. intros Q. pose proof (fit_key_r _ _ _ _ _ _ _ _ _ _ _ _ _ _ _ _ _ F) as FK. rewrite Q in FK.
    apply dh_bytes, FK. }
  exists s2. split; [reflexivity|]. split; [exact ES1|]. split; [exact E3|]. split; [exact ET|]. split; [exact L2|].
  split; [rewrite EM, EC by (apply pt2_short, L2); reflexivity|]. rewrite <- E3. exact MF.
Qed.

Lemma ead_read m2 s2 c_cap a : lenN s2 <= 64 -> m2 = cbor (CBytes (r_g_y r ++ ct2 s2)) ->
  msg2_process cr cf pf i st (cr_hash cr m1) m2 creds_r c_cap si sr = Ok a ->
  a2_prk_3e2m a = prk3 /\ a2_prk_4e3m a = prk4 s2 /\ a2_th3 a = th3 s2 /\ inner (r_ead_2 r) (a2_ead a) /\
  vouches cr sr st (r_pk r) prk3 (r_c_r r) th2 (r_id_cred r) (r_cred r) (a2_ead a) L_MAC_2 s2.
Proof.
  intros L2 -> H. pose proof (fit_suite _ _ _ _ _ _ _ _ _ _ _ _ _ _ _ _ _ F) as FS. cbn [quiet_i i_suites] in FS.
  apply (msg2_sound_into cr cf pf K c_cap _ i st _ creds_r si sr a FS) in H.
  destruct H as (g_y & pt & s & f & EC & EE & ET & _ & _ & V). specialize (V [] []).
  destruct V as (_ & _ & ct & rest & gxy & id & ED & LG & DH & V). cbv zeta in V. cbn [v_g_y v_m1 v_pt2 v_prk_3e2m v_prk_4e3m] in *.
  unfold v_th3_input, v_th2_input in V. cbn [v_g_y v_m1 v_pt2 v_cred_r] in V. fold (rfc_th2 (cr_hash cr) g_y m1) in V.
  destruct V as (EX & SP & SID & RC & PA & VO & PB).
  pose proof (fit_g_y _ _ _ _ _ _ _ _ _ _ _ _ _ _ _ _ _ F) as FY. cbn [quiet_r r_g_y] in FY.
  pose proof (pt2_short s2 L2) as LP.
  assert (LC : lenN (ct2 s2) = lenN (pt2 s2)) by (unfold ct2; rewrite rfc_xor_eq; apply xor_len, kdf_len, (ok_hmac_len cr K)).
  rewrite cbor_bytes, <- (app_nil_r (enc_bstr _)), dec_enc_bstr in ED by (rewrite lenN_app; lia). injection ED as ED _.
  assert (EG : g_y = r_g_y r /\ ct = ct2 s2).
  { apply (f_equal (takeN 32)) in ED as E1. apply (f_equal (dropN 32)) in ED as E2.
    rewrite <- LG in E1 at 2. rewrite <- LG in E2 at 2. rewrite <- FY in E1 at 1. rewrite <- FY in E2 at 1.
    rewrite !takeN_app in E1. rewrite !dropN_app in E2. auto. }
  destruct EG as [-> ->]. fold th2 in EX, PA, VO, PB, ET.
  assert (DX : cr_dh cr (ecdh_id (edhoc_ecdh st)) (key_bytes (edhoc_ecdh st) (i_x i)) (r_g_y r) = Some g_xy).
  { pose proof (dh_bytes _ _ _ _ _ (fit_xy _ _ _ _ _ _ _ _ _ _ _ _ _ _ _ _ _ F)) as Q. cbn [quiet_i quiet_r i_x r_g_y] in Q.
    rewrite <- Q. f_equal. destruct (edhoc_ecdh st); [reflexivity|]. cbn [key_bytes]. symmetry. apply takeN_all. lia. }
  rewrite DX in DH. injection DH as <-. fold prk2 in EX, PA.
  assert (EP : pt = pt2 s2).
  { rewrite EX by (rewrite LC; exact LP). rewrite LC. unfold ct2. rewrite !rfc_xor_eq. apply xor_xor, kdf_len, (ok_hmac_len cr K). }
  subst pt. pose proof (fit_c_r _ _ _ _ _ _ _ _ _ _ _ _ _ _ _ _ _ F) as (FC & _). cbn [quiet_r r_c_r] in FC.
  pose proof (fit_cfg _ _ _ _ _ _ _ _ _ _ _ _ _ _ _ _ _ F) as FF.
  apply split2_ead in SP as (E1 & E2 & E3 & E4); [|exact ead_cid_r|lia|lia].
  rewrite E2 in SID. injection SID as <-. pose proof (fit_found_r _ _ _ _ _ _ _ _ _ _ _ _ _ _ _ _ _ F) as (f' & R1 & R2 & R3).
  rewrite R1 in RC. injection RC as ->. cbn [quiet_r r_cred] in R2. rewrite R2 in *.
  pose proof (fit_id_r _ _ _ _ _ _ _ _ _ _ _ _ _ _ _ _ _ F) as (FI & _). cbn [quiet_r r_id_cred] in FI. rewrite <- FI in VO.
  pose proof (fit_key_r _ _ _ _ _ _ _ _ _ _ _ _ _ _ _ _ _ F) as FK. pose proof (fit_key_i _ _ _ _ _ _ _ _ _ _ _ _ _ _ _ _ _ F) as FL.
  cbn [quiet_i quiet_r i_x r_pk r_g_y i_i] in FK, FL.
  assert (P3 : a2_prk_3e2m a = prk3).
  { eapply after_unique; [exact PA|]. intros Q. rewrite Q in R3, FK. rewrite R3. apply dh_bytes, FK. }
  rewrite P3 in *. fold (th3 s2) in ET. fold (rfc_th34 (cr_hash cr) th2 (pt2 s2) (r_cred r)) in PB. fold (th3 s2) in PB.
  split; [reflexivity|]. split.
  { unfold prk4. eapply after_unique; [exact PB|]. intros Q. rewrite Q in FL. apply dh_bytes, FL. }
  split; [exact ET|]. rewrite EE. split; [exact E4|]. rewrite E1, E3 in VO. destruct sr; [exact VO|].
  rewrite R3 in VO. rewrite (proj1 FK) in VO. exact VO.
Qed.

Lemma th2_32 : lenN th2 = 32.
Proof. apply (ok_hash_len cr K). Qed.
Lemma th3_32 s2 : lenN (th3 s2) = 32.
Proof. apply (ok_hash_len cr K). Qed.
Lemma ead_id_r : lenN (r_id_cred r) < 2 ^ 32 /\ lenN (r_cred r) < 2 ^ 32.
Proof.
  pose proof (fit_id_r_size _ _ _ _ _ _ _ _ _ _ _ _ _ _ _ _ _ F) as Q. pose proof (fit_cfg _ _ _ _ _ _ _ _ _ _ _ _ _ _ _ _ _ F) as FF.
  pose proof (fit_cred_r_size _ _ _ _ _ _ _ _ _ _ _ _ _ _ _ _ _ F) as Q'. cbn [quiet_r r_id_cred r_cred] in Q, Q'.
  unfold CRED_MAX_SIZE in Q'. lia.
Qed.
Lemma ead_id_i : lenN (i_id_cred i) < 2 ^ 32 /\ lenN (i_cred i) < 2 ^ 32.
Proof.
  pose proof (fit_id_i_size _ _ _ _ _ _ _ _ _ _ _ _ _ _ _ _ _ F) as Q. pose proof (fit_cfg _ _ _ _ _ _ _ _ _ _ _ _ _ _ _ _ _ F) as FF.
  pose proof (fit_cred_i_size _ _ _ _ _ _ _ _ _ _ _ _ _ _ _ _ _ F) as Q'. cbn [quiet_i i_id_cred i_cred] in Q, Q'.
  unfold CRED_MAX_SIZE in Q'. lia.
Qed.

(** the initiator hands EAD_2 to the application *)
Lemma ead_2_confused m2 s2 c_cap a : r_ead_2 r <> [] -> lenN s2 <= 64 -> m2 = cbor (CBytes (r_g_y r ++ ct2 s2)) ->
  made_field cr sr st (r_sk r) (r_pk r) prk3 (r_c_r r) th2 (r_id_cred r) (r_cred r) (r_ead_2 r) L_MAC_2 s2 ->
  msg2_process cr cf pf i st (cr_hash cr m1) m2 creds_r c_cap si sr = Ok a ->
  inner (r_ead_2 r) (a2_ead a) /\
  confused cr sr st (r_sk r) (r_pk r) prk3 (r_c_r r) th2 (r_id_cred r) (r_cred r) (r_ead_2 r) (a2_ead a) L_MAC_2.
Proof.
  intros NE L2 EM MF H. destruct (ead_read _ _ _ _ L2 EM H) as (_ & _ & _ & IN & VO). split; [exact IN|].
  destruct ead_id_r. eapply confuse; try eassumption; [lia|exact th2_32|]. now apply inner_ne.
Qed.

(** the responder hands EAD_3 to the application *)
Lemma ead_3_confused s2 rc m3 ct3 pt3 prk_len ead3 pk prk p4 t4 :
  i_ead_3 i <> [] -> lenN (i_ead_3 i) < 2 ^ 32 -> prk_len <= 8128 ->
  rr_suite rc = st -> rr_static_i rc = si -> rr_prk_3e2m rc = prk3 -> rr_th3 rc = th3 s2 ->
  cr_aead_enc cr (rfc_kdf (cr_hmac cr) prk3 L_K_3 (th3 s2) 16) (rfc_kdf (cr_hmac cr) prk3 L_IV_3 (th3 s2) 13) (rfc_aad (th3 s2))
    (edhoc_mac_len_static_dh st) pt3 = Some ct3 ->
  m3 = cbor (CBytes ct3) ->
  pt_made cr cf None st si (i_sk i) (i_pk i) (prk4 s2) [] (th3 s2) (i_id_cred i) (i_cred i) (i_ead_3 i) L_MAC_3 pt3 ->
  msg3_process_full cr cf pf r rc m3 creds_i prk_len = Ok (ead3, pk, prk, (p4, t4)) ->
  inner (i_ead_3 i) ead3 /\
  confused cr si st (i_sk i) (i_pk i) (prk4 s2) [] (th3 s2) (i_id_cred i) (i_cred i) (i_ead_3 i) ead3 L_MAC_3.
Proof.
  intros NE LE HP R1 R2 R3 R4 AE -> (s3 & cap & PT & MF) H.
  pose proof (fit_suite _ _ _ _ _ _ _ _ _ _ _ _ _ _ _ _ _ F) as FS. cbn [quiet_i i_suites] in FS.
  pose proof (fit_id_i _ _ _ _ _ _ _ _ _ _ _ _ _ _ _ _ _ F) as (FI & _). cbn [quiet_i i_id_cred] in FI.
  rewrite FI in PT. apply pt_gen_inv in PT as [-> LS]; [|exact ead_cid_i].
  pose proof (field_len _ _ _ _ _ _ _ _ _ _ _ _ _ FS MF) as L3. destruct ead_id_i as [LI LCR].
  apply (msg3_full_sound cr cf pf K (last (i_suites i) 0) r rc _ creds_i prk_len ead3 pk prk p4 t4
    {| v_m1 := m1; v_g_y := r_g_y r; v_pt2 := pt2 s2; v_cred_r := r_cred r; v_prk_3e2m := prk3; v_pt3 := []; v_cred_i := []; v_prk_4e3m := [] |}) in H;
    [|rewrite R1; exact FS|exact HP|symmetry; exact R3|symmetry; exact R4].
  destruct H as (pt & s & f & -> & -> & V). cbv zeta in V. destruct V as (V & _ & _).
  destruct V as (_ & ct & rest & id & cap' & ED & AD & SP & SID & RC & PA & VO).
  match type of AD with context [v_th3_input cr ?w] => change (cr_hash cr (v_th3_input cr w)) with (th3 s2) in AD, PA, VO end.
  cbn [v_prk_3e2m v_pt3 v_prk_4e3m] in *. rewrite R1, R2 in *.
  assert (LC : lenN ct3 < 2 ^ 64).
  { rewrite (ok_aead_enc_len cr K _ _ _ _ _ _ AE). unfold rfc_plaintext_3. rewrite !lenN_app, cbor_bytes.
    pose proof (enc_bstr_len_le s3). pose proof (id_compact_len id_i) as Q. rewrite <- FI in Q. destruct (suite_lens _ _ FS) as (Q16 & _). lia. }
  rewrite cbor_bytes, <- (app_nil_r (enc_bstr _)), dec_enc_bstr in ED by exact LC. injection ED as <- _.
  rewrite (ok_aead cr K _ _ _ _ _ _ AE) in AD. injection AD as <-.
  apply split3_ead in SP as (E2 & E3 & E4); [|exact ead_cid_i|lia]. split; [exact E4|].
  rewrite E2 in SID. injection SID as <-. pose proof (fit_found_i _ _ _ _ _ _ _ _ _ _ _ _ _ _ _ _ _ F) as (f' & Q1 & Q2 & Q3).
  rewrite Q1 in RC. injection RC as ->. cbn [quiet_i i_cred] in Q2. rewrite Q2, <- FI, E3 in VO.
  pose proof (fit_key_i _ _ _ _ _ _ _ _ _ _ _ _ _ _ _ _ _ F) as FK. cbn [quiet_i quiet_r r_y i_pk] in FK.
  assert (P4 : p4 = prk4 s2).
  { unfold prk4. eapply after_unique; [exact PA|]. intros Q. rewrite Q in Q3, FK. rewrite Q3. apply dh_bytes, FK. }
  rewrite P4 in VO.
  assert (VO' : vouches cr si st (i_pk i) (prk4 s2) [] (th3 s2) (i_id_cred i) (i_cred i) (sp_ead s) L_MAC_3 s3).
  { destruct si; [exact VO|]. rewrite Q3, (proj1 FK) in VO. exact VO. }
  eapply confuse; try eassumption; [exact (th3_32 s2)|]. now apply inner_ne.
Qed.
End Ead.

(** The runs *)

Lemma run_i_inv m4 cr cf pf i creds c_cap n e :
  let o := run_i m4 cr cf pf i creds c_cap n e in
  (forall m, nth_error (o_sent o) 0 = Some m -> exists st h, msg1_gen cr cf i = Ok (m, st, h)) /\
  (o_eads o <> [] -> exists m1 st h m2 a m3 prk, nth_error (o_sent o) 0 = Some m1 /\ msg1_gen cr cf i = Ok (m1, st, h) /\
     receive cf e 2 [m1] = Ok m2 /\ msg3_gen cr cf pf i st h m2 creds c_cap n = Ok (a, m3, prk) /\ hd [] (o_eads o) = a2_ead a /\
     o_prk o = prk /\ (forall m, nth_error (o_sent o) 1 = Some m -> m = m3)).
Proof.
  cbv zeta. unfold run_i. destruct m4; unfold initiator_run4_extended, initiator_run_extended.
  all: destruct (msg1_gen cr cf i) as [[[m1 st] h]|?|?] eqn:E1; [|split; [discriminate|intros Q; now contradiction Q]..].
  all: split.
  1,3: intros m Q; exists st, h; assert (QQ : m1 = m);
    [ revert Q; repeat match goal with |- context [match ?t with _ => _ end] => destruct t eqn:?; try discriminate end;
      cbn [stop o_sent nth_error]; intros Q; now injection Q as <- | now subst m ].
  all: destruct (e_tx e 1 m1); [|intros Q; now contradiction Q..].
  all: destruct (receive cf e 2 [m1]) as [m2|?|?] eqn:ER; [|intros Q; now contradiction Q..].
  all: destruct (msg3_gen cr cf pf i st h m2 creds c_cap n) as [[[av m3] prk]|?|?] eqn:E3; [|intros Q; now contradiction Q..].
  all: intros _; exists m1, st, h, m2, av, m3, prk.
  all: repeat match goal with |- context [match ?t with _ => _ end] => destruct t eqn:? end;
    cbn [stop o_sent o_eads o_prk nth_error hd]; repeat (split; [reflexivity || assumption|]); intros ? Q; now injection Q as <- || discriminate.
Qed.

Lemma run_r_inv m4 cr cf pf r ead_4 creds ci_cap pk_cap n e :
  let o := run_r m4 cr cf pf r ead_4 creds ci_cap pk_cap n e in
  (forall m, nth_error (o_sent o) 0 = Some m -> exists m1 c_i rc, receive cf e 1 [] = Ok m1 /\ msg2_gen cr cf r m1 ci_cap = Ok (c_i, rc) /\
     m = rr_msg rc) /\
  (forall d ead3, o_eads o = [d; ead3] -> exists m1 c_i rc m3 pk prk p4 t4, receive cf e 1 [] = Ok m1 /\ msg2_gen cr cf r m1 ci_cap = Ok (c_i, rc) /\
     nth_error (o_sent o) 0 = Some (rr_msg rc) /\ receive cf e 3 [rr_msg rc] = Ok m3 /\
     msg3_process_full cr cf pf r rc m3 creds n = Ok (ead3, pk, prk, (p4, t4))).
Proof.
  cbv zeta. unfold run_r. destruct m4; unfold responder_run4_extended, responder_run_extended.
  all: destruct (receive cf e 1 []) as [m1|?|?] eqn:E1; [|split; discriminate..].
  all: destruct (msg2_gen cr cf r m1 ci_cap) as [[c_i rc]|?|?] eqn:E2; [|split; discriminate..].
  all: split.
  1,3: intros m Q; exists m1, c_i, rc; do 2 (split; [reflexivity || assumption|]); revert Q;
      repeat match goal with |- context [match ?t with _ => _ end] => destruct t eqn:?; try discriminate end;
      cbn [stop o_sent nth_error]; intros Q; now injection Q as <-.
  all: destruct (e_ead e 1 (rr_ead rc)); [|discriminate..].
  all: destruct (e_tx e 2 (rr_msg rc)); [|discriminate..].
  all: destruct (receive cf e 3 [rr_msg rc]) as [m3|?|?] eqn:E3; [|discriminate..].
  all: unfold msg3_process; destruct (msg3_process_full cr cf pf r rc m3 creds n) as [[[[e3 pk] prk] [p4 t4]]|?|?] eqn:E4; [|discriminate..].
  all: cbn [bind]; intros d ead3 Q; exists m1, c_i, rc, m3, pk, prk, p4, t4.
  all: repeat match goal with |- context [match ?t with _ => _ end] => destruct t eqn:? end;
    cbn [stop o_sent o_eads nth_error] in *; injection Q as _ <-; repeat split; assumption || reflexivity.
Qed.

(** what the responder hands over first *)
Lemma run_r_first m4 cr cf pf r ead_4 creds ci_cap pk_cap n e d ds :
  o_eads (run_r m4 cr cf pf r ead_4 creds ci_cap pk_cap n e) = d :: ds ->
  exists m1 c_i rc, receive cf e 1 [] = Ok m1 /\ msg2_gen cr cf r m1 ci_cap = Ok (c_i, rc) /\ d = rr_ead rc.
Proof.
  unfold run_r. destruct m4; unfold responder_run4_extended, responder_run_extended.
  all: destruct (receive cf e 1 []) as [m1|?|?] eqn:E1; [|discriminate..].
  all: destruct (msg2_gen cr cf r m1 ci_cap) as [[c_i rc]|?|?] eqn:E2; [|discriminate..].
  all: intros Q; exists m1, c_i, rc; do 2 (split; [reflexivity || assumption|]); revert Q.
  all: repeat match goal with |- context [match ?t with _ => _ end] => destruct t eqn:?; try discriminate end;
      cbn [stop o_eads]; intros Q; now injection Q as <-.
Qed.
Lemma msg2_gen_ead cr cf r m1 ci_cap c_i rc me su g_x ci ead :
  msg2_gen cr cf r m1 ci_cap = Ok (c_i, rc) -> msg1_parse cf m1 ci_cap = Ok (me, su, g_x, ci, ead) ->
  rr_ead rc = match ead with Some b => b | None => repeat 0 (N.to_nat (EAD_SIZE cf)) end.
Proof.
  intros H P. unfold msg2_gen in H. rewrite P in H. cbn [bind] in H. destruct (negb _); [discriminate|].
  apply bind_ok in H as (st & _ & H). destruct (authentication_type_get _ _) as [a b]. cbv zeta in H.
  repeat match type of H with bind _ _ = _ => apply bind_ok in H as (? & _ & H) | (let '(_, _) := ?t in _) = _ => destruct t end.
  injection H as _ <-. reflexivity.
Qed.
