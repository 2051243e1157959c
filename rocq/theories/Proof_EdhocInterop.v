(** The parties of this code in a session with a peer that follows RFC 9528. *)
From Verif Require Import Base Proof_Base Model_Common Model_Cbor Proof_Cbor Model_Crypto
  Spec_CborTree Proof_CborTree Spec_Hkdf Proof_Hkdf Spec_Edhoc Spec_EdhocRun Spec_EdhocView Spec_EdhocEad Spec_EdhocInterop
  Model_EdhocCfg Model_EdhocCbor Model_EdhocKeys
  Proof_EdhocBase Model_EdhocCert Model_EdhocMsg Model_EdhocRun Proof_EdhocMsg1 Proof_EdhocMsg Proof_EdhocRun
  Proof_EdhocMsg4 Proof_EdhocAgree Prop_EdhocAuth Proof_EdhocSound Proof_EdhocEad Prop_EdhocRun Proof_EdhocSame Proof_CborUnique Proof_EdhocParams.

(* ---------- the session in the terms of Spec_Edhoc ---------- *)

Definition cid (i : peer_id) : cred_id :=
  match i with Kid _ | Params _ => KidInt 0 | Chain c => X5chain c | Hash a h => X5t a h end.
Definition as_run (t : talk) (s2 s3 : bytes) : rfc_run := {|
  x_m1 := t_m1 t; x_g_y := t_g_y t; x_g_xy := t_g_xy t; x_static_r := t_static_r t; x_g_rx := t_g_rx t;
  x_static_i := t_static_i t; x_g_iy := t_g_iy t; x_c_r := t_c_r t; x_ctx_c := rfc_conn_id (t_c_r t);
  x_id_r := cid (t_id_r t); x_cred_r := t_cred_r t; x_sig_2 := s2; x_id_i := cid (t_id_i t); x_cred_i := t_cred_i t; x_sig_3 := s3;
  x_mac2_len := if t_static_r t then t_mac_len t else 32; x_mac3_len := if t_static_i t then t_mac_len t else 32;
  x_key_len := 16; x_iv_len := 13; x_tag_len := t_mac_len t |}.
Lemma cid_map_eq i : certified i -> id_map i = rfc_id_cred (cid i) /\ id_short i = rfc_id_cred_compact (cid i) /\ cid_ok (cid i).
Proof. destruct i; cbn; [contradiction|auto|auto|contradiction]. Qed.
Lemma plain_ctx c : plain c -> rfc_conn_id c = mac_c c /\ c_r_is_raw_int c = false.
Proof.
  intros [NE O]. unfold rfc_conn_id, mac_c, c_r_is_raw_int. rewrite O. destruct c as [|b [|? ?]]; [contradiction| |split; reflexivity].
  split; [reflexivity|]. unfold one_byte_int in O. apply orb_false_iff in O as [O _]. exact O.
Qed.

Section Interop.
Variable cr : crypto.
Variable cf : cfg.
Variable pf : platform.
Hypothesis K : crypto_ok cr.
Local Notation hmac := (cr_hmac cr).
Local Notation H := (cr_hash cr).
Local Notation aead := (cr_aead_enc cr).

Section Same.
Variables (t : talk) (s2 s3 : bytes).
Local Notation x := (as_run t s2 s3).
Hypotheses (CR : certified (t_id_r t)) (E2 : t_ead_2 t = []).
Lemma same_mac2 : t_mac_2 hmac H t = x_mac_2 hmac H x.
Proof using CR E2. unfold t_mac_2, t_context_2, x_mac_2. rewrite E2, (proj1 (cid_map_eq _ CR)). reflexivity. Qed.
Lemma same_tbs2 : t_tbs_2 hmac H t = x_tbs_2 hmac H x.
Proof using CR E2. unfold t_tbs_2, x_tbs_2. rewrite same_mac2, E2, (proj1 (cid_map_eq _ CR)). reflexivity. Qed.
Lemma same_pt2 : t_pt2 t s2 = x_pt2 x.
Proof using CR E2. unfold t_pt2, x_pt2, rfc_plaintext_2. rewrite E2, (proj1 (proj2 (cid_map_eq _ CR))). reflexivity. Qed.
Lemma same_m2 : t_m2 hmac H t s2 = x_m2 hmac H x.
Proof using CR E2. unfold t_m2, x_m2, x_ct2. rewrite same_pt2. reflexivity. Qed.
Lemma same_th3 : t_th3 H t s2 = x_th3 H x.
Proof using CR E2. unfold t_th3, x_th3. rewrite same_pt2. reflexivity. Qed.
Lemma same_4e3m : t_prk_4e3m hmac H t s2 = x_prk_4e3m hmac H x.
Proof using CR E2. unfold t_prk_4e3m, x_prk_4e3m. rewrite same_th3. reflexivity. Qed.
Hypotheses (CI : certified (t_id_i t)) (E3 : t_ead_3 t = []).
Lemma same_mac3 : t_mac_3 hmac H t s2 = x_mac_3 hmac H x.
Proof. unfold t_mac_3, t_context_3, x_mac_3. rewrite E3, (proj1 (cid_map_eq _ CI)), same_4e3m, same_th3. reflexivity. Qed.
Lemma same_tbs3 : t_tbs_3 hmac H t s2 = x_tbs_3 hmac H x.
Proof. unfold t_tbs_3, x_tbs_3. rewrite same_mac3, E3, (proj1 (cid_map_eq _ CI)), same_th3. reflexivity. Qed.
Lemma same_pt3 : t_pt3 t s3 = x_pt3 x.
Proof using CI E3. unfold t_pt3, x_pt3, rfc_plaintext_3. rewrite E3, (proj1 (proj2 (cid_map_eq _ CI))). reflexivity. Qed.
Lemma same_m3 : t_m3 hmac H aead t s2 s3 = match x_ct3 hmac H aead x with Some ct => Some (cbor (CBytes ct)) | None => None end.
Proof. unfold t_m3, x_ct3. rewrite same_pt3, same_th3. reflexivity. Qed.
Lemma same_prk_out n : t_prk_out hmac H t s2 s3 n = x_prk_out hmac H x n.
Proof. unfold t_prk_out, x_prk_out, t_th4, x_th4. rewrite same_pt3, same_th3, same_4e3m. reflexivity. Qed.
End Same.

(** a field that is right is accepted *)
Lemma right_verify l st sdh key prk c th id cred label s :
  small cf -> get_suite l = Ok st -> label < 24 -> lenN th = 32 -> c_r_is_raw_int c = false -> lenN c <= C_R_SIZE cf ->
  lenN id <= ID_CRED_MAX_SIZE cf -> lenN cred <= CRED_MAX_SIZE cf ->
  (sdh = false -> edhoc_sign st = EdDSA -> 32 <= lenN key) ->
  let m := rfc_mac hmac prk label (rfc_context (mac_c c) id th cred []) (mac_len sdh st) in
  forall pk, (sdh = false -> pk = key) ->
  right_field cr sdh st key (rfc_tbs id th cred [] m) m s ->
  sig_or_mac_verify cr cf sdh st pk prk c th id cred [] label s = Ok tt /\ lenN s <= 64.
Proof.
  intros HS HL HB HT HR HC HI HD HK m pk HP F.
  assert (LM : lenN m = mac_len sdh st) by apply (m_len cr K).
  pose proof (mac_len_le l st sdh HL) as M32. unfold sig_or_mac_verify.
  rewrite (mac_here cr cf K HS l st sdh prk c th id cred label) by assumption. cbn [bind]. fold m.
  unfold right_field in F. destruct sdh.
  - subst s. split; [|lia]. change HASH_SIZE with 32. destruct (N.ltb_spec 32 (lenN m)); [lia|].
    rewrite N.leb_refl, takeN_all, beqb_refl by lia. reflexivity.
  - destruct F as [L V]. split; [|lia]. rewrite (tbs_here cf HS c th id cred label) by (assumption || lia). cbn [bind].
    rewrite (HP eq_refl). unfold verify. destruct (edhoc_sign st); cbn [sign_sel] in *.
    + rewrite V. reflexivity.
    + rewrite L. change (64 <? 64) with false. specialize (HK eq_refl eq_refl).
      destruct (N.ltb_spec (lenN key) 32); [lia|]. cbn [orb]. rewrite takeN_all by lia. rewrite V. reflexivity.
Qed.

Lemma suite_facts l st : get_suite l = Ok st ->
  edhoc_mac_len_static_dh st <= 16 /\ get_aead_mac_len (edhoc_aead st) = edhoc_mac_len_static_dh st /\
  (edhoc_mac_len_static_dh st = 8 \/ edhoc_mac_len_static_dh st = 16).
Proof.
  intros E. unfold get_suite in E. destruct l as [|[[p|p|]|[p|p|]|]]; try discriminate; injection E as <-; cbn; lia.
Qed.
Lemma own_exists (sdh : bool) st l sk pk tbs mac : get_suite l = Ok st -> lenN mac <= 32 ->
  (if sdh then True else forall m, cr_sign cr (sign_sel (edhoc_sign st)) sk pk m <> None) -> (sdh = true -> is_bytes mac) ->
  exists s, own_field cr sdh st sk pk tbs mac s /\ lenN s <= 64 /\ is_bytes s.
Proof.
  intros HL LM S B. unfold own_field. destruct sdh.
  - exists mac. split; [reflexivity|]. split; [lia|auto].
  - destruct (cr_sign cr (sign_sel (edhoc_sign st)) sk pk tbs) as [s|] eqn:E; [|now apply S in E]. exists s.
    split; [reflexivity|]. split; [rewrite (ok_sign_len cr K _ _ _ _ _ E); lia|exact (ok_sign_bytes cr K _ _ _ _ _ E)].
Qed.
Lemma mac_bytes prk label ctx n : is_bytes (rfc_mac hmac prk label ctx n).
Proof. apply okm_bytes, (ok_hmac_bytes cr K). Qed.
Lemma mac_length prk label ctx n : lenN (rfc_mac hmac prk label ctx n) = n.
Proof. apply kdf_len, (ok_hmac_len cr K). Qed.

(* ---------- the initiator ---------- *)

Section Initiator.
Hypothesis A : aead_total cr.
Variables (i : initiator) (creds : list other_party_cred) (st : suite) (t : talk) (key s2 : bytes).
Hypothesis F : as_initiator cr cf i st t key s2.

Lemma ai_start : msg1_gen cr cf i = Ok (t_m1 t, st, H (t_m1 t)).
Proof.
  destruct F. rewrite ai_m1 in *. now apply msg1_gen_fits.
Qed.
Lemma ai_len2 : lenN s2 <= 64.
Proof.
  destruct F. destruct (suite_facts _ _ ai_suite) as (M & _). unfold right_field in ai_field. destruct (t_static_r t) eqn:E.
  - rewrite ai_field. unfold t_mac_2. rewrite mac_length, E, ai_mac_len. lia.
  - destruct ai_field as [-> _]. apply N.leb_le. reflexivity.
Qed.

Section Certified.
Hypotheses (CR : certified (t_id_r t)) (CI : certified (t_id_i t)) (PL : plain (t_c_r t)) (NE : t_ead_2 t = [])
  (FD : finds cr pf (t_static_r t) creds (id_map (t_id_r t)) (CRED_R_SIZE cf) (t_cred_r t) key).

Lemma ai_msg2 s3 : msg2_process cr cf pf i st (H (t_m1 t)) (t_m2 hmac H t s2) creds (C_R_SIZE cf) (t_static_i t) (t_static_r t) =
  Ok {| a2_c_r := t_c_r t; a2_ead := []; a2_th3 := x_th3 H (as_run t s2 s3); a2_prk_3e2m := x_prk_3e2m hmac H (as_run t s2 s3);
        a2_prk_4e3m := x_prk_4e3m hmac H (as_run t s2 s3) |}.
Proof.
  pose proof ai_len2 as L2. rewrite (same_m2 t s2 s3 CR NE). destruct F.
  destruct (cid_map_eq _ CR) as (EM & ES & CO). destruct (plain_ctx _ PL) as (EC & RAW). destruct FD as (f & RF & FC & FK).
  destruct ai_cred_r_size as (CN & CL).
  rewrite (same_mac2 t s2 s3 CR NE), (same_tbs2 t s2 s3 CR NE) in ai_field. rewrite (same_pt2 t s2 s3 CR NE) in ai_pt2_size.
  set (x := as_run t s2 s3) in *.
  assert (LN : lenN (t_c_r t) < 2 ^ 30) by (unfold moderate in ai_cfg; lia).
  apply (msg2_process_any cr cf pf K ai_cfg x i st creds (C_R_SIZE cf) f); try assumption;
    cbn [as_run x_g_y x_id_r x_g_xy x_c_r x_sig_2 x_cred_r x_static_r x_g_rx x_static_i x_g_iy x].
  - apply ssd, ai_xy.
  - lia.
  - rewrite <- EM. exact ai_id_r_size.
  - destruct ai_pt2_size as [P1 P2]. split; [exact P1|]. rewrite ct2_array_bounds by exact P1.
    assert (4 <= lenN (x_pt2 x)) as N3.
    { unfold x_pt2, rfc_plaintext_2. rewrite !lenN_app. pose proof (conn_id_pos (x_c_r x)) as Q1. pose proof (compact_pos (x_id_r x)) as Q2.
      assert (3 <= lenN (rfc_id_cred_compact (x_id_r x))) as Q3.
      { cbn [x x_id_r as_run]. destruct (t_id_r t) as [b|c|a h|l]; [contradiction| | |contradiction]; cbn [cid rfc_id_cred_compact rfc_id_cred]; unfold map1;
          rewrite !lenN_app, cbor_int; unfold enc_int; cbn [Z.leb Z.compare]; rewrite enc_head_len.
        - change (lenN (rfc_head 5 1)) with 1. change (head_len (Z.to_N 33)) with 2. lia.
        - change (lenN (rfc_head 5 1)) with 1. change (head_len (Z.to_N 34)) with 2. lia. }
      lia. }
    destruct (N.leb_spec (lenN (x_pt2 x)) 3); [lia|]. cbn [orb]. exact P2.
  - rewrite <- EM. exact RF.
  - intros Q. rewrite Q in FK. apply ssd. rewrite FK. auto.
  - intros Q. rewrite Q in ai_iy. apply ssd, ai_iy.
  - eapply (right_verify (last (i_suites i) 0) st (t_static_r t) key); try eassumption; try reflexivity.
    + apply (len_th2 cr K).
    + rewrite <- EM. unfold ID_CRED_MAX_SIZE. lia.
    + intros Q. rewrite Q in FK. exact FK.
    + unfold x_tbs_2, x_mac_2 in ai_field. cbn [x as_run x_ctx_c x_static_r x_id_r x_cred_r x_mac2_len] in ai_field.
      rewrite EC, ai_mac_len in ai_field. exact ai_field.
Qed.

Lemma ai_field3 : exists s3 m3, own_field cr (t_static_i t) st (i_sk i) (i_pk i) (t_tbs_3 hmac H t s2) (t_mac_3 hmac H t s2) s3 /\
  lenN s3 <= 64 /\ t_m3 hmac H aead t s2 s3 = Some m3.
Proof.
  pose proof F as [].
  destruct (suite_facts _ _ ai_suite) as (M16 & _ & M8).
  destruct (own_exists (t_static_i t) st (last (i_suites i) 0) (i_sk i) (i_pk i) (t_tbs_3 hmac H t s2) (t_mac_3 hmac H t s2)) as (s3 & O & L & B).
  - exact ai_suite.
  - unfold t_mac_3. rewrite mac_length, ai_mac_len. destruct (t_static_i t); lia.
  - destruct (t_static_i t); [exact I|exact ai_iy].
  - intros _. apply mac_bytes.
  - exists s3. destruct (t_m3 hmac H aead t s2 s3) as [m3|] eqn:E; [now exists m3|]. exfalso. unfold t_m3 in E.
    destruct ai_own as (_ & _ & _ & E3 & IB). destruct ai_id_i_size as (_ & I64 & _).
    match type of E with match ?a with _ => _ end = _ => destruct a eqn:EA; [discriminate|] end. revert EA. apply A.
    + apply kdf_len, (ok_hmac_len cr K).
    + apply kdf_len, (ok_hmac_len cr K).
    + rewrite ai_mac_len. exact M8.
    + unfold t_pt3. rewrite E3, !lenN_app, cbor_bytes. change (lenN (@nil N)) with 0. pose proof (enc_bstr_len_le s3).
      assert (id_short (t_id_i t) = id_map (t_id_i t)) as -> by (destruct (t_id_i t); [contradiction|reflexivity|reflexivity|contradiction]). lia.
    + unfold t_pt3. rewrite E3, cbor_bytes. apply is_bytes_app. split; [destruct (t_id_i t); [contradiction|exact IB|exact IB|contradiction]|].
      apply is_bytes_app. split; [apply enc_bstr_bytes; exact B|constructor].
Qed.

Lemma ai_run e n s3 m3 : obliging e -> n <= 8128 -> e_rx e 2 [t_m1 t] = Ok (t_m2 hmac H t s2) ->
  own_field cr (t_static_i t) st (i_sk i) (i_pk i) (t_tbs_3 hmac H t s2) (t_mac_3 hmac H t s2) s3 ->
  t_m3 hmac H aead t s2 s3 = Some m3 -> lenN m3 <= lenN (t_m2 hmac H t s2) ->
  initiator_run cr cf pf i creds n e =
  {| o_sent := [t_m1 t; m3]; o_eads := [[]]; o_prk := Some (t_prk_out hmac H t s2 s3 n);
     o_peer_c := Some (t_c_r t); o_peer_pk := None; o_ret := Ok tt |}.
Proof.
  intros O HN RX OF E3 LE. pose proof F as []. destruct ai_own as (OI & OC & OE & TE & IB).
  destruct (cid_map_eq _ CI) as (EM & ES & CO). destruct (suite_facts _ _ ai_suite) as (M16 & MT & M8).
  unfold initiator_run, initiator_run_extended. rewrite ai_start, (proj1 O).
  rewrite (receive_fits cf e 2 _ _ RX ai_m2_size). unfold msg3_gen.
  destruct (method_type _ _ _ ai_method) as [-> _]. rewrite (ai_msg2 s3). cbn [bind].
  rewrite (same_m3 t s2 s3 CR NE CI TE) in E3. set (x := as_run t s2 s3) in *.
  destruct (x_ct3 hmac H aead x) as [ct3|] eqn:CT; [|discriminate].
  assert (m3 = cbor (CBytes ct3)) as -> by congruence.
  change (t_static_i t) with (x_static_i x).
  rewrite (msg3_gen_core cr cf K ai_cfg x (last (i_suites i) 0) i st (t_m2 hmac H t s2) n ct3); try assumption; try reflexivity.
  - assert (EE : encode_bstr ct3 (lenN (t_m2 hmac H t s2)) = Ok (cbor (CBytes ct3))).
    { apply encode_bstr_ok. rewrite cbor_bytes in LE |- *. split; [reflexivity|lia]. }
    rewrite EE. cbn [a2_ead a2_c_r]. rewrite (proj2 O), (proj1 O), (same_prk_out t s2 s3 CR NE CI TE). reflexivity.
  - cbn [x as_run x_mac3_len x_static_i]. rewrite ai_mac_len. reflexivity.
  - cbn [x as_run x_tag_len]. rewrite ai_mac_len. now symmetry.
  - rewrite OI. exact EM.
  - unfold own_field in OF. rewrite (same_tbs3 t s2 s3 CR NE CI TE), (same_mac3 t s2 s3 CR NE CI TE) in OF. exact OF.
  - rewrite OI. apply ai_id_i_size.
  - rewrite OC. apply ai_cred_i_size.
  - rewrite OC. apply ai_cred_i_size.
  - rewrite OI, MT. apply ai_id_i_size.
Qed.
End Certified.

Lemma ai_verified e n : n <= 8128 -> e_rx e 2 [t_m1 t] = Ok (t_m2 hmac H t s2) ->
  o_ret (initiator_run cr cf pf i creds n e) = Ok tt ->
  exists s id f prk', plaintext2_split (t_pt2 t s2) (C_R_SIZE cf) (ID_CRED_R_SIZE cf) (EAD_SIZE cf) = Ok s /\
    sp_id_cred s = Some id /\ retrieve_cred cr pf (t_static_r t) creds (Some id) (CRED_R_SIZE cf) = Ok f /\
    prk_after cr (t_static_r t) st (t_prk_2e hmac H t) L_SALT_3e2m (t_th2 H t) (i_x i) (f_g f) prk' /\
    vouches cr (t_static_r t) st (f_pk f) prk' (sp_c_r s) (t_th2 H t) id (f_cred f) (sp_ead s) L_MAC_2 (sp_sig s).
Proof using K F.
  clear A. intros HN RX HO. pose proof ai_len2 as L2. pose proof F as [].
  apply (C38_initiator_ok_partial cr cf pf i creds (C_R_SIZE cf) n e K HN) in HO.
  destruct HO as (st' & m2 & m3 & si & sr & s & f & v & GS & MS & RX' & _ & _ & _ & V & _).
  assert (st' = st) as -> by congruence.
  destruct (method_type _ _ _ ai_method) as (MT & M3). specialize (MS M3).
  assert (sr = t_static_r t) as ->.
  { clear - MS ai_method. unfold method_static in *. destruct si, sr, (t_static_i t), (t_static_r t); try reflexivity; lia. }
  rewrite <- ai_m1, RX in RX'. assert (m2 = t_m2 hmac H t s2) as -> by congruence. clear RX'.
  destruct V as (V1 & V2 & ct & rest & g_xy & id & D & LG & DH & V). cbv zeta in V.
  destruct V as (VP & VS & VI & VR & VK & VV & _).
  unfold t_m2 in D. set (ct2 := rfc_xor _ _) in D.
  assert (C2 : ct2 = xor_bytes (t_pt2 t s2) (rfc_kdf hmac (t_prk_2e hmac H t) L_KEYSTREAM_2 (t_th2 H t) (lenN (t_pt2 t s2))))
    by apply rfc_xor_eq.
  assert (LC : lenN ct2 = lenN (t_pt2 t s2)) by (rewrite C2; apply xor_len, kdf_len, (ok_hmac_len cr K)).
  destruct ai_pt2_size as [P1 _].
  rewrite cbor_bytes, <- (app_nil_r (enc_bstr _)), dec_enc_bstr in D by (rewrite lenN_app, LC, ai_g_y; lia).
  assert (DE : t_g_y t ++ ct2 = v_g_y v ++ ct) by congruence. clear D.
  assert (EG : t_g_y t = v_g_y v).
  { apply (f_equal (takeN 32)) in DE. rewrite <- ai_g_y in DE at 1. rewrite takeN_app in DE. rewrite <- LG, takeN_app in DE. exact DE. }
  assert (ct = ct2) as -> by (rewrite EG in DE; now apply app_inv_head in DE).
  assert (ET : H (v_th2_input cr v) = t_th2 H t) by (unfold v_th2_input; rewrite V1, <- ai_m1, <- EG; reflexivity).
  rewrite ET in *. clear ET.
  assert (EX : g_xy = t_g_xy t).
  { destruct ai_xy as [X1 X2]. rewrite <- EG in DH. unfold key_bytes in DH. destruct (edhoc_ecdh st); [congruence|].
    destruct (X2 eq_refl) as [X3 _]. rewrite takeN_all in DH by lia. congruence. }
  rewrite EX in *. change (rfc_prk_2e hmac (t_th2 H t) (t_g_xy t)) with (t_prk_2e hmac H t) in *.
  assert (EP : v_pt2 v = t_pt2 t s2).
  { rewrite VP by lia. rewrite rfc_xor_eq, LC, C2. apply xor_xor, kdf_len, (ok_hmac_len cr K). }
  rewrite EP in VS. exists s, id, f, (v_prk_3e2m v). split; [exact VS|]. split; [exact VI|]. split; [exact VR|]. split; [exact VK|exact VV].
Qed.

Section Arrives.
Variable j : cred_id.
Hypotheses (JS : id_short (t_id_r t) = rfc_id_cred_compact j) (JO : cid_ok j).
Lemma ai_arrived e n : n <= 8128 -> e_rx e 2 [t_m1 t] = Ok (t_m2 hmac H t s2) ->
  o_ret (initiator_run cr cf pf i creds n e) = Ok tt ->
  exists f prk' ead', retrieve_cred cr pf (t_static_r t) creds (Some (rfc_id_cred j)) (CRED_R_SIZE cf) = Ok f /\
    inner (t_ead_2 t) ead' /\
    prk_after cr (t_static_r t) st (t_prk_2e hmac H t) L_SALT_3e2m (t_th2 H t) (i_x i) (f_g f) prk' /\
    vouches cr (t_static_r t) st (f_pk f) prk' (t_c_r t) (t_th2 H t) (rfc_id_cred j) (f_cred f) ead' L_MAC_2 s2.
Proof using K F JS JO.
  intros HN RX HO. destruct (ai_verified e n HN RX HO) as (s & id & f & prk' & VS & VI & VR & VK & VV).
  unfold t_pt2 in VS. rewrite JS in VS. pose proof ai_len2 as L2. pose proof F as [].
  change (rfc_conn_id (t_c_r t) ++ rfc_id_cred_compact j ++ cbor (CBytes s2) ++ t_ead_2 t) with (rfc_plaintext_2 (t_c_r t) j s2 (t_ead_2 t)) in VS.
  apply split2_ead in VS; [|exact JO|unfold moderate in ai_cfg; lia|lia].
  destruct VS as (S1 & S2 & S3 & S4). rewrite S1, S3 in VV.
  assert (id = rfc_id_cred j) as -> by congruence.
  exists f, prk', (sp_ead s). split; [exact VR|]. split; [exact S4|]. split; [exact VK|exact VV].
Qed.
End Arrives.
End Initiator.

(** If the field that was made for one text vouches for another one, something was mixed up. *)
Lemma mixes (sdh : bool) st label key prk c id th cred ead pk' prk' c' id' cred' ead' s :
  let m := rfc_mac hmac prk label (rfc_context c id th cred ead) (if sdh then edhoc_mac_len_static_dh st else 32) in
  right_field cr sdh st key (rfc_tbs id th cred ead m) m s ->
  vouches cr sdh st pk' prk' c' th id' cred' ead' label s ->
  rfc_context c id th cred ead <> rfc_context (context_c c') id' th cred' ead' ->
  lenN (rfc_tbs id th cred ead m) < 2 ^ 64 ->
  mixed_up cr sdh st label key prk (rfc_context c id th cred ead) (rfc_tbs id th cred ead)
    pk' prk' (rfc_context (context_c c') id' th cred' ead') (rfc_tbs id' th cred' ead') s.
Proof.
  intros m R V NE L. unfold mixed_up. cbv zeta. split; [exact NE|]. fold m. unfold right_field, vouches, expected_mac in *.
  destruct sdh.
  - left. rewrite R in V. rewrite V at 1. apply takeN_all. unfold m. rewrite !mac_length. lia.
  - destruct R as [_ R].
    destruct (list_eq_dec N.eq_dec m (rfc_mac hmac prk' label (rfc_context (context_c c') id' th cred' ead') 32)) as [Q|Q]; [now left|right].
    split; [reflexivity|]. split; [|split; assumption]. intros E. apply tbs_inj in E as (_ & _ & _ & E); [contradiction|exact L].
Qed.

(** contexts that differ in their first bytes *)
Lemma conn_id_differs c r x : ~ plain c -> rfc_conn_id c ++ r <> context_c c ++ 0xA1 :: x.
Proof.
  intros NP E. unfold rfc_conn_id, context_c, plain in *. destruct (one_byte_int c) eqn:O.
  - destruct c as [|b [|? ?]]; try discriminate. rewrite cbor_bytes in E. change (enc_bstr [b]) with [0x41; b] in E. cbn [app] in E.
    assert (b = 0x41) as -> by congruence. discriminate O.
  - destruct c as [|b c]; [discriminate E|]. apply NP. split; [discriminate|reflexivity].
Qed.
Lemma map1_first k v : map1 k v = 0xA1 :: (cbor (CInt k) ++ v).
Proof. reflexivity. Qed.
Lemma id_cred_first j : exists x, rfc_id_cred j = 0xA1 :: x.
Proof. destruct j; eexists; apply map1_first. Qed.
Lemma kid_int b : one_byte_int b = true -> exists z, rfc_id_cred_compact (KidInt z) = b /\ cid_ok (KidInt z) /\
  forall r r', id_map (Kid b) ++ r <> rfc_id_cred (KidInt z) ++ r'.
Proof.
  intros O. destruct (decode_one_byte b O) as (z & _ & E & R). exists z. cbn [rfc_id_cred_compact cid_ok id_map rfc_id_cred].
  rewrite cbor_int. split; [exact E|]. split; [unfold is_int32; lia|]. intros r r' Q. rewrite !map1_first in Q.
  change (cbor (CInt 4)) with [4] in Q. rewrite cbor_bytes, E in Q.
  destruct b as [|b0 [|? ?]]; try discriminate. change (enc_bstr [b0]) with [0x41; b0] in Q. cbn [app] in Q.
  assert (b0 = 0x41) as -> by congruence. discriminate O.
Qed.
(** a kid that is no one-byte integer never arrives *)
Lemma long_kid_2 c b sg ead x1 x2 x3 s id : one_byte_int b = false -> lenN c < 2 ^ 64 -> lenN b < 2 ^ 64 ->
  plaintext2_split (rfc_conn_id c ++ id_short (Kid b) ++ sg ++ ead) x1 x2 x3 = Ok s -> sp_id_cred s <> Some id.
Proof.
  intros O HC HB E. unfold plaintext2_split, cbor_decode_ptxt2 in E. rewrite dec_conn_id in E by exact HC.
  unfold cbor_decode_ptxt3, dec_id_cred_choice in E. cbn [id_short] in E. unfold rfc_conn_id in E. rewrite O, cbor_bytes in E.
  rewrite (dec_enc_bstr b _ HB) in E.
  assert (M : dec_id_cred_map (enc_bstr b ++ sg ++ ead) = None).
  { unfold dec_id_cred_map, dec_map, enc_bstr. rewrite <- app_assoc, dec_enc_head by assumption. reflexivity. }
  rewrite M in E. destruct (dec_bstr (sg ++ ead)) as [[? ?]|]; [|discriminate]. cbn [ext bind pt_c_r pt_id_cred] in E.
  apply bind_ok in E as (? & _ & E). cbn [id_cred_split bind] in E. discriminate.
Qed.
Lemma long_kid_3 b sg ead x2 x3 s id : one_byte_int b = false -> lenN b < 2 ^ 64 ->
  plaintext3_split (id_short (Kid b) ++ sg ++ ead) x2 x3 = Ok s -> sp_id_cred s <> Some id.
Proof.
  intros O HB E. unfold plaintext3_split in E.
  unfold cbor_decode_ptxt3, dec_id_cred_choice in E. cbn [id_short] in E. unfold rfc_conn_id in E. rewrite O, cbor_bytes in E.
  rewrite (dec_enc_bstr b _ HB) in E.
  assert (M : dec_id_cred_map (enc_bstr b ++ sg ++ ead) = None).
  { unfold dec_id_cred_map, dec_map, enc_bstr. rewrite <- app_assoc, dec_enc_head by assumption. reflexivity. }
  rewrite M in E. destruct (dec_bstr (sg ++ ead)) as [[? ?]|]; [|discriminate]. cbn [ext bind pt_c_r pt_id_cred] in E.
  cbn [id_cred_split bind] in E. discriminate.
Qed.
Lemma tbs_small id th cred ead m : lenN id + lenN th + lenN cred + lenN ead + lenN m < 2 ^ 40 ->
  lenN (rfc_tbs id th cred ead m) < 2 ^ 64.
Proof.
  intros L. rewrite tbs_parts, !lenN_app. pose proof (enc_bstr_len_le id) as A1. pose proof (enc_bstr_len_le m) as A2.
  pose proof (enc_bstr_len_le (enc_bstr th ++ cred ++ ead)) as A3. pose proof (enc_bstr_len_le th) as A4. rewrite !lenN_app in A3.
  change (lenN [132; 106; 83; 105; 103; 110; 97; 116; 117; 114; 101; 49]) with 12. lia.
Qed.

(* ---------- the responder ---------- *)

Lemma parse_items me su g_x c_i e1 :
  me <= 3 -> is_bytes su -> 1 <= lenN su <= 10 -> lenN su <= SUITES_I_SIZE cf ->
  lenN g_x <= 32 -> lenN c_i <= C_I_SIZE cf -> lenN c_i < 2 ^ 64 -> ead_items e1 ->
  msg1_parse cf (rfc_message_1 me su g_x c_i [] ++ e1) (C_I_SIZE cf) = Ok (me, su, g_x, arrived c_i, None).
Proof.
  intros HM HB HS HS' HG HC HC' HE.
  pose proof (msg1_parse_rfc cf me su g_x c_i [] (C_I_SIZE cf) HM HB HS HS' HG HC HC' (N.le_0_l _) eq_refl) as P.
  rewrite <- P. unfold msg1_parse. f_equal. f_equal. unfold rfc_message_1. rewrite <- !app_assoc. cbn [app].
  unfold cbor_decode_message_1. rewrite cbor_int, !dec_enc_int by (unfold is_int32; lia).
  rewrite !dec_suites_rfc by assumption. rewrite cbor_bytes, !dec_enc_bstr by lia.
  rewrite !dec_conn_id by assumption. do 2 f_equal. unfold dec_opt_bstr.
  destruct HE as [->|(z & rest & HZ & ->)]; [reflexivity|]. rewrite cbor_int. destruct (dec_map_int z rest HZ) as [_ ->]. reflexivity.
Qed.

Section Responder.
Variables (r : responder) (creds : list other_party_cred) (st : suite) (t : talk) (key : bytes) (me : N) (su g_x c_i e1 : bytes).
Hypothesis F : as_responder cr cf r st t key me su g_x c_i e1.

Lemma ar_field : exists s2, own_field cr (t_static_r t) st (r_sk r) (r_pk r) (t_tbs_2 hmac H t) (t_mac_2 hmac H t) s2 /\ lenN s2 <= 64.
Proof.
  destruct F. destruct (suite_facts _ _ ar_suite) as (M16 & _ & M8).
  destruct (own_exists (t_static_r t) st (last su 0) (r_sk r) (r_pk r) (t_tbs_2 hmac H t) (t_mac_2 hmac H t)) as (s2 & O & L & B).
  - exact ar_suite.
  - unfold t_mac_2. rewrite mac_length, ar_mac_len. destruct (t_static_r t); lia.
  - destruct (t_static_r t); [exact I|exact ar_rx].
  - intros _. apply mac_bytes.
  - now exists s2.
Qed.

Section Certified.
Hypotheses (CR : certified (t_id_r t)) (PL : plain (t_c_r t)).
Variable s2 : bytes.
Hypotheses (O2 : own_field cr (t_static_r t) st (r_sk r) (r_pk r) (t_tbs_2 hmac H t) (t_mac_2 hmac H t) s2) (L2 : lenN s2 <= 64).
Lemma NE2 : t_ead_2 t = [].
Proof using F. apply F. Qed.

Definition rc (s3 : bytes) : responder_rc :=
  {| rr_suite := st; rr_static_i := t_static_i t; rr_th3 := x_th3 H (as_run t s2 s3);
     rr_prk_3e2m := x_prk_3e2m hmac H (as_run t s2 s3); rr_ead := repeat 0 (N.to_nat (EAD_SIZE cf)); rr_msg := t_m2 hmac H t s2 |}.
Lemma ar_msg2 s3 : msg2_gen cr cf r (t_m1 t) (C_I_SIZE cf) = Ok (arrived c_i, rc s3).
Proof using K F CR PL O2 L2.
  pose proof F as []. pose proof NE2 as NE. destruct (cid_map_eq _ CR) as (EM & ES & CO). destruct (plain_ctx _ PL) as (EC & RAW).
  destruct (method_type _ _ _ ar_method) as (MT & M3). destruct ar_suites as (SB & SL & SC). destruct ar_g_y as (GY & LY).
  destruct ar_own as (OC & OI & OCR & OE & _). destruct ar_c_r_size as (C1 & C2). destruct ar_cred_r_size as (CN & CL).
  assert (P : msg1_parse cf (t_m1 t) (C_I_SIZE cf) = Ok (me, su, g_x, arrived c_i, None)).
  { rewrite ar_m1. apply parse_items; try assumption; try lia. unfold moderate in ar_cfg. lia. }
  unfold rc. rewrite (same_m2 t s2 s3 CR NE). rewrite (same_tbs2 t s2 s3 CR NE), (same_mac2 t s2 s3 CR NE) in O2.
  destruct (ar_m2_size s2 L2) as [P8 M8]. rewrite (same_pt2 t s2 s3 CR NE) in P8. rewrite (same_m2 t s2 s3 CR NE) in M8.
  set (x := as_run t s2 s3) in *.
  change (t_m1 t) with (x_m1 x). change (t_static_i t) with (x_static_i x).
  rewrite (msg2_gen_fits cr cf K ar_cfg x (last su 0) r st (C_I_SIZE cf) me su g_x (arrived c_i) None); try assumption; try reflexivity.
  - apply ssd. exact ar_xy.
  - cbn [x as_run x_static_r x_g_rx]. intros Q. rewrite Q in ar_rx. apply ssd, ar_rx.
  - now symmetry.
  - cbn [x as_run x_ctx_c]. rewrite OC. exact EC.
  - rewrite OI. exact EM.
  - cbn [x as_run x_mac2_len x_static_r]. rewrite ar_mac_len. reflexivity.
  - rewrite OC. exact RAW.
  - rewrite OC. exact C1.
  - rewrite OC. exact C2.
  - rewrite OI. exact ar_id_r_size.
  - rewrite OCR. exact CL.
  - rewrite OCR. exact CN.
Qed.

Section Certified3.
Hypotheses (CI : certified (t_id_i t)) (NE3 : t_ead_3 t = [])
  (FD : finds cr pf (t_static_i t) creds (id_map (t_id_i t)) (CRED_I_SIZE cf) (t_cred_i t) key).
Lemma ar_run e n pk_cap s3 m3 : obliging e -> n <= 8128 -> e_rx e 1 [] = Ok (t_m1 t) -> e_rx e 3 [t_m2 hmac H t s2] = Ok m3 ->
  right_field cr (t_static_i t) st key (t_tbs_3 hmac H t s2) (t_mac_3 hmac H t s2) s3 ->
  t_m3 hmac H aead t s2 s3 = Some m3 -> lenN m3 <= CIPHERTEXT3_SIZE cf -> lenN m3 <= MSG_MAX_SIZE cf ->
  exists k, (t_static_i t = false -> k = key) /\
  responder_run_extended cr cf pf r creds (C_I_SIZE cf) pk_cap n e =
  {| o_sent := [t_m2 hmac H t s2]; o_eads := [repeat 0 (N.to_nat (EAD_SIZE cf)); []];
     o_prk := Some (t_prk_out hmac H t s2 s3 n); o_peer_c := Some (arrived c_i);
     o_peer_pk := match pk_cap with Some c => if c <? lenN k then None else Some k | None => None end; o_ret := Ok tt |}.
Proof using K F CR PL O2 L2 CI NE3 FD.
  intros O HN RX1 RX3 RF E3 LC LM. pose proof (ar_msg2 s3) as M2. pose proof NE2 as NE. pose proof F as [].
  destruct (cid_map_eq _ CI) as (EM & ES & CO). destruct (suite_facts _ _ ar_suite) as (M16 & MT & M8).
  destruct FD as (f & FR & FC & FK). destruct ar_cred_i_size as (CN & CL).
  rewrite (same_m3 t s2 s3 CR NE CI NE3) in E3. rewrite (same_tbs3 t s2 s3 CR NE CI NE3), (same_mac3 t s2 s3 CR NE CI NE3) in RF.
  exists (f_pk f). split; [intros Q; rewrite Q in FK; exact FK|].
  unfold responder_run_extended. rewrite (receive_fits cf e 1 _ _ RX1 ar_m1_size), M2, (proj2 O), (proj1 O). cbn [rc rr_msg].
  rewrite (receive_fits cf e 3 _ _ RX3 LM). rewrite (same_prk_out t s2 s3 CR NE CI NE3). unfold rc. set (x := as_run t s2 s3) in *.
  destruct (x_ct3 hmac H aead x) as [ct3|] eqn:CT; [|discriminate].
  assert (m3 = cbor (CBytes ct3)) as -> by congruence.
  assert (IDM : lenN (rfc_id_cred (x_id_i x)) <= ID_CRED_MAX_SIZE cf).
  { cbn [x as_run x_id_i]. rewrite <- EM. unfold ID_CRED_MAX_SIZE. lia. }
  assert (V : sig_or_mac_verify cr cf (x_static_i x) st (f_pk f) (x_prk_4e3m hmac H x) [] (x_th3 H x)
                (rfc_id_cred (x_id_i x)) (x_cred_i x) [] MAC_3 s3 = Ok tt /\ lenN s3 <= 64).
  { eapply (right_verify (last su 0) st (x_static_i x) key); try eassumption; try reflexivity.
    - apply (len_th3 cr K).
    - apply N.le_0_l.
    - intros Q. change (x_static_i x) with (t_static_i t) in Q. rewrite Q in FK. exact FK.
    - unfold x_tbs_3, x_mac_3 in RF. cbn [x as_run x_mac3_len] in RF. rewrite ar_mac_len in RF. exact RF. }
  destruct V as [V L3]. change (t_static_i t) with (x_static_i x).
  rewrite (msg3_process_fits cr cf pf K ar_cfg x (last su 0) r st creds n ct3 f (repeat 0 (N.to_nat (EAD_SIZE cf))) (t_m2 hmac H t s2));
    try assumption; try reflexivity.
  - cbn [rr_ead rr_msg]. rewrite (proj2 O). reflexivity.
  - cbn [x as_run x_mac3_len x_static_i]. rewrite ar_mac_len. reflexivity.
  - cbn [x as_run x_tag_len]. rewrite ar_mac_len. now symmetry.
  - cbn [x as_run x_id_i x_static_i]. rewrite <- EM. exact FR.
  - cbn [x as_run x_static_i x_g_iy]. intros Q. rewrite Q in FK. apply ssd. rewrite FK. auto.
  - cbn [x as_run x_id_i]. rewrite <- EM. exact ar_id_i_size.
Qed.
End Certified3.

(** message_3 of the peer was accepted *)
Lemma ar_verified e n pk_cap s3 m3 : n <= 8128 -> e_rx e 1 [] = Ok (t_m1 t) -> e_rx e 3 [t_m2 hmac H t s2] = Ok m3 ->
  t_m3 hmac H aead t s2 s3 = Some m3 -> lenN (t_pt3 t s3) < 2 ^ 32 ->
  o_ret (responder_run_extended cr cf pf r creds (C_I_SIZE cf) pk_cap n e) = Ok tt ->
  exists cap s id f prk', plaintext3_split (t_pt3 t s3) (ID_CRED_I_SIZE cf) cap = Ok s /\
    sp_id_cred s = Some id /\ retrieve_cred cr pf (t_static_i t) creds (Some id) (CRED_I_SIZE cf) = Ok f /\
    prk_after cr (t_static_i t) st (t_prk_3e2m hmac H t) L_SALT_4e3m (t_th3 H t s2) (r_y r) (f_g f) prk' /\
    vouches cr (t_static_i t) st (f_pk f) prk' [] (t_th3 H t s2) id (f_cred f) (sp_ead s) L_MAC_3 (sp_sig s).
Proof using K F CR PL O2 L2.
  intros HN RX1 RX3 E3 LP HO. pose proof (ar_msg2 []) as M2. pose proof NE2 as NE. pose proof F as [].
  destruct (suite_facts _ _ ar_suite) as (M16 & _ & _).
  unfold responder_run_extended, receive in HO. rewrite RX1 in HO. cbn [bind] in HO.
  destruct (_ <? _) in HO; [discriminate|]. rewrite M2 in HO. cbn [rc rr_ead rr_msg] in HO.
  destruct (e_ead e 1 _) as [?|?|?]; try discriminate HO. destruct (e_tx e 2 _) as [?|?|?]; try discriminate HO.
  rewrite RX3 in HO. cbn [bind] in HO. destruct (_ <? _) in HO; [discriminate|]. fold (rc []) in HO.
  destruct (msg3_process cr cf pf r (rc []) m3 creds n) as [[[ead3 pk] prk]|?|?] eqn:EP; try discriminate HO. clear HO.
  eapply (msg3_sound cr cf pf K (last su 0)) in EP; [|exact ar_suite|exact HN| |].
  2:{ exact (eq_refl (v_prk_3e2m {| v_m1 := t_m1 t; v_g_y := t_g_y t; v_pt2 := t_pt2 t s2; v_cred_r := t_cred_r t;
         v_prk_3e2m := x_prk_3e2m hmac H (as_run t s2 []); v_pt3 := []; v_cred_i := []; v_prk_4e3m := [] |})). }
  2:{ cbn [rc rr_th3]. rewrite <- (same_th3 t s2 [] CR NE). reflexivity. }
  destruct EP as (pt & s & f & p4 & _ & _ & W & _). cbn [v_m1 v_g_y v_pt2 v_cred_r v_prk_3e2m rc rr_suite rr_static_i] in W.
  destruct W as (_ & ct & rest & id & cap & D & DE & SP & SI & SR & SK & SV).
  unfold v_th3_input, v_th2_input in DE, SV, SK. cbn [v_m1 v_g_y v_pt2 v_cred_r v_prk_3e2m v_pt3 v_prk_4e3m] in DE, SV, SP, SK.
  change (H (rfc_th34_input (H (rfc_th2_input (t_g_y t) (H (t_m1 t)))) (t_pt2 t s2) (t_cred_r t))) with (t_th3 H t s2) in *.
  change (x_prk_3e2m hmac H (as_run t s2 [])) with (t_prk_3e2m hmac H t) in DE, SK.
  unfold t_m3 in E3. rewrite <- ar_mac_len in DE.
  match type of E3 with match ?a with _ => _ end = _ => destruct a as [c|] eqn:EA; [|discriminate] end.
  assert (m3 = cbor (CBytes c)) as -> by congruence.
  rewrite cbor_bytes, <- (app_nil_r (enc_bstr _)), dec_enc_bstr in D
    by (rewrite (ok_aead_enc_len cr K _ _ _ _ _ _ EA), ar_mac_len; lia).
  assert (ct = c) as -> by congruence.
  apply (ok_aead cr K) in EA. rewrite EA in DE. assert (pt = t_pt3 t s3) as -> by congruence.
  exists cap, s, id, f, p4. split; [exact SP|]. split; [exact SI|]. split; [exact SR|]. split; [exact SK|exact SV].
Qed.
End Certified.

(** an own C_R that is empty or one byte *)
Section OwnCr.
Hypotheses (CR : certified (t_id_r t)) (NP : ~ plain (t_c_r t)).
Definition code_ctx : bytes := rfc_context (context_c (t_c_r t)) (id_map (t_id_r t)) (t_th2 H t) (t_cred_r t) [].
Definition code_mac : bytes := rfc_mac hmac (t_prk_3e2m hmac H t) L_MAC_2 code_ctx (if t_static_r t then t_mac_len t else 32).
Lemma mac_raw prk th id cred ead label sdh c m : c_r_is_raw_int c = true -> mac cr cf prk c th id cred ead label sdh st <> Ok m.
Proof using.
  intros R E. unfold mac in E. apply bind_ok in E as ([] & _ & E). apply bind_ok in E as (the & _ & E). cbv zeta in E.
  apply bind_ok in E as ([] & _ & E). apply bind_ok in E as (ctx & E & _). destruct c as [|b c]; [discriminate R|].
  destruct (N.eqb_spec (lenN (b :: c)) 0) as [Q|_]; [rewrite lenN_cons in Q; lia|].
  apply bind_ok in E as ([] & _ & E). rewrite R in E. discriminate.
Qed.
Lemma ar_own_c_r m1 cap ci rc' : msg2_gen cr cf r m1 cap = Ok (ci, rc') -> c_r_is_raw_int (r_c_r r) = false.
Proof using.
  intros E. destruct (c_r_is_raw_int (r_c_r r)) eqn:R; [exfalso|reflexivity]. unfold msg2_gen in E.
  apply bind_ok in E as ([[[[me' su'] g_x'] ci'] ead'] & _ & E). destruct (negb _); [discriminate|]. apply bind_ok in E as (st' & _ & E).
  destruct (authentication_type_get me' (false, false)) as [si' sr']. apply bind_ok in E as (th2 & _ & E). apply bind_ok in E as (gxy & _ & E).
  cbv zeta in E. apply bind_ok in E as (p3 & _ & E). apply bind_ok in E as (sg & E & _). unfold sig_or_mac_generate in E.
  apply bind_ok in E as (m & E & _). revert E. clear - R. unfold mac. intros E. apply bind_ok in E as ([] & _ & E). apply bind_ok in E as (the & _ & E). cbv zeta in E.
  apply bind_ok in E as ([] & _ & E). apply bind_ok in E as (ctx & E & _). destruct (r_c_r r) as [|b c]; [discriminate R|].
  destruct (N.eqb_spec (lenN (b :: c)) 0) as [Q|_]; [rewrite lenN_cons in Q; lia|].
  apply bind_ok in E as ([] & _ & E). rewrite R in E. discriminate.
Qed.
Lemma ar_msg2_c ci rc' : msg2_gen cr cf r (t_m1 t) (C_I_SIZE cf) = Ok (ci, rc') ->
  exists s2, own_field cr (t_static_r t) st (r_sk r) (r_pk r)
    (rfc_tbs (id_map (t_id_r t)) (t_th2 H t) (t_cred_r t) [] code_mac) code_mac s2 /\ rr_msg rc' = t_m2 hmac H t s2.
Proof using K F CR NP.
  intros EQ. pose proof (ar_own_c_r _ _ _ _ EQ) as RAW.
  pose proof F as []. pose proof NE2 as NE. destruct (cid_map_eq _ CR) as (EM & ES & CO).
  destruct (method_type _ _ _ ar_method) as (MT & M3). destruct ar_suites as (SB & SL & SC). destruct ar_g_y as (GY & LY).
  destruct ar_own as (OC & OI & OCR & OE & _). destruct ar_c_r_size as (C1 & C2). destruct ar_cred_r_size as (CN & CL).
  destruct (suite_facts _ _ ar_suite) as (M16 & _ & M8).
  destruct (own_exists (t_static_r t) st (last su 0) (r_sk r) (r_pk r)
    (rfc_tbs (id_map (t_id_r t)) (t_th2 H t) (t_cred_r t) [] code_mac) code_mac) as (s2 & O & L & _).
  { exact ar_suite. }
  { unfold code_mac. rewrite mac_length, ar_mac_len. destruct (t_static_r t); lia. }
  { destruct (t_static_r t); [exact I|exact ar_rx]. }
  { intros _. apply mac_bytes. }
  exists s2. split; [exact O|].
  assert (P : msg1_parse cf (t_m1 t) (C_I_SIZE cf) = Ok (me, su, g_x, arrived c_i, None)).
  { rewrite ar_m1. apply parse_items; try assumption; try lia. unfold moderate in ar_cfg. lia. }
  rewrite (same_m2 t s2 [] CR NE).
  destruct (ar_m2_size s2 L) as [P8 M8']. rewrite (same_pt2 t s2 [] CR NE) in P8. rewrite (same_m2 t s2 [] CR NE) in M8'.
  set (y := as_run t s2 []) in *.
  set (x := {| x_m1 := x_m1 y; x_g_y := x_g_y y; x_g_xy := x_g_xy y; x_static_r := x_static_r y; x_g_rx := x_g_rx y;
    x_static_i := x_static_i y; x_g_iy := x_g_iy y; x_c_r := x_c_r y; x_ctx_c := context_c (t_c_r t);
    x_id_r := x_id_r y; x_cred_r := x_cred_r y; x_sig_2 := x_sig_2 y; x_id_i := x_id_i y; x_cred_i := x_cred_i y; x_sig_3 := x_sig_3 y;
    x_mac2_len := x_mac2_len y; x_mac3_len := x_mac3_len y;
    x_key_len := 16; x_iv_len := 13; x_tag_len := x_tag_len y |}).
  change (x_pt2 y) with (x_pt2 x) in P8. change (x_m2 hmac H y) with (x_m2 hmac H x) in *.
  change (t_m1 t) with (x_m1 x) in EQ.
  rewrite (msg2_gen_fits cr cf K ar_cfg x (last su 0) r st (C_I_SIZE cf) me su g_x (arrived c_i) None) in EQ; try assumption; try reflexivity.
  - injection EQ as <- <-. reflexivity.
  - apply ssd. exact ar_xy.
  - cbn [x y as_run x_static_r x_g_rx]. intros Q. rewrite Q in ar_rx. apply ssd, ar_rx.
  - now symmetry.
  - cbn [x as_run x_ctx_c]. rewrite OC. reflexivity.
  - rewrite OI. exact EM.
  - cbn [x y as_run x_mac2_len x_static_r]. rewrite ar_mac_len. reflexivity.
  - unfold own_field, code_mac, code_ctx in O. rewrite EM in O. exact O.
  - rewrite OC. exact C1.
  - rewrite OC. exact C2.
  - rewrite OI. exact ar_id_r_size.
  - rewrite OCR. exact CL.
  - rewrite OCR. exact CN.
Qed.
End OwnCr.
End Responder.

(** the responses to a peer that the code does not understand *)
Lemma cred_max : CRED_MAX_SIZE cf <= CRED_I_SIZE cf + CRED_R_SIZE cf.
Proof using. unfold CRED_MAX_SIZE. lia. Qed.
Lemma tbs2_size i st t key s2 : as_initiator cr cf i st t key s2 -> lenN (t_tbs_2 hmac H t) < 2 ^ 64.
Proof using K.
  intros []. unfold t_tbs_2. apply tbs_small. unfold t_th2, rfc_th2. rewrite (ok_hash_len cr K).
  unfold t_mac_2. rewrite mac_length. destruct ai_cred_r_size as [_ CL]. pose proof cred_max. unfold moderate in ai_cfg.
  destruct (suite_facts _ _ ai_suite) as (M16 & _ & _).
  assert (lenN (t_ead_2 t) <= 8128). { destruct ai_pt2_size as [P _]. unfold t_pt2 in P. rewrite !lenN_app in P. lia. }
  destruct (t_static_r t); rewrite ?ai_mac_len; change (2 ^ 40) with 1099511627776; change (2 ^ 30) with 1073741824 in *; lia.
Qed.
Lemma ai_mixed i creds st t key s2 : as_initiator cr cf i st t key s2 ->
  (certified (t_id_r t) /\ ~ plain (t_c_r t)) \/ (exists b, t_id_r t = Kid b) ->
  forall e n, n <= 8128 -> e_rx e 2 [t_m1 t] = Ok (t_m2 hmac H t s2) ->
  o_ret (initiator_run cr cf pf i creds n e) = Ok tt ->
  exists id' f prk' ead', retrieve_cred cr pf (t_static_r t) creds (Some id') (CRED_R_SIZE cf) = Ok f /\
    prk_after cr (t_static_r t) st (t_prk_2e hmac H t) L_SALT_3e2m (t_th2 H t) (i_x i) (f_g f) prk' /\
    mixed_up cr (t_static_r t) st L_MAC_2 key (t_prk_3e2m hmac H t) (t_context_2 H t)
      (rfc_tbs (id_map (t_id_r t)) (t_th2 H t) (t_cred_r t) (t_ead_2 t))
      (f_pk f) prk' (rfc_context (context_c (t_c_r t)) id' (t_th2 H t) (f_cred f) ead')
      (rfc_tbs id' (t_th2 H t) (f_cred f) ead') s2.
Proof using K.
  intros F HC e n HN RX HO. pose proof (tbs2_size _ _ _ _ _ F) as TS.
  assert (D : exists j, id_short (t_id_r t) = rfc_id_cred_compact j /\ cid_ok j /\
    forall th cred cred' ead ead', rfc_context (rfc_conn_id (t_c_r t)) (id_map (t_id_r t)) th cred ead <>
      rfc_context (context_c (t_c_r t)) (rfc_id_cred j) th cred' ead').
  { destruct HC as [[CR NP]|[b EB]].
    - destruct (cid_map_eq _ CR) as (EM & ES & CO). exists (cid (t_id_r t)). split; [exact ES|]. split; [exact CO|].
      intros th cred cred' ead ead' E. unfold rfc_context in E. destruct (id_cred_first (cid (t_id_r t))) as (x & EX).
      rewrite EX in E. cbn [app] in E. now apply conn_id_differs in E.
    - destruct (one_byte_int b) eqn:OB.
      + destruct (kid_int b OB) as (z & Z1 & Z2 & Z3). exists (KidInt z). rewrite EB. cbn [id_short]. unfold rfc_conn_id at 1. rewrite OB.
        split; [now symmetry|]. split; [exact Z2|]. intros th cred cred' ead ead' E. unfold rfc_context in E.
        destruct (list_eq_dec N.eq_dec (rfc_conn_id (t_c_r t)) (context_c (t_c_r t))) as [Q|Q].
        * rewrite Q in E. apply app_inv_head in E. exact (Z3 _ _ E).
        * destruct (id_cred_first (KidInt z)) as (x & EX). rewrite EX in E. cbn [app] in E. apply conn_id_differs in E; [exact E|].
          intros PL. apply Q. unfold context_c, rfc_conn_id. destruct PL as [NE O]. rewrite O. destruct (t_c_r t); [contradiction|reflexivity].
      + exfalso. destruct (ai_verified i creds st t key s2 F e n HN RX HO) as (s & id & f & prk' & VS & VI & _).
        unfold t_pt2 in VS. rewrite EB in VS. pose proof F as []. destruct ai_pt2_size as [P _].
        assert (lenN b < 2 ^ 64).
        { unfold t_pt2 in P. rewrite EB in P. cbn [id_short] in P. unfold rfc_conn_id at 2 in P. rewrite OB, cbor_bytes in P.
          rewrite !lenN_app in P. pose proof (enc_bstr_ge b). change (2 ^ 64) with 18446744073709551616. lia. }
        revert VI. eapply long_kid_2; [exact OB| |eassumption|exact VS]. unfold moderate in ai_cfg.
        change (2 ^ 64) with 18446744073709551616. change (2 ^ 30) with 1073741824 in *. lia. }
  destruct D as (j & JS & JO & DF).
  destruct (ai_arrived i creds st t key s2 F j JS JO e n HN RX HO) as (f & prk' & ead' & VR & _ & VK & VV).
  exists (rfc_id_cred j), f, prk', ead'. split; [exact VR|]. split; [exact VK|]. pose proof F as [].
  unfold t_context_2. apply mixes; [|exact VV|apply DF|].
  - rewrite <- ai_mac_len. exact ai_field.
  - rewrite <- ai_mac_len. exact TS.
Qed.
Lemma other_made l j : other_params l -> made_of l j -> l <> map_of j.
Proof using. intros [A B] M. destruct j; [contradiction|apply A|apply B]. Qed.
Lemma ai_params i creds st t key s2 l : as_initiator cr cf i st t key s2 ->
  t_id_r t = Params l -> wf_item (CMap l) -> other_params l ->
  forall e n, n <= 8128 -> e_rx e 2 [t_m1 t] = Ok (t_m2 hmac H t s2) ->
  o_ret (initiator_run cr cf pf i creds n e) = Ok tt ->
  exists j f prk' ead', made_of l j /\ retrieve_cred cr pf (t_static_r t) creds (Some (rfc_id_cred j)) (CRED_R_SIZE cf) = Ok f /\
    prk_after cr (t_static_r t) st (t_prk_2e hmac H t) L_SALT_3e2m (t_th2 H t) (i_x i) (f_g f) prk' /\
    mixed_up cr (t_static_r t) st L_MAC_2 key (t_prk_3e2m hmac H t) (t_context_2 H t)
      (rfc_tbs (id_map (t_id_r t)) (t_th2 H t) (t_cred_r t) (t_ead_2 t))
      (f_pk f) prk' (rfc_context (context_c (t_c_r t)) (rfc_id_cred j) (t_th2 H t) (f_cred f) ead')
      (rfc_tbs (rfc_id_cred j) (t_th2 H t) (f_cred f) ead') s2.
Proof using K.
  intros F EL W OP e n HN RX HO. pose proof (tbs2_size _ _ _ _ _ F) as TS.
  destruct (ai_verified i creds st t key s2 F e n HN RX HO) as (s & id & f & prk' & VS & VI & VR & VK & VV).
  pose proof F as []. assert (L2 : lenN s2 < 2 ^ 64).
  { destruct ai_pt2_size as [P _]. unfold t_pt2 in P. rewrite !lenN_app, cbor_bytes in P. pose proof (enc_bstr_ge s2).
    change (2 ^ 64) with 18446744073709551616. lia. }
  unfold t_pt2 in VS. rewrite EL in VS. cbn [id_short id_map] in VS.
  apply split2_params in VS; [|exact W|unfold moderate in ai_cfg; change (2 ^ 64) with 18446744073709551616; change (2 ^ 30) with 1073741824 in *; lia|exact L2].
  destruct VS as (S1 & S2 & _ & S4). rewrite S1, S2 in VV. destruct (S4 _ VI) as (j & -> & M).
  exists j, f, prk', (sp_ead s). split; [exact M|]. split; [exact VR|]. split; [exact VK|].
  unfold t_context_2. apply mixes; [|exact VV| |].
  - rewrite <- ai_mac_len. exact ai_field.
  - intros E. rewrite EL in E. unfold rfc_context in E. cbn [id_map] in E.
    destruct (list_eq_dec N.eq_dec (rfc_conn_id (t_c_r t)) (context_c (t_c_r t))) as [Q|Q].
    + rewrite Q in E. apply app_inv_head in E. revert E. apply made_differs; [exact W|exact M|]. now apply other_made.
    + destruct (id_cred_first j) as (x & EX). rewrite EX in E. cbn [app] in E. apply conn_id_differs in E; [exact E|].
      intros PL. apply Q. unfold context_c, rfc_conn_id. destruct PL as [NE O]. rewrite O. destruct (t_c_r t); [contradiction|reflexivity].
  - rewrite <- ai_mac_len. exact TS.
Qed.
Lemma ai_ead i creds st t key s2 : as_initiator cr cf i st t key s2 ->
  certified (t_id_r t) -> plain (t_c_r t) -> t_ead_2 t <> [] ->
  finds cr pf (t_static_r t) creds (id_map (t_id_r t)) (CRED_R_SIZE cf) (t_cred_r t) key ->
  forall e n, n <= 8128 -> e_rx e 2 [t_m1 t] = Ok (t_m2 hmac H t s2) ->
  o_ret (initiator_run cr cf pf i creds n e) = Ok tt ->
  exists ead' k prk', ead' <> t_ead_2 t /\ (t_static_r t = false -> k = key) /\
    prk_after cr (t_static_r t) st (t_prk_2e hmac H t) L_SALT_3e2m (t_th2 H t) (i_x i) key prk' /\
    mixed_up cr (t_static_r t) st L_MAC_2 key (t_prk_3e2m hmac H t) (t_context_2 H t)
      (rfc_tbs (id_map (t_id_r t)) (t_th2 H t) (t_cred_r t) (t_ead_2 t)) k prk'
      (rfc_context (rfc_conn_id (t_c_r t)) (id_map (t_id_r t)) (t_th2 H t) (t_cred_r t) ead')
      (rfc_tbs (id_map (t_id_r t)) (t_th2 H t) (t_cred_r t) ead') s2.
Proof using K.
  intros F CR PL NE (f' & FR & FC & FK) e n HN RX HO. pose proof (tbs2_size _ _ _ _ _ F) as TS.
  destruct (cid_map_eq _ CR) as (EM & ES & CO).
  destruct (ai_arrived i creds st t key s2 F _ ES CO e n HN RX HO) as (f & prk' & ead' & VR & VI & VK & VV).
  rewrite <- EM in VR, VV. assert (f' = f) as -> by congruence. rewrite FC in VV. pose proof F as [].
  exists ead', (f_pk f), prk'. split; [exact (inner_ne _ _ NE VI)|]. split; [intros Q; rewrite Q in FK; exact FK|].
  split.
  { destruct VK as (dh & D1 & D2). exists dh. split; [exact D1|]. intros Q. specialize (D2 Q). rewrite Q in FK. rewrite FK in D2. exact D2. }
  assert (CC : context_c (t_c_r t) = rfc_conn_id (t_c_r t)).
  { unfold context_c, rfc_conn_id. destruct PL as [NE' O]. rewrite O. destruct (t_c_r t); [contradiction|reflexivity]. }
  rewrite <- CC at 1. unfold t_context_2. apply mixes; [|exact VV| |].
  - rewrite <- ai_mac_len. exact ai_field.
  - rewrite CC. unfold rfc_context. intros E. do 4 apply app_inv_head in E. symmetry in E. exact (inner_ne _ _ NE VI E).
  - rewrite <- ai_mac_len. exact TS.
Qed.
Lemma ar_mixed r creds st t key me su g_x c_i e1 : as_responder cr cf r st t key me su g_x c_i e1 ->
  certified (t_id_r t) -> plain (t_c_r t) -> forall s2,
  own_field cr (t_static_r t) st (r_sk r) (r_pk r) (t_tbs_2 hmac H t) (t_mac_2 hmac H t) s2 -> lenN s2 <= 64 ->
  (exists b, t_id_i t = Kid b) \/ (certified (t_id_i t) /\ t_ead_3 t <> []) ->
  forall e n pk_cap s3 m3, n <= 8128 -> e_rx e 1 [] = Ok (t_m1 t) -> e_rx e 3 [t_m2 hmac H t s2] = Ok m3 ->
  right_field cr (t_static_i t) st key (t_tbs_3 hmac H t s2) (t_mac_3 hmac H t s2) s3 ->
  t_m3 hmac H aead t s2 s3 = Some m3 -> lenN (t_pt3 t s3) < 2 ^ 32 ->
  (certified (t_id_i t) -> finds cr pf (t_static_i t) creds (id_map (t_id_i t)) (CRED_I_SIZE cf) (t_cred_i t) key) ->
  o_ret (responder_run_extended cr cf pf r creds (C_I_SIZE cf) pk_cap n e) = Ok tt ->
  exists id' f prk' ead', retrieve_cred cr pf (t_static_i t) creds (Some id') (CRED_I_SIZE cf) = Ok f /\
    prk_after cr (t_static_i t) st (t_prk_3e2m hmac H t) L_SALT_4e3m (t_th3 H t s2) (r_y r) (f_g f) prk' /\
    mixed_up cr (t_static_i t) st L_MAC_3 key (t_prk_4e3m hmac H t s2) (t_context_3 H t s2)
      (rfc_tbs (id_map (t_id_i t)) (t_th3 H t s2) (t_cred_i t) (t_ead_3 t))
      (f_pk f) prk' (rfc_context [] id' (t_th3 H t s2) (f_cred f) ead')
      (rfc_tbs id' (t_th3 H t s2) (f_cred f) ead') s3.
Proof using K.
  intros F CR PL s2 O L2 HC e n pk_cap s3 m3 HN R1 R3 RF E3 LP FD HO. pose proof F as [].
  destruct (ar_verified r creds st t key me su g_x c_i e1 F CR PL s2 O L2 e n pk_cap s3 m3 HN R1 R3 E3 LP HO)
    as (cap & s & id & f & prk' & VS & VI & VR & VK & VV).
  unfold t_pt3 in *. rewrite !lenN_app in LP. change (2 ^ 32) with 4294967296 in LP.
  rewrite cbor_bytes in LP. pose proof (enc_bstr_ge s3) as GE.
  assert (TS : lenN (t_tbs_3 hmac H t s2) < 2 ^ 64).
  { unfold t_tbs_3. apply tbs_small. unfold t_th3, rfc_th34. rewrite (ok_hash_len cr K).
    unfold t_mac_3. rewrite mac_length. destruct ar_cred_i_size as [_ CL]. pose proof cred_max. unfold moderate in ar_cfg.
    destruct (suite_facts _ _ ar_suite) as (M16 & _ & _).
    destruct (t_static_i t); rewrite ?ar_mac_len; change (2 ^ 40) with 1099511627776; change (2 ^ 30) with 1073741824 in *; lia. }
  assert (S64 : lenN s3 < 2 ^ 64) by (change (2 ^ 64) with 18446744073709551616; lia).
  assert (D : exists j, id_short (t_id_i t) = rfc_id_cred_compact j /\ cid_ok j /\
    forall th ead', inner (t_ead_3 t) ead' -> retrieve_cred cr pf (t_static_i t) creds (Some (rfc_id_cred j)) (CRED_I_SIZE cf) = Ok f ->
      rfc_context [] (id_map (t_id_i t)) th (t_cred_i t) (t_ead_3 t) <> rfc_context [] (rfc_id_cred j) th (f_cred f) ead').
  { destruct HC as [[b EB]|[CI NE]].
    - destruct (one_byte_int b) eqn:OB.
      + destruct (kid_int b OB) as (z & Z1 & Z2 & Z3). exists (KidInt z). rewrite EB. cbn [id_short]. unfold rfc_conn_id at 1. rewrite OB.
        split; [now symmetry|]. split; [exact Z2|]. intros th ead' _ _ E. unfold rfc_context in E. cbn [app] in E. exact (Z3 _ _ E).
      + exfalso. rewrite EB in VS, LP. assert (lenN b < 2 ^ 64).
        { cbn [id_short] in LP. unfold rfc_conn_id in LP. rewrite OB, cbor_bytes in LP. pose proof (enc_bstr_ge b).
          change (2 ^ 64) with 18446744073709551616. lia. }
        revert VI. eapply long_kid_3; [exact OB|eassumption|exact VS].
    - destruct (cid_map_eq _ CI) as (EM & ES & CO). exists (cid (t_id_i t)). split; [exact ES|]. split; [exact CO|].
      intros th ead' IN RC E. destruct (FD CI) as (f' & FR & FC & _). rewrite EM in FR. assert (f' = f) as -> by congruence.
      rewrite EM, FC in E. unfold rfc_context in E. do 4 apply app_inv_head in E. symmetry in E. exact (inner_ne _ _ NE IN E). }
  destruct D as (j & JS & JO & DF). rewrite JS in VS.
  change (rfc_id_cred_compact j ++ cbor (CBytes s3) ++ t_ead_3 t) with (rfc_plaintext_3 j s3 (t_ead_3 t)) in VS.
  apply split3_ead in VS; [|exact JO|exact S64]. destruct VS as (S1 & S2 & S3).
  assert (id = rfc_id_cred j) as -> by congruence. rewrite S2 in VV.
  exists (rfc_id_cred j), f, prk', (sp_ead s). split; [exact VR|]. split; [exact VK|].
  unfold t_context_3. apply (mixes _ _ _ _ _ _ _ _ _ _ _ _ []); [|exact VV|apply DF; assumption|].
  - rewrite <- ar_mac_len. exact RF.
  - rewrite <- ar_mac_len. exact TS.
Qed.
Lemma ar_params r creds st t key me su g_x c_i e1 l : as_responder cr cf r st t key me su g_x c_i e1 ->
  certified (t_id_r t) -> plain (t_c_r t) -> forall s2,
  own_field cr (t_static_r t) st (r_sk r) (r_pk r) (t_tbs_2 hmac H t) (t_mac_2 hmac H t) s2 -> lenN s2 <= 64 ->
  t_id_i t = Params l -> wf_item (CMap l) -> other_params l ->
  forall e n pk_cap s3 m3, n <= 8128 -> e_rx e 1 [] = Ok (t_m1 t) -> e_rx e 3 [t_m2 hmac H t s2] = Ok m3 ->
  right_field cr (t_static_i t) st key (t_tbs_3 hmac H t s2) (t_mac_3 hmac H t s2) s3 ->
  t_m3 hmac H aead t s2 s3 = Some m3 -> lenN (t_pt3 t s3) < 2 ^ 32 ->
  o_ret (responder_run_extended cr cf pf r creds (C_I_SIZE cf) pk_cap n e) = Ok tt ->
  exists j f prk' ead', made_of l j /\ retrieve_cred cr pf (t_static_i t) creds (Some (rfc_id_cred j)) (CRED_I_SIZE cf) = Ok f /\
    prk_after cr (t_static_i t) st (t_prk_3e2m hmac H t) L_SALT_4e3m (t_th3 H t s2) (r_y r) (f_g f) prk' /\
    mixed_up cr (t_static_i t) st L_MAC_3 key (t_prk_4e3m hmac H t s2) (t_context_3 H t s2)
      (rfc_tbs (id_map (t_id_i t)) (t_th3 H t s2) (t_cred_i t) (t_ead_3 t))
      (f_pk f) prk' (rfc_context [] (rfc_id_cred j) (t_th3 H t s2) (f_cred f) ead')
      (rfc_tbs (rfc_id_cred j) (t_th3 H t s2) (f_cred f) ead') s3.
Proof using K.
  intros F CR PL s2 O L2 EL W OP e n pk_cap s3 m3 HN R1 R3 RF E3 LP HO. pose proof F as [].
  destruct (ar_verified r creds st t key me su g_x c_i e1 F CR PL s2 O L2 e n pk_cap s3 m3 HN R1 R3 E3 LP HO)
    as (cap & s & id & f & prk' & VS & VI & VR & VK & VV).
  unfold t_pt3 in *. rewrite !lenN_app in LP. change (2 ^ 32) with 4294967296 in LP.
  rewrite cbor_bytes in LP. pose proof (enc_bstr_ge s3) as GE.
  assert (TS : lenN (t_tbs_3 hmac H t s2) < 2 ^ 64).
  { unfold t_tbs_3. apply tbs_small. unfold t_th3, rfc_th34. rewrite (ok_hash_len cr K).
    unfold t_mac_3. rewrite mac_length. destruct ar_cred_i_size as [_ CL]. pose proof cred_max. unfold moderate in ar_cfg.
    destruct (suite_facts _ _ ar_suite) as (M16 & _ & _).
    destruct (t_static_i t); rewrite ?ar_mac_len; change (2 ^ 40) with 1099511627776; change (2 ^ 30) with 1073741824 in *; lia. }
  assert (S64 : lenN s3 < 2 ^ 64) by (change (2 ^ 64) with 18446744073709551616; lia).
  rewrite EL in VS. cbn [id_short id_map] in VS. apply split3_params in VS; [|exact W|exact S64].
  destruct VS as (S2 & _ & S4). rewrite S2 in VV. destruct (S4 _ VI) as (j & -> & M).
  exists j, f, prk', (sp_ead s). split; [exact M|]. split; [exact VR|]. split; [exact VK|].
  unfold t_context_3. apply (mixes _ _ _ _ _ _ _ _ _ _ _ _ []); [|exact VV| |].
  - rewrite <- ar_mac_len. exact RF.
  - intros E. rewrite EL in E. unfold rfc_context in E. cbn [id_map context_c app] in E.
    revert E. apply made_differs; [exact W|exact M|]. now apply other_made.
  - rewrite <- ar_mac_len. exact TS.
Qed.
Lemma ar_c_r_mixed r creds st t key me su g_x c_i e1 : as_responder cr cf r st t key me su g_x c_i e1 ->
  certified (t_id_r t) -> ~ plain (t_c_r t) ->
  forall pk_cap n e, e_rx e 1 [] = Ok (t_m1 t) ->
  let ctx := rfc_context (context_c (t_c_r t)) (id_map (t_id_r t)) (t_th2 H t) (t_cred_r t) [] in
  let tbs := rfc_tbs (id_map (t_id_r t)) (t_th2 H t) (t_cred_r t) [] in
  let prk := t_prk_3e2m hmac H t in
  let m := rfc_mac hmac prk L_MAC_2 ctx (if t_static_r t then edhoc_mac_len_static_dh st else 32) in
  forall m2 l, o_sent (responder_run_extended cr cf pf r creds (C_I_SIZE cf) pk_cap n e) = m2 :: l ->
  exists s2, m2 = t_m2 hmac H t s2 /\ own_field cr (t_static_r t) st (r_sk r) (r_pk r) (tbs m) m s2 /\
    forall pk, (forall x s, cr_sign cr (sign_sel (edhoc_sign st)) (r_sk r) (r_pk r) x = Some s ->
                  cr_verify cr (sign_sel (edhoc_sign st)) pk x s = Some true) ->
      right_field cr (t_static_r t) st pk (t_tbs_2 hmac H t) (t_mac_2 hmac H t) s2 ->
      mixed_up cr (t_static_r t) st L_MAC_2 pk prk (t_context_2 H t) tbs pk prk ctx tbs s2.
Proof using K.
  intros F CR NP pk_cap n e RX. cbv zeta. intros m2 l HS. pose proof F as [].
  assert (E : exists ci rc', msg2_gen cr cf r (t_m1 t) (C_I_SIZE cf) = Ok (ci, rc') /\ m2 = rr_msg rc').
  { unfold responder_run_extended, receive in HS. rewrite RX in HS. cbn [bind] in HS. destruct (_ <? _) in HS; [discriminate|].
    destruct (msg2_gen cr cf r (t_m1 t) (C_I_SIZE cf)) as [[ci rc']|?|?]; try discriminate HS. exists ci, rc'. split; [reflexivity|].
    destruct (e_ead e 1 (rr_ead rc')); try discriminate HS. destruct (e_tx e 2 (rr_msg rc')); try (cbn in HS; congruence).
    destruct (e_rx e 3 [rr_msg rc']) as [m3|?|?]; cbn [bind] in HS; try (cbn in HS; congruence). destruct (_ <? _) in HS; [cbn in HS; congruence|].
    destruct (msg3_process cr cf pf r rc' m3 creds n) as [[[? ?] ?]|?|?]; cbn in HS; congruence. }
  destruct E as (ci & rc' & E & ->).
  destruct (ar_msg2_c r st t key me su g_x c_i e1 F CR NP ci rc' E) as (s2 & O & EM). unfold code_mac, code_ctx in O.
  rewrite ar_mac_len in O. exists s2. split; [exact EM|]. split; [exact O|]. intros pk HV RF.
  destruct ar_own as (_ & _ & _ & _ & NE).
  assert (LT : lenN (t_tbs_2 hmac H t) < 2 ^ 64).
  { unfold t_tbs_2. apply tbs_small. unfold t_th2, rfc_th2. rewrite (ok_hash_len cr K). rewrite NE.
    unfold t_mac_2. rewrite mac_length. destruct ar_cred_r_size as [_ CL]. pose proof cred_max. unfold moderate in ar_cfg.
    destruct (suite_facts _ _ ar_suite) as (M16 & _ & _). change (lenN []) with 0.
    destruct (t_static_r t); rewrite ?ar_mac_len; change (2 ^ 40) with 1099511627776; change (2 ^ 30) with 1073741824 in *; lia. }
  destruct (cid_map_eq _ CR) as (EI & _ & _). unfold t_tbs_2, t_mac_2, t_context_2 in *. rewrite NE, ar_mac_len in *.
  apply mixes; [exact RF| | |exact LT].
  - unfold vouches, expected_mac, own_field in *. destruct (t_static_r t).
    + subst s2. rewrite takeN_all; [reflexivity|]. rewrite mac_length. lia.
    + apply HV, O.
  - unfold rfc_context. rewrite EI. destruct (id_cred_first (cid (t_id_r t))) as (x & ->). cbn [app]. now apply conn_id_differs.
Qed.

(** an own ID_CRED in the form of the RFC *)
Lemma rfc_kid_ub b : lenN b < 2 ^ 64 -> id_cred2kid (id_map (Kid b)) = UB Uninit.
Proof using.
  intros L. unfold id_cred2kid, dec_id_cred_map. cbn [id_map]. change 4%Z with (Z.of_N 4).
  rewrite map1_enc, cbor_bytes, <- (app_nil_r (enc_bstr b)), dec_map_enc by lia.
  erewrite (entry_hit 4); [|lia|unfold dec_int_or_bstr; rewrite dec_int_bstr, dec_enc_bstr by exact L; reflexivity].
  rewrite !entry_zero. reflexivity.
Qed.
Lemma rfc_kid_plaintext c b sg ead cap pt : lenN b < 2 ^ 64 -> plaintext_gen cf c (id_map (Kid b)) sg ead cap <> Ok pt.
Proof using.
  intros L E. unfold plaintext_gen in E.
  repeat first [rewrite (rfc_kid_ub b L) in E; discriminate E | apply bind_ok in E as (? & _ & E)].
Qed.
End Interop.
