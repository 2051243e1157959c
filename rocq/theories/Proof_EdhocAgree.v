(** Two parties that fit together agree. *)
From Verif Require Import Base Proof_Base Model_Common Model_Cbor Proof_Cbor Model_Crypto
  Spec_CborTree Proof_CborTree Spec_Hkdf Proof_Hkdf Spec_Edhoc Spec_EdhocRun Model_EdhocCfg Model_EdhocCbor Model_EdhocKeys
  Proof_EdhocBase Model_EdhocCert Model_EdhocMsg Model_EdhocRun Model_EdhocMsg4 Proof_EdhocMsg1 Proof_EdhocMsg Proof_EdhocRun
  Proof_EdhocMsg4.

Lemma bstr_len_head n : n < 65536 -> bstr_len n = head_len n + n.
Proof.
  intros H. unfold bstr_len, head_len. change (2 ^ 8) with 256. change (2 ^ 16) with 65536.
  destruct (N.ltb_spec n 24), (N.ltb_spec n 256), (N.ltb_spec n 65536); lia.
Qed.
Lemma bstr_len_enc b : lenN b < 65536 -> lenN (cbor (CBytes b)) = bstr_len (lenN b).
Proof. intros H. rewrite cbor_bytes, enc_bstr_len, bstr_len_head by exact H. reflexivity. Qed.
Lemma pt2_size_ok c i s : lenN s <= 64 -> lenN (rfc_plaintext_2 c i s []) = pt2_size c i (lenN s).
Proof.
  intros H. unfold rfc_plaintext_2, pt2_size. rewrite !lenN_app, bstr_len_enc by lia.
  change (lenN (@nil N)) with 0. lia.
Qed.
Lemma pt3_size_ok i s : lenN s <= 64 -> lenN (rfc_plaintext_3 i s []) = pt3_size i (lenN s).
Proof.
  intros H. unfold rfc_plaintext_3, pt3_size. rewrite !lenN_app, bstr_len_enc by lia.
  change (lenN (@nil N)) with 0. lia.
Qed.
Lemma conn_id_pos c : 1 <= lenN (rfc_conn_id c).
Proof.
  unfold rfc_conn_id. destruct (one_byte_int c) eqn:E.
  - destruct c as [|b [|? ?]]; discriminate.
  - rewrite cbor_bytes, enc_bstr_len. pose proof (head_len_pos (lenN c)). lia.
Qed.
Lemma compact_pos i : 1 <= lenN (rfc_id_cred_compact i).
Proof.
  assert (M : forall k v, 1 <= lenN (map1 k v)).
  { intros k v. unfold map1. rewrite rfc_head_eq, !lenN_app, enc_head_len. pose proof (head_len_pos 1). lia. }
  destruct i as [z|c|a h]; try apply M. cbn [rfc_id_cred_compact]. rewrite cbor_int. unfold enc_int.
  destruct (0 <=? z)%Z; rewrite enc_head_len; match goal with |- _ <= head_len ?x => pose proof (head_len_pos x) end; lia.
Qed.

Lemma okm_bytes (hm : bytes -> bytes -> bytes) prk info n : (forall k m, is_bytes (hm k m)) -> is_bytes (hkdf_okm hm prk info n).
Proof.
  intros B. unfold hkdf_okm. apply is_bytes_takeN. unfold hkdf_stream.
  induction (seq 1 _) as [|j l IH]; cbn [map concat]; [constructor|]. apply is_bytes_app. split; [|exact IH].
  destruct j; [constructor|apply B].
Qed.
Lemma enc_int_bytes z : is_bytes (enc_int z).
Proof. unfold enc_int. destruct (0 <=? z)%Z; apply enc_head_bytes; lia. Qed.

Section Agree.
Variable cr : crypto.
Variable cf : cfg.
Variable pf : platform.
Hypothesis K : crypto_ok cr.
Hypothesis A : aead_total cr.
Local Notation hmac := (cr_hmac cr).
Local Notation H := (cr_hash cr).
Local Notation aead := (cr_aead_enc cr).

Lemma ssd alg sk pk s : dh_secret cr alg sk pk s -> shared_secret_derive cr alg sk pk = Ok s.
Proof.
  intros [D L]. unfold shared_secret_derive. destruct alg.
  - rewrite D. reflexivity.
  - destruct (L eq_refl) as [L1 L2]. rewrite L1, L2. change (32 <? 32) with false. cbv iota.
    rewrite !takeN_all by lia. rewrite D. reflexivity.
Qed.
Lemma method_type m si sr : method_static m si sr -> authentication_type_get m (false, false) = (si, sr) /\ m <= 3.
Proof. unfold method_static. intros ->. destruct si, sr; split; try reflexivity; vm_compute; discriminate. Qed.

Lemma local_static_pk creds id cap f : get_local_cred true creds id cap = Ok f -> f_pk f = [].
Proof.
  induction creds as [|c l IH]; cbn; intros E; [discriminate|]. destruct (beqb (oc_id_cred c) id); [|now apply IH].
  apply bind_ok in E as (cred & _ & E). destruct (lenN (oc_g c) =? 65).
  - apply bind_ok in E as (y & _ & E). now injection E as <-.
  - apply bind_ok in E as (y & _ & E). now injection E as <-.
Qed.
Lemma cert_static_pk creds k c cap f : verify_cert2cred cr pf true creds k c cap = Ok f -> f_pk f = [].
Proof.
  unfold verify_cert2cred. intros E. apply bind_ok in E as (y & _ & E). apply bind_ok in E as ((z & v) & _ & E).
  destruct v; [|discriminate]. destruct z; [|discriminate]. now injection E as <-.
Qed.
Lemma retrieve_static_pk creds id cap f : retrieve_cred cr pf true creds (Some id) cap = Ok f -> f_pk f = [].
Proof.
  unfold retrieve_cred. intros E. apply bind_ok in E as ((m & y) & _ & E).
  destruct (ic_kid m); [now apply local_static_pk in E|]. destruct (ic_x5u m); [now apply local_static_pk in E|].
  destruct (ic_x5t m); [now apply local_static_pk in E|]. destruct (ic_c5u m); [now apply local_static_pk in E|].
  destruct (ic_c5t m); [now apply local_static_pk in E|]. destruct (ic_x5chain m); [now apply cert_static_pk in E|].
  destruct (ic_x5bag m); [now apply cert_static_pk in E|]. destruct (ic_c5c m); [now apply cert_static_pk in E|].
  destruct (ic_c5b m); [now apply cert_static_pk in E|]. discriminate.
Qed.

Section Fit.
Variables (i : initiator) (r : responder) (creds_i creds_r : list other_party_cred) (st : suite) (si sr : bool)
  (id_i id_r : cred_id) (key_i key_r g_xy g_rx g_iy : bytes).
Hypothesis F : fit cr cf pf i r creds_i creds_r st si sr id_i id_r key_i key_r g_xy g_rx g_iy.

Local Notation m1 := (rfc_message_1 (i_method i) (i_suites i) (i_g_x i) (i_c_i i) (i_ead_1 i)).
Local Notation x := (session i r st si sr m1 id_i id_r g_xy g_rx g_iy).
Local Notation ml := (edhoc_mac_len_static_dh st).

Lemma F_small : small cf.
Proof. exact (fit_cfg _ _ _ _ _ _ _ _ _ _ _ _ _ _ _ _ _ F). Qed.
Lemma F_raw : c_r_is_raw_int (r_c_r r) = false.
Proof.
  destruct (fit_c_r _ _ _ _ _ _ _ _ _ _ _ _ _ _ _ _ _ F) as (_ & _ & R).
  unfold c_r_is_raw_int. destruct (r_c_r r) as [|b [|? ?]]; try reflexivity. specialize (R b eq_refl).
  apply N.leb_gt. exact R.
Qed.

(** the Signature_or_MAC fields exist and have the expected lengths *)
Lemma sig2_exists : exists s2, (forall s3, sig_of cr sr st (r_sk r) (r_pk r) (x_tbs_2 hmac H (x s2 s3)) (x_mac_2 hmac H (x s2 s3)) s2) /\
  lenN s2 = sig_len sr ml.
Proof.
  pose proof (fit_key_r _ _ _ _ _ _ _ _ _ _ _ _ _ _ _ _ _ F) as KR. destruct sr; unfold sig_of.
  - exists (x_mac_2 hmac H (session i r st si true m1 id_i id_r g_xy g_rx g_iy [] [])). split; [reflexivity|]. apply kdf_len, (ok_hmac_len cr K).
  - destruct KR as (_ & _ & S). destruct (cr_sign cr (sign_sel (edhoc_sign st)) (r_sk r) (r_pk r) (x_tbs_2 hmac H (session i r st si false m1 id_i id_r g_xy g_rx g_iy [] []))) as [s|] eqn:E.
    + exists s. split; [intros; exact E|]. apply (ok_sign_len cr K _ _ _ _ _ E).
    + now apply S in E.
Qed.
Lemma sig3_exists s2 : exists s3, sig_of cr si st (i_sk i) (i_pk i) (x_tbs_3 hmac H (x s2 s3)) (x_mac_3 hmac H (x s2 s3)) s3 /\
  lenN s3 = sig_len si ml.
Proof.
  pose proof (fit_key_i _ _ _ _ _ _ _ _ _ _ _ _ _ _ _ _ _ F) as KI. destruct si; unfold sig_of.
  - exists (x_mac_3 hmac H (session i r st true sr m1 id_i id_r g_xy g_rx g_iy s2 [])). split; [reflexivity|]. apply kdf_len, (ok_hmac_len cr K).
  - destruct KI as (_ & _ & S). destruct (cr_sign cr (sign_sel (edhoc_sign st)) (i_sk i) (i_pk i) (x_tbs_3 hmac H (session i r st false sr m1 id_i id_r g_xy g_rx g_iy s2 []))) as [s|] eqn:E.
    + exists s. split; [exact E|]. apply (ok_sign_len cr K _ _ _ _ _ E).
    + now apply S in E.
Qed.

Lemma st_lens : get_suite (last (i_suites i) 0) = Ok st /\ ml <= 16 /\ 8 <= ml /\ get_aead_mac_len (edhoc_aead st) = ml /\
  (ml = 8 \/ ml = 16).
Proof.
  pose proof (fit_suite _ _ _ _ _ _ _ _ _ _ _ _ _ _ _ _ _ F) as E. split; [exact E|].
  unfold get_suite in E. destruct (last (i_suites i) 0) as [|[[p|p|]|[p|p|]|]]; try discriminate; injection E as <-; cbn; lia.
Qed.
Lemma sig_le b : sig_len b ml <= 64.
Proof. destruct st_lens as (_ & ? & _). unfold sig_len. destruct b; lia. Qed.
Section Sigs.
Variables s2 s3 : bytes.
Hypotheses (G2 : sig_of cr sr st (r_sk r) (r_pk r) (x_tbs_2 hmac H (x s2 s3)) (x_mac_2 hmac H (x s2 s3)) s2)
  (L2 : lenN s2 = sig_len sr ml)
  (G3 : sig_of cr si st (i_sk i) (i_pk i) (x_tbs_3 hmac H (x s2 s3)) (x_mac_3 hmac H (x s2 s3)) s3)
  (L3 : lenN s3 = sig_len si ml).

Lemma L2' : lenN s2 <= 64. Proof using F L2. rewrite L2. apply sig_le. Qed.
Lemma L3' : lenN s3 <= 64. Proof using F L3. rewrite L3. apply sig_le. Qed.

Lemma pt2_l : lenN (x_pt2 (x s2 s3)) = pt2_size (r_c_r r) id_r (sig_len sr ml).
Proof using F L2. rewrite <- L2. apply (pt2_size_ok (r_c_r r) id_r s2 L2'). Qed.
Lemma pt3_l : lenN (x_pt3 (x s2 s3)) = pt3_size id_i (sig_len si ml).
Proof. rewrite <- L3. apply (pt3_size_ok id_i s3 L3'). Qed.
Lemma m2_l : lenN (x_m2 hmac H (x s2 s3)) = bstr_len (32 + pt2_size (r_c_r r) id_r (sig_len sr ml)).
Proof using K F L2.
  clear G2 G3 L3.
  rewrite x_m2_len; [|exact K|exact (fit_g_y _ _ _ _ _ _ _ _ _ _ _ _ _ _ _ _ _ F)].
  rewrite pt2_l. destruct (fit_pt2_size _ _ _ _ _ _ _ _ _ _ _ _ _ _ _ _ _ F) as [P _].
  rewrite bstr_len_head by lia. reflexivity.
Qed.

Lemma step1 : msg1_gen cr cf i = Ok (m1, st, H m1).
Proof.
  destruct (fit_suites _ _ _ _ _ _ _ _ _ _ _ _ _ _ _ _ _ F) as (_ & S1 & _).
  apply msg1_gen_fits; [exact S1|exact (fit_suite _ _ _ _ _ _ _ _ _ _ _ _ _ _ _ _ _ F)|exact (fit_m1_size _ _ _ _ _ _ _ _ _ _ _ _ _ _ _ _ _ F)].
Qed.

Definition rc2 : responder_rc :=
  {| rr_suite := st; rr_static_i := si; rr_th3 := x_th3 H (x s2 s3); rr_prk_3e2m := x_prk_3e2m hmac H (x s2 s3);
     rr_ead := match i_ead_1 i with [] => repeat 0 (N.to_nat (EAD_SIZE cf)) | _ => i_ead_1 i end;
     rr_msg := x_m2 hmac H (x s2 s3) |}.

Lemma step2 : msg2_gen cr cf r m1 (C_I_SIZE cf) = Ok (i_c_i i, rc2).
Proof using K F G2 L2.
  clear G3 L3.
  pose proof F_small as SM. pose proof F_raw as RAW. destruct F.
  destruct fit_suites as (SB & SL & SC). destruct fit_c_i as (CI & CN). destruct fit_c_r as (C1 & C2 & _).
  destruct fit_id_r as (EID & IR). destruct fit_cred_r_size as (CRN & CRL). destruct (method_type _ _ _ fit_method) as (MT & M3).
  assert (P : msg1_parse cf m1 (C_I_SIZE cf) = Ok (i_method i, i_suites i, i_g_x i, i_c_i i, match i_ead_1 i with [] => None | _ => Some (i_ead_1 i) end)).
  { unfold small in SM. rewrite msg1_parse_rfc; try assumption; try lia. rewrite arrived_same by exact CN. reflexivity. }
  change (msg2_gen cr cf r (x_m1 (x s2 s3)) (C_I_SIZE cf) = Ok (i_c_i i, rc2)).
  rewrite (msg2_gen_fits cr cf K SM (x s2 s3) (last (i_suites i) 0) r st (C_I_SIZE cf) (i_method i) (i_suites i) (i_g_x i) (i_c_i i)
    (match i_ead_1 i with [] => None | _ => Some (i_ead_1 i) end)); try assumption; try reflexivity.
  - unfold rc2. destruct (i_ead_1 i); reflexivity.
  - apply ssd. exact fit_yx.
  - cbn [x_static_r x session]. intros Q. rewrite Q in fit_key_r. apply ssd, fit_key_r.
  - destruct fit_id_r_size. assumption.
  - rewrite pt2_l. destruct fit_pt2_size. assumption.
  - rewrite m2_l. exact fit_m2_size.
Qed.

Lemma step3 : exists f, retrieve_cred cr pf sr creds_r (Some (rfc_id_cred id_r)) (CRED_R_SIZE cf) = Ok f /\
  msg2_process cr cf pf i st (H m1) (x_m2 hmac H (x s2 s3)) creds_r (C_R_SIZE cf) si sr =
  Ok {| a2_c_r := r_c_r r; a2_ead := []; a2_th3 := x_th3 H (x s2 s3); a2_prk_3e2m := x_prk_3e2m hmac H (x s2 s3);
        a2_prk_4e3m := x_prk_4e3m hmac H (x s2 s3) |}.
Proof.
  pose proof F_small as SM. pose proof F_raw as RAW. pose proof L2' as LL. pose proof pt2_l as PL. destruct F.
  destruct fit_c_r as (C1 & C2 & _). destruct fit_id_r as (EID & IR). destruct fit_cred_r_size as (CRN & CRL).
  destruct fit_found_r as (f & RF & FC & FK). destruct fit_id_r_size as (I1 & I2).
  exists f. split; [exact RF|].
  apply (msg2_process_any cr cf pf K SM (x s2 s3) i st creds_r (C_R_SIZE cf) f); try assumption; cbn [session x_g_y x_id_r x_g_xy x_c_r x_sig_2 x_cred_r x_static_r x_g_rx x_static_i x_g_iy].
  - apply ssd. exact fit_xy.
  - unfold small in SM. lia.
  - rewrite <- EID. exact I2.
  - rewrite PL. destruct fit_pt2_size as [P1 P2]. split; [exact P1|]. rewrite ct2_array_bounds by exact P1.
    set (n := pt2_size _ _ _) in *.
    assert (4 <= n) as N3.
    { unfold n, pt2_size, sig_len, bstr_len. pose proof (conn_id_pos (r_c_r r)). pose proof (compact_pos id_r).
      destruct st_lens as (_ & _ & ? & _). destruct sr; destruct (_ <? 24); try destruct (_ <? 256); lia. }
    destruct (N.leb_spec n 3); [lia|]. cbn [orb]. exact P2.
  - intros Q. rewrite Q in fit_key_r, FK. apply ssd. rewrite FK. apply fit_key_r.
  - intros Q. rewrite Q in fit_key_i. apply ssd, fit_key_i.
  - assert (IDM : lenN (rfc_id_cred id_r) <= ID_CRED_MAX_SIZE cf) by (rewrite <- EID; unfold ID_CRED_MAX_SIZE; lia).
    apply (verify_fits cr cf K SM (last (i_suites i) 0) st sr (r_sk r) (r_pk r) (x_prk_3e2m hmac H (x s2 s3)) (r_c_r r)
      (x_th2 H (x s2 s3)) (rfc_id_cred id_r) (r_cred r) MAC_2 s2); try assumption; try reflexivity.
    + apply len_th2, K.
    + intros Q. rewrite Q in fit_key_r, FK. destruct fit_key_r as (E & SP & _). split; [congruence|]. exact SP.
Qed.

Lemma ct3_exists : exists ct3, x_ct3 hmac H aead (x s2 s3) = Some ct3.
Proof.
  destruct st_lens as (_ & M1 & M2 & _ & M3).
  destruct (x_ct3 hmac H aead (x s2 s3)) as [c|] eqn:E; [now exists c|]. exfalso. revert E. unfold x_ct3. apply A.
  - apply kdf_len, (ok_hmac_len cr K).
  - apply kdf_len, (ok_hmac_len cr K).
  - exact M3.
  - rewrite pt3_l. pose proof (fit_pt3_size _ _ _ _ _ _ _ _ _ _ _ _ _ _ _ _ _ F). lia.
  - pose proof (fit_id_i_bytes _ _ _ _ _ _ _ _ _ _ _ _ _ _ _ _ _ F) as IB.
    rewrite (proj1 (fit_id_i _ _ _ _ _ _ _ _ _ _ _ _ _ _ _ _ _ F)) in IB.
    assert (SB : is_bytes s3).
    { unfold sig_of in G3. destruct si; [|exact (ok_sign_bytes cr K _ _ _ _ _ G3)]. rewrite G3. apply okm_bytes, (ok_hmac_bytes cr K). }
    change (x_pt3 (x s2 s3)) with (rfc_plaintext_3 id_i s3 []). unfold rfc_plaintext_3. rewrite cbor_bytes.
    apply is_bytes_app. split; [|apply is_bytes_app; split; [apply enc_bstr_bytes; exact SB|constructor]].
    destruct id_i; try exact IB. cbn [rfc_id_cred_compact]. rewrite cbor_int. apply enc_int_bytes.
Qed.

Section Ct3.
Variable ct3 : bytes.
Hypothesis C3 : x_ct3 hmac H aead (x s2 s3) = Some ct3.
Lemma m3_l : lenN (cbor (CBytes ct3)) = bstr_len (pt3_size id_i (sig_len si ml) + ml).
Proof.
  pose proof (fit_pt3_size _ _ _ _ _ _ _ _ _ _ _ _ _ _ _ _ _ F). destruct st_lens as (_ & M1 & _).
  assert (L : lenN ct3 = pt3_size id_i (sig_len si ml) + ml).
  { unfold x_ct3 in C3. rewrite (ok_aead_enc_len cr K _ _ _ _ _ _ C3), pt3_l. reflexivity. }
  rewrite bstr_len_enc; rewrite L; [reflexivity|lia].
Qed.

Lemma step4_core msg prk_len cr' ead : prk_len <= 8128 ->
  msg3_only_gen cr cf i st si
    {| a2_c_r := cr'; a2_ead := ead; a2_th3 := x_th3 H (x s2 s3); a2_prk_3e2m := x_prk_3e2m hmac H (x s2 s3);
       a2_prk_4e3m := x_prk_4e3m hmac H (x s2 s3) |} msg prk_len =
  match encode_bstr ct3 (lenN msg) with
  | Ok m3 => (m3, Ok (x_prk_out hmac H (x s2 s3) prk_len))
  | Err e => (msg, Err e)
  | UB u => (msg, UB u)
  end.
Proof.
  intros HP. pose proof F_small as SM. destruct st_lens as (HS & M1 & M2 & M3 & M4). destruct F.
  destruct fit_id_i as (EID & IR). destruct fit_cred_i_size as (CN & CL). destruct fit_id_i_size as (I1 & I2).
  apply (msg3_gen_core cr cf K SM (x s2 s3) (last (i_suites i) 0)); try assumption; try reflexivity.
  - now rewrite M3.
  - rewrite M3. exact I2.
Qed.
Lemma step4 msg prk_len cr' ead : bstr_len (pt3_size id_i (sig_len si ml) + ml) <= lenN msg -> prk_len <= 8128 ->
  msg3_only_gen cr cf i st si
    {| a2_c_r := cr'; a2_ead := ead; a2_th3 := x_th3 H (x s2 s3); a2_prk_3e2m := x_prk_3e2m hmac H (x s2 s3);
       a2_prk_4e3m := x_prk_4e3m hmac H (x s2 s3) |} msg prk_len =
  (cbor (CBytes ct3), Ok (x_prk_out hmac H (x s2 s3) prk_len)).
Proof.
  intros HM HP. rewrite step4_core by exact HP.
  assert (EE : encode_bstr ct3 (lenN msg) = Ok (cbor (CBytes ct3))).
  { pose proof m3_l as ML. apply encode_bstr_ok. rewrite cbor_bytes in *. split; [reflexivity|lia]. }
  now rewrite EE.
Qed.
(** message_3 longer than message_2: nothing is written *)
Lemma step4_too_long msg prk_len cr' ead : lenN msg < bstr_len (pt3_size id_i (sig_len si ml) + ml) -> prk_len <= 8128 ->
  exists e, msg3_only_gen cr cf i st si
    {| a2_c_r := cr'; a2_ead := ead; a2_th3 := x_th3 H (x s2 s3); a2_prk_3e2m := x_prk_3e2m hmac H (x s2 s3);
       a2_prk_4e3m := x_prk_4e3m hmac H (x s2 s3) |} msg prk_len = (msg, Err e).
Proof.
  intros HM HP. rewrite step4_core by exact HP. pose proof m3_l as ML. rewrite cbor_bytes in ML.
  unfold encode_bstr, cbor_put. destruct (N.leb_spec (lenN (enc_bstr ct3)) (lenN msg)); [lia|]. eexists. reflexivity.
Qed.

Lemma step5_full prk_len : prk_len <= 8128 ->
  msg3_process_full cr cf pf r rc2 (cbor (CBytes ct3)) creds_i prk_len =
  Ok ([], (if si then [] else i_pk i), x_prk_out hmac H (x s2 s3) prk_len,
    (x_prk_4e3m hmac H (x s2 s3), x_th4 H (x s2 s3))).
Proof.
  intros HP. pose proof F_small as SM. pose proof m3_l as ML. pose proof L3' as LL.
  destruct st_lens as (HS & M1 & M2 & M3 & M4). destruct F.
  destruct fit_id_i as (EID & IR). destruct fit_cred_i_size as (CN & CL).
  destruct fit_found_i as (f & RF & FC & FK). destruct fit_id_i_size as (I1 & _).
  assert (EF : f_pk f = if si then [] else i_pk i).
  { destruct si; [apply (retrieve_static_pk _ _ _ _ RF)|]. destruct fit_key_i as (E & _). congruence. }
  rewrite <- EF.
  apply (msg3_process_full_fits cr cf pf K SM (x s2 s3) (last (i_suites i) 0)); try assumption; try reflexivity.
  - now rewrite M3.
  - cbn [x_static_i session]. intros Q. rewrite Q in fit_key_i, FK. apply ssd. rewrite FK. apply fit_key_i.
  - assert (IDM : lenN (rfc_id_cred id_i) <= ID_CRED_MAX_SIZE cf) by (rewrite <- EID; unfold ID_CRED_MAX_SIZE; lia).
    apply (verify_fits cr cf K SM (last (i_suites i) 0) st si (i_sk i) (i_pk i) (x_prk_4e3m hmac H (x s2 s3)) []
      (x_th3 H (x s2 s3)) (rfc_id_cred id_i) (i_cred i) MAC_3 s3); try assumption; try reflexivity.
    + apply len_th3, K.
    + apply N.le_0_l.
    + intros Q. rewrite Q in fit_key_i, FK. destruct fit_key_i as (E & SP & _). split; [congruence|]. exact SP.
  - cbn [x_id_i session]. rewrite <- EID. exact I1.
  - rewrite ML. exact fit_m3_size.
Qed.
Lemma step5 prk_len : prk_len <= 8128 ->
  msg3_process cr cf pf r rc2 (cbor (CBytes ct3)) creds_i prk_len =
  Ok ([], (if si then [] else i_pk i), x_prk_out hmac H (x s2 s3) prk_len).
Proof. intros HP. unfold msg3_process. rewrite step5_full by exact HP. reflexivity. Qed.
(** TH_4 in the context of the initiator *)
Lemma step4_th4 msg cr' ead : rc_th4 cr cf i st
    {| a2_c_r := cr'; a2_ead := ead; a2_th3 := x_th3 H (x s2 s3); a2_prk_3e2m := x_prk_3e2m hmac H (x s2 s3);
       a2_prk_4e3m := x_prk_4e3m hmac H (x s2 s3) |} msg =
  if bstr_len (pt3_size id_i (sig_len si ml) + ml) <=? lenN msg then x_th4 H (x s2 s3) else repeat 0 32.
Proof.
  pose proof F_small as SM. pose proof L3' as LL. pose proof m3_l as ML. rewrite cbor_bytes in ML. destruct st_lens as (HS & M1 & M2 & M3 & M4). unfold rc_th4.
  destruct (method_type _ _ _ (fit_method _ _ _ _ _ _ _ _ _ _ _ _ _ _ _ _ _ F)) as [-> _]. destruct F.
  destruct fit_id_i as (EID & IR). destruct fit_cred_i_size as (CN & CL). destruct fit_id_i_size as (I1 & I2).
  change si with (x_static_i (x s2 s3)) at 1.
  rewrite (msg3_message_core cr cf K SM (x s2 s3) (last (i_suites i) 0) i st (lenN msg) ct3 cr' ead);
    try assumption; try reflexivity; [|now rewrite M3|rewrite M3; exact I2].
  unfold encode_bstr, cbor_put. rewrite ML.
  destruct (N.leb_spec (bstr_len (pt3_size id_i (sig_len si ml) + ml)) (lenN msg)) as [Q|Q]; cbn [bind a2_th3]; [|reflexivity].
  rewrite (th4_core cr cf K SM (x s2 s3)); try assumption; reflexivity.
Qed.
End Ct3.

(** the runs, with a network that connects them *)
Section Net.
Variables (ei er : env) (prk_len : N) (pk_cap : option N).
Hypotheses (Oi : obliging ei) (Or : obliging er) (HP : prk_len <= 8128).
Local Notation oi := (initiator_run cr cf pf i creds_r prk_len ei).
Local Notation or := (responder_run_extended cr cf pf r creds_i (C_I_SIZE cf) pk_cap prk_len er).
Hypothesis Cn : connected ei er oi or.

Lemma sent1 : nth_error (o_sent oi) 0 = Some m1.
Proof.
  unfold initiator_run, initiator_run_extended. rewrite step1. rewrite (proj1 Oi).
  destruct (receive cf ei 2 [m1]) as [m|e|u]; try reflexivity.
  destruct (msg3_gen cr cf pf i st (H m1) m creds_r (C_R_SIZE cf) prk_len) as [[[a m3] prk]|e|u]; try reflexivity.
  destruct (e_ead ei 2 (a2_ead a)); reflexivity.
Qed.
Lemma receive_ok e n s m : e_rx e n s = Ok m -> lenN m <= MSG_MAX_SIZE cf -> receive cf e n s = Ok m.
Proof. intros E L. unfold receive. rewrite E. cbn [bind]. destruct (N.ltb_spec (MSG_MAX_SIZE cf) (lenN m)); [lia|reflexivity]. Qed.
Lemma received1 : receive cf er 1 [] = Ok m1.
Proof.
  apply receive_ok; [apply (proj1 Cn), sent1|]. exact (fit_m1_size _ _ _ _ _ _ _ _ _ _ _ _ _ _ _ _ _ F).
Qed.
Lemma sent2 : nth_error (o_sent or) 0 = Some (x_m2 hmac H (x s2 s3)).
Proof.
  unfold responder_run_extended. rewrite received1, step2. rewrite (proj2 Or), (proj1 Or). cbn [rc2 rr_msg rr_ead].
  destruct (receive cf er 3 _) as [m|e|u]; try reflexivity.
  destruct (msg3_process _ _ _ _ _ _ _ _) as [[[e3 k] prk]|e|u]; reflexivity.
Qed.
Lemma received2 : receive cf ei 2 [m1] = Ok (x_m2 hmac H (x s2 s3)).
Proof.
  apply receive_ok; [apply (proj1 (proj2 Cn)), sent2|]. rewrite m2_l.
  exact (fit_m2_size _ _ _ _ _ _ _ _ _ _ _ _ _ _ _ _ _ F).
Qed.
Variable ct3 : bytes.
Hypothesis C3 : x_ct3 hmac H aead (x s2 s3) = Some ct3.

Lemma run_i : m3_fits_m2 r st si sr id_i id_r ->
  oi = {| o_sent := [m1; cbor (CBytes ct3)]; o_eads := [[]]; o_prk := Some (x_prk_out hmac H (x s2 s3) prk_len);
          o_peer_c := Some (r_c_r r); o_peer_pk := None; o_ret := Ok tt |}.
Proof.
  intros M. unfold initiator_run, initiator_run_extended. rewrite step1, (proj1 Oi), received2. unfold msg3_gen.
  destruct (method_type _ _ _ (fit_method _ _ _ _ _ _ _ _ _ _ _ _ _ _ _ _ _ F)) as [-> _].
  destruct step3 as (f & _ & E). rewrite E. cbn [bind]. rewrite (step4 ct3 C3); [|rewrite m2_l; exact M|exact HP].
  cbn [a2_ead a2_c_r]. rewrite (proj2 Oi), (proj1 Oi). reflexivity.
Qed.
Lemma run_r : m3_fits_m2 r st si sr id_i id_r ->
  or = {| o_sent := [x_m2 hmac H (x s2 s3)];
          o_eads := [match i_ead_1 i with [] => repeat 0 (N.to_nat (EAD_SIZE cf)) | _ => i_ead_1 i end; []];
          o_prk := Some (x_prk_out hmac H (x s2 s3) prk_len); o_peer_c := Some (i_c_i i);
          o_peer_pk := match pk_cap with
                       | Some n => if n <? lenN (if si then [] else i_pk i) then None else Some (if si then [] else i_pk i)
                       | None => None
                       end;
          o_ret := Ok tt |}.
Proof.
  intros M. unfold responder_run_extended. rewrite received1, step2, (proj2 Or), (proj1 Or). cbn [rc2 rr_msg].
  rewrite (receive_ok er 3 _ (cbor (CBytes ct3))).
  - fold rc2. rewrite (step5 ct3 C3 prk_len HP). rewrite (proj2 Or). reflexivity.
  - apply (proj2 (proj2 Cn)). rewrite (run_i M). reflexivity.
  - rewrite (m3_l ct3 C3). pose proof (fit_m2_size _ _ _ _ _ _ _ _ _ _ _ _ _ _ _ _ _ F). unfold m3_fits_m2 in M. lia.
Qed.
(** when message_3 is longer than message_2 *)
Lemma run_i_too_long : ~ m3_fits_m2 r st si sr id_i id_r -> o_ret oi = Ok tt /\ o_prk oi = None /\
  nth_error (o_sent oi) 1 = nth_error (o_sent or) 0.
Proof.
  intros M. rewrite sent2. unfold initiator_run, initiator_run_extended. rewrite step1, (proj1 Oi), received2. unfold msg3_gen.
  destruct (method_type _ _ _ (fit_method _ _ _ _ _ _ _ _ _ _ _ _ _ _ _ _ _ F)) as [-> _].
  destruct step3 as (f & _ & E). rewrite E. cbn [bind].
  destruct (step4_too_long ct3 C3 (x_m2 hmac H (x s2 s3)) prk_len (r_c_r r) []) as (e & ->);
    [rewrite m2_l; unfold m3_fits_m2 in M; lia|exact HP|].
  cbn [a2_ead a2_c_r]. rewrite (proj2 Oi), (proj1 Oi). repeat split; reflexivity.
Qed.
End Net.

(** the same with message_4 *)
Section Net4.
Variables (ei er : env) (prk_len : N) (pk_cap : option N) (ead_4 : bytes).
Hypotheses (Oi : obliging ei) (Or : obliging er) (HP : prk_len <= 8128).
Local Notation oi := (initiator_run4 cr cf pf i creds_r prk_len ei).
Local Notation or := (responder_run4_extended cr cf pf r ead_4 creds_i (C_I_SIZE cf) pk_cap prk_len er).
Hypothesis Cn : connected4 ei er oi or.

Lemma Cn3 : connected ei er (initiator_run cr cf pf i creds_r prk_len ei)
  (responder_run_extended cr cf pf r creds_i (C_I_SIZE cf) pk_cap prk_len er).
Proof using Cn.
  destruct Cn as [C _]. unfold connected, initiator_run4, initiator_run in *. rewrite sent4_i in C. rewrite sent4_r in C. exact C.
Qed.
Variable ct3 : bytes.
Hypothesis C3 : x_ct3 hmac H aead (x s2 s3) = Some ct3.
Hypothesis M : m3_fits_m2 r st si sr id_i id_r.
Hypothesis E4 : lenN ead_4 <= EAD_SIZE cf + 8.

Lemma received3 : receive cf er 3 [x_m2 hmac H (x s2 s3)] = Ok (cbor (CBytes ct3)).
Proof.
  apply receive_fits.
  - apply (proj2 (proj2 Cn3)). rewrite (run_i ei er prk_len pk_cap Oi Or HP Cn3 ct3 C3 M). reflexivity.
  - rewrite (m3_l ct3 C3). pose proof (fit_m2_size _ _ _ _ _ _ _ _ _ _ _ _ _ _ _ _ _ F). unfold m3_fits_m2 in M. lia.
Qed.
Definition or_pk : option bytes :=
  match pk_cap with
  | Some n => if n <? lenN (if si then [] else i_pk i) then None else Some (if si then [] else i_pk i)
  | None => None
  end.
(** the responder up to message_4 *)
Lemma run4_r_to : or =
  match msg4_gen cr cf st ead_4 (x_prk_4e3m hmac H (x s2 s3)) (x_th4 H (x s2 s3)) (lenN (cbor (CBytes ct3))) with
  | Ok m4 => stop [rr_msg rc2; m4] [rr_ead rc2; []] (Some (x_prk_out hmac H (x s2 s3) prk_len)) (Some (i_c_i i)) or_pk (Ok tt)
  | r => stop [rr_msg rc2] [rr_ead rc2; []] (Some (x_prk_out hmac H (x s2 s3) prk_len)) (Some (i_c_i i)) or_pk r
  end.
Proof.
  unfold responder_run4_extended. rewrite (received1 ei er prk_len pk_cap Oi HP Cn3), step2, (proj2 Or), (proj1 Or).
  change (rr_msg rc2) with (x_m2 hmac H (x s2 s3)). rewrite received3. rewrite (step5_full ct3 C3 prk_len HP). rewrite (proj2 Or).
  change (rr_suite rc2) with st. fold or_pk.
  destruct (msg4_gen _ _ _ _ _ _ _) as [m4|?|?]; try reflexivity. rewrite (proj1 Or). reflexivity.
Qed.
Lemma run4_overflow : EAD_SIZE cf + 8 < lenN ead_4 + ml -> o_ret or = UB OobWrite.
Proof.
  intros Q. rewrite run4_r_to. unfold msg4_gen.
  rewrite (ct4_gen_fits cr cf K (last (i_suites i) 0)); [|apply st_lens|apply len_th4, K|exact E4].
  destruct (N.ltb_spec (EAD_SIZE cf + 8) (lenN ead_4 + ml)); [reflexivity|lia].
Qed.
Hypothesis B4 : is_bytes ead_4.
Hypothesis T4 : lenN ead_4 + ml <= EAD_SIZE cf + 8.
Hypothesis M4 : bstr_len (lenN ead_4 + ml) <= bstr_len (pt3_size id_i (sig_len si ml) + ml).

Lemma ct4_exists : exists ct4, x_ct4 hmac H aead (x s2 s3) ead_4 = Some ct4.
Proof.
  destruct (x_ct4 hmac H aead (x s2 s3) ead_4) as [c|] eqn:E; [now exists c|]. exfalso. revert E. unfold x_ct4. apply A.
  - apply kdf_len, (ok_hmac_len cr K).
  - apply kdf_len, (ok_hmac_len cr K).
  - apply st_lens.
  - destruct st_lens as (_ & Q1 & Q2 & _). pose proof (fit_pt3_size _ _ _ _ _ _ _ _ _ _ _ _ _ _ _ _ _ F) as Q3.
    destruct (N.ltb_spec (lenN ead_4) 65536) as [Q|Q]; [exact Q|]. exfalso.
    unfold bstr_len in M4. destruct (N.ltb_spec (lenN ead_4 + ml) 24), (N.ltb_spec (lenN ead_4 + ml) 256); try lia.
    destruct (N.ltb_spec (pt3_size id_i (sig_len si ml) + ml) 24), (N.ltb_spec (pt3_size id_i (sig_len si ml) + ml) 256); lia.
  - exact B4.
Qed.
Section Ct4.
Variable ct4 : bytes.
Hypothesis C4 : x_ct4 hmac H aead (x s2 s3) ead_4 = Some ct4.
Lemma run4_r : or = {| o_sent := [x_m2 hmac H (x s2 s3); cbor (CBytes ct4)];
          o_eads := [match i_ead_1 i with [] => repeat 0 (N.to_nat (EAD_SIZE cf)) | _ => i_ead_1 i end; []];
          o_prk := Some (x_prk_out hmac H (x s2 s3) prk_len); o_peer_c := Some (i_c_i i);
          o_peer_pk := or_pk; o_ret := Ok tt |}.
Proof.
  rewrite run4_r_to. unfold msg4_gen. destruct st_lens as (HS & Q1 & Q2 & _ & _).
  rewrite (ct4_gen_fits cr cf K (last (i_suites i) 0)); [|exact HS|apply len_th4, K|exact E4].
  destruct (N.ltb_spec (EAD_SIZE cf + 8) (lenN ead_4 + ml)) as [Q4|Q4]; [lia|]. change (cr_aead_enc cr _ _ _ _ _) with (x_ct4 hmac H aead (x s2 s3) ead_4).
  rewrite C4. cbn [ext bind].
  assert (L4 : lenN ct4 = lenN ead_4 + ml) by (apply (ok_aead_enc_len cr K _ _ _ _ _ _ C4)).
  rewrite (m3_l ct3 C3).
  assert (EE : encode_bstr ct4 (bstr_len (pt3_size id_i (sig_len si ml) + ml)) = Ok (cbor (CBytes ct4))).
  { apply encode_bstr_ok. rewrite cbor_bytes. split; [reflexivity|]. rewrite <- cbor_bytes, bstr_len_enc; rewrite L4; [exact M4|].
    pose proof (fit_pt3_size _ _ _ _ _ _ _ _ _ _ _ _ _ _ _ _ _ F) as Q3.
    destruct (N.ltb_spec (lenN ead_4 + ml) 65536) as [Q|Q]; [exact Q|]. exfalso.
    unfold bstr_len in M4. destruct (N.ltb_spec (lenN ead_4 + ml) 24), (N.ltb_spec (lenN ead_4 + ml) 256); try lia.
    destruct (N.ltb_spec (pt3_size id_i (sig_len si ml) + ml) 24), (N.ltb_spec (pt3_size id_i (sig_len si ml) + ml) 256); lia. }
  rewrite EE. reflexivity.
Qed.
Hypothesis R4 : lenN (cbor (CBytes ct4)) <= MSG_MAX_SIZE cf.
Lemma run4_i : oi =
  match ead4_get cf ead_4 0 with
  | Ok e4 => stop [m1; cbor (CBytes ct3)] [[]; e4] (Some (x_prk_out hmac H (x s2 s3) prk_len)) (Some (r_c_r r)) None (Ok tt)
  | r' => stop [m1; cbor (CBytes ct3)] [[]] (Some (x_prk_out hmac H (x s2 s3) prk_len)) (Some (r_c_r r)) None r'
  end.
Proof.
  destruct st_lens as (HS & _).
  unfold initiator_run4, initiator_run4_extended. rewrite step1, (proj1 Oi), (received2 ei er prk_len pk_cap Oi Or HP Cn3). unfold msg3_gen.
  destruct (method_type _ _ _ (fit_method _ _ _ _ _ _ _ _ _ _ _ _ _ _ _ _ _ F)) as [-> _].
  destruct step3 as (f & _ & E). rewrite E. cbn [bind]. rewrite (step4 ct3 C3); [|rewrite m2_l; exact M|exact HP].
  cbn [a2_ead a2_c_r a2_prk_4e3m]. rewrite (proj2 Oi), (proj1 Oi).
  rewrite (receive_fits cf ei 4 _ (cbor (CBytes ct4))); [|apply (proj2 Cn); rewrite run4_r; reflexivity|exact R4].
  rewrite (step4_th4 ct3 C3), m2_l. unfold m3_fits_m2 in M. apply N.leb_le in M. rewrite M.
  rewrite (msg4_process_fits cr cf K F_small (last (i_suites i) 0) _ _ _ _ ead_4 ct4); [|exact HS|apply len_th4, K|exact C4|exact T4].
  change (lenN []) with 0. destruct (ead4_get cf ead_4 0) as [e4|?|?]; try reflexivity. rewrite (proj2 Oi). reflexivity.
Qed.
End Ct4.
End Net4.
(** message_3 is too long; the peer knows PRK_4e3m and makes message_4 with TH_4 = 0 *)
Lemma run4_no_key ei er prk_len pk_cap ead_4 ct3 ct4 : obliging ei -> obliging er -> prk_len <= 8128 ->
  connected ei er (initiator_run4 cr cf pf i creds_r prk_len ei)
    (responder_run4_extended cr cf pf r ead_4 creds_i (C_I_SIZE cf) pk_cap prk_len er) ->
  x_ct3 hmac H aead (x s2 s3) = Some ct3 -> ~ m3_fits_m2 r st si sr id_i id_r ->
  aead (k4 cr (x_prk_4e3m hmac H (x s2 s3)) (repeat 0 32)) (iv4 cr (x_prk_4e3m hmac H (x s2 s3)) (repeat 0 32))
    (rfc_aad (repeat 0 32)) ml [] = Some ct4 ->
  ml <= EAD_SIZE cf + 8 -> lenN (cbor (CBytes ct4)) <= MSG_MAX_SIZE cf ->
  e_rx ei 4 [m1; x_m2 hmac H (x s2 s3)] = Ok (cbor (CBytes ct4)) ->
  initiator_run4 cr cf pf i creds_r prk_len ei = stop [m1; x_m2 hmac H (x s2 s3)] [[]; []] None (Some (r_c_r r)) None (Ok tt).
Proof.
  intros Oi Or HP Cn C3 M C4 T4 R4 E4. destruct st_lens as (HS & _).
  assert (Cn3' : connected ei er (initiator_run cr cf pf i creds_r prk_len ei)
    (responder_run_extended cr cf pf r creds_i (C_I_SIZE cf) pk_cap prk_len er)).
  { unfold connected, initiator_run4, initiator_run in *. rewrite sent4_i in Cn. rewrite sent4_r in Cn. exact Cn. }
  unfold initiator_run4, initiator_run4_extended. rewrite step1, (proj1 Oi), (received2 ei er prk_len pk_cap Oi Or HP Cn3'). unfold msg3_gen.
  destruct (method_type _ _ _ (fit_method _ _ _ _ _ _ _ _ _ _ _ _ _ _ _ _ _ F)) as [-> _].
  destruct step3 as (f & _ & E). rewrite E. cbn [bind].
  destruct (step4_too_long ct3 C3 (x_m2 hmac H (x s2 s3)) prk_len (r_c_r r) []) as (e & ->);
    [rewrite m2_l; unfold m3_fits_m2 in M; lia|exact HP|].
  cbn [a2_ead a2_c_r a2_prk_4e3m]. rewrite (proj2 Oi), (proj1 Oi).
  rewrite (receive_fits cf ei 4 _ (cbor (CBytes ct4))); [|exact E4|exact R4].
  rewrite (step4_th4 ct3 C3), m2_l. unfold m3_fits_m2 in M. destruct (N.leb_spec (bstr_len (pt3_size id_i (sig_len si ml) + ml))
    (bstr_len (32 + pt2_size (r_c_r r) id_r (sig_len sr ml)))) as [Q|Q]; [contradiction|].
  rewrite (msg4_process_fits cr cf K F_small (last (i_suites i) 0) _ _ _ _ [] ct4);
    [|exact HS|reflexivity|exact C4|change (lenN (@nil N)) with 0; clear - T4; lia].
  change (ead4_get cf [] (lenN [])) with (Ok [] : res bytes). cbv iota. rewrite (proj2 Oi). reflexivity.
Qed.
End Sigs.
End Fit.
End Agree.
