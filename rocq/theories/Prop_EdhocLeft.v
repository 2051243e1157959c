(** C64: what strangers leave in the arrays of the caller, for all parties and cryptography;
    arrays that are too short for a key. *)
From Verif Require Import Base Proof_Base Model_Common Model_Cbor Proof_Cbor Model_Crypto
  Spec_CborTree Proof_CborTree Spec_Hkdf Proof_Hkdf Spec_Edhoc Model_EdhocCfg Model_EdhocCbor Model_EdhocKeys
  Proof_EdhocBase Model_EdhocCert Model_EdhocMsg Model_EdhocRun Model_EdhocOut Proof_EdhocMsg1 Proof_EdhocMsg Proof_EdhocRun
  Spec_EdhocRun Spec_EdhocView Spec_EdhocOut Proof_EdhocAgree Proof_EdhocSound Proof_EdhocOut Proof_EdhocSafe Spec_EdhocUb Proof_EdhocUb
  Model_Toy Proof_Toy Model_ToyEdhoc Prop_EdhocUb Prop_EdhocOut.

Section Left.
Variable cr : crypto.
Variable cf : cfg.
Variable pf : platform.
Hypothesis K : crypto_ok cr.

Lemma plaintext_here i st h1 g_y g_xy pt :
  lenN h1 = 32 -> lenN g_y = 32 -> shared_secret_derive cr (edhoc_ecdh st) (i_x i) g_y = Ok g_xy -> ct2_accepted cf (lenN pt) ->
  let th2 := cr_hash cr (rfc_th2_input g_y h1) in
  let ks := rfc_kdf (cr_hmac cr) (rfc_prk_2e (cr_hmac cr) th2 g_xy) L_KEYSTREAM_2 th2 (lenN pt) in
  msg2_plaintext cr cf i st h1 (cbor (CBytes (g_y ++ rfc_xor pt ks))) = Ok pt.
Proof.
  intros HH HG HX HCT th2 ks. pose proof HCT as [HN HA]. pose proof (ct2_accepted_le cf _ HCT) as HLE.
  assert (LK : lenN ks = lenN pt) by (apply kdf_len, (ok_hmac_len cr K)).
  set (ct := rfc_xor pt ks). assert (LC : lenN ct = lenN pt) by (unfold ct; rewrite rfc_xor_eq; apply xor_len; lia).
  set (n := lenN pt) in *. unfold msg2_plaintext.
  assert (E32 : get_ecdh_pk_len (edhoc_ecdh st) = 32) by (destruct (edhoc_ecdh st); reflexivity). rewrite E32.
  rewrite new_fits by (apply N.leb_le; reflexivity). cbn [bind].
  assert (LM : lenN (cbor (CBytes (g_y ++ ct))) = head_len (32 + n) + (32 + n)).
  { rewrite cbor_bytes, enc_bstr_len, lenN_app, HG, LC. reflexivity. }
  rewrite LM. fold (ct2_array n). rewrite new_fits by exact HA. cbn [bind].
  assert (EP : msg2_parse cf (cbor (CBytes (g_y ++ ct))) 32 (ct2_array n) = Ok (g_y, ct)).
  { unfold msg2_parse, decode_bstr. rewrite cbor_bytes, <- (app_nil_r (enc_bstr _)), dec_enc_bstr.
    - cbn [ext bind]. rewrite check_fits; [cbn [bind]|].
      + rewrite lenN_app, HG, LC. destruct (N.ltb_spec (32 + n) 32); [lia|].
        rewrite <- HG, dropN_app, takeN_app. rewrite copy_null_ok; [reflexivity|]. rewrite LC. apply ct2_array_ge, HN.
      + rewrite lenN_app, HG, LC. unfold G_Y_CIPHERTEXT_2. change G_Y_SIZE with 32. lia.
    - rewrite lenN_app, HG, LC. lia. }
  rewrite EP. cbn [bind]. rewrite HX. cbn [bind]. rewrite th2_rfc by assumption. cbn [bind]. fold th2.
  assert (T32 : lenN th2 = 32) by apply (ok_hash_len cr K).
  assert (T2 : th2 <> []) by (intros Q; rewrite Q in T32; discriminate).
  rewrite extract_rfc by exact T2. change (cr_hmac cr th2 g_xy) with (rfc_prk_2e (cr_hmac cr) th2 g_xy).
  rewrite LC. rewrite check_fits by exact HLE. cbn [bind]. rewrite new_fits by exact HLE. cbn [bind]. unfold key_gen_2.
  rewrite (kdf32 cr cf K); [cbn [bind]|reflexivity|exact HN|exact T32]. rewrite aad_rfc by exact T32. cbn [bind].
  change KEYSTREAM_2 with L_KEYSTREAM_2. change (rfc_kdf (cr_hmac cr) (rfc_prk_2e (cr_hmac cr) th2 g_xy) L_KEYSTREAM_2 th2 n) with ks.
  assert (EX : xor_bytes ct ks = pt) by (unfold ct; rewrite rfc_xor_eq; apply xor_xor; exact LK).
  rewrite EX. reflexivity.
Qed.

Lemma unknown_here i st h1 msg creds cap si sr pt s er :
  msg2_plaintext cr cf i st h1 msg = Ok pt -> plaintext2_split pt cap (ID_CRED_R_SIZE cf) (EAD_SIZE cf) = Ok s ->
  retrieve_cred cr pf sr creds (sp_id_cred s) (CRED_R_SIZE cf) = Err er ->
  msg2_process cr cf pf i st h1 msg creds cap si sr = Err er.
Proof.
  unfold msg2_plaintext, msg2_process, ciphertext2_decrypt_split. cbv zeta. intros HP HS HR.
  destruct (byte_array_new G_Y_SIZE _) as [?|?|?]; cbn [bind] in *; try discriminate.
  destruct (byte_array_new (CIPHERTEXT2_SIZE cf) (sub32 _ _)) as [?|?|?]; cbn [bind] in *; try discriminate.
  destruct (msg2_parse cf msg _ _) as [[g_y ct]|?|?]; cbn [bind] in *; try discriminate.
  destruct (shared_secret_derive cr _ _ _) as [g_xy|?|?]; cbn [bind] in *; try discriminate.
  destruct (th2_calculate cr _ _) as [th2|?|?]; cbn [bind] in *; try discriminate.
  destruct (check_buffer_size (PLAINTEXT2_SIZE cf) _) as [?|?|?]; cbn [bind] in *; try discriminate.
  destruct (byte_array_new (CIPHERTEXT2_SIZE cf) (lenN ct)) as [?|?|?]; cbn [bind] in *; try discriminate.
  destruct (key_gen_2 cr cf _ _ _) as [key|?|?]; cbn [bind] in *; try discriminate.
  destruct (associated_data_encode th2) as [aad|?|?]; cbn [bind] in *; try discriminate.
  injection HP as ->. rewrite HS. cbn [bind]. rewrite HR. reflexivity.
Qed.

Lemma credential_here l r rc creds ct pt s f :
  get_suite l = Ok (rr_suite rc) -> lenN (rr_th3 rc) = 32 -> 16 <= CIPHERTEXT2_SIZE cf ->
  lenN (cbor (CBytes ct)) <= CIPHERTEXT3_SIZE cf -> lenN ct <= PLAINTEXT3_SIZE cf + edhoc_mac_len_static_dh (rr_suite rc) -> lenN ct < 2 ^ 64 ->
  cr_aead_dec cr (rfc_kdf (cr_hmac cr) (rr_prk_3e2m rc) L_K_3 (rr_th3 rc) 16) (rfc_kdf (cr_hmac cr) (rr_prk_3e2m rc) L_IV_3 (rr_th3 rc) 13)
      (rfc_aad (rr_th3 rc)) (edhoc_mac_len_static_dh (rr_suite rc)) ct = Some pt ->
  plaintext3_split pt (ID_CRED_I_SIZE cf) (if EAD_SIZE cf =? 0 then 0 else lenN (rr_ead rc)) = Ok s ->
  retrieve_cred cr pf (rr_static_i rc) creds (sp_id_cred s) (CRED_I_SIZE cf) = Ok f ->
  msg3_credential cr cf pf r rc (cbor (CBytes ct)) creds = Ok f.
Proof.
  intros HL HT H16 HC HP HC64 HD HS HR. pose proof (suite_lens l _ HL) as (S1 & S2 & S3 & S4 & S5).
  unfold msg3_credential. cbv zeta. rewrite new_fits by exact HC. cbn [bind].
  unfold decode_bstr. rewrite cbor_bytes, <- (app_nil_r (enc_bstr _)), dec_enc_bstr by exact HC64. cbn [ext bind].
  rewrite check_fits by (rewrite app_nil_r; unfold enc_bstr; rewrite lenN_app; lia). cbn [bind].
  rewrite S4, new_fits by exact HP. cbn [bind]. unfold ciphertext3_decrypt_split. rewrite S2, new_fits by exact H16. cbn [bind].
  unfold key_gen_3. rewrite S2, S3. rewrite !(kdf32 cr cf K) by (first [reflexivity|exact HT|lia]). cbn [bind].
  rewrite aad_rfc by exact HT. cbn [bind]. rewrite S4. pose proof (ok_aead_dec_len cr K _ _ _ _ _ _ HD) as LD.
  destruct (N.ltb_spec (lenN ct) (edhoc_mac_len_static_dh (rr_suite rc))); [lia|].
  change K_3 with L_K_3. change IV_3 with L_IV_3. rewrite HD. cbn [ext bind]. rewrite HS. cbn [bind]. exact HR.
Qed.
End Left.

(** Somebody without any credential answers message_1, with an identifier that the
    initiator refuses: the run fails, and the array for C_R shows what they chose. *)
Theorem C64_claimed_c_r_refuted :
  forall (cr : crypto) (cf : cfg) (pf : platform) (i : initiator) (creds : list other_party_cred) (a : array) (prk : bytes) (e : env)
    (st : suite) (si sr : bool) (id_r : cred_id) (g_y g_xy c_r sig ead : bytes) (er : err),
  crypto_ok cr -> sound_array a -> retrieve_cred cr pf sr creds (Some (rfc_id_cred id_r)) (CRED_R_SIZE cf) = Err er -> id_range id_r ->
  lenN (rfc_id_cred id_r) <= ID_CRED_R_SIZE cf ->
  1 <= lenN (i_suites i) <= 10 -> get_suite (last (i_suites i) 0) = Ok st -> method_static (i_method i) si sr ->
  lenN g_y = 32 -> shared_secret_derive cr (edhoc_ecdh st) (i_x i) g_y = Ok g_xy ->
  lenN c_r <= a_len a -> lenN c_r < 2 ^ 64 -> lenN sig <= 64 -> lenN (read_ead ead) <= EAD_SIZE cf ->
  let pt := rfc_plaintext_2 c_r id_r sig ead in
  let m1 := rfc_message_1 (i_method i) (i_suites i) (i_g_x i) (i_c_i i) (i_ead_1 i) in
  let th2 := rfc_th2 (cr_hash cr) g_y m1 in
  let m2 := cbor (CBytes (g_y ++ rfc_xor pt (rfc_kdf (cr_hmac cr) (rfc_prk_2e (cr_hmac cr) th2 g_xy) L_KEYSTREAM_2 th2 (lenN pt)))) in
  lenN pt + 1 <= CIPHERTEXT2_SIZE cf -> lenN pt <= 8128 -> lenN m1 <= MSG_MAX_SIZE cf -> lenN m2 <= MSG_MAX_SIZE cf ->
  e_tx e 1 m1 = Ok tt -> e_rx e 2 [m1] = Ok m2 ->
  let l := initiator_leaves cr cf pf i creds a prk e in
  l_ret l = Err er /\ l_prk l = prk /\ content (l_peer_c l) = c_r.
Proof.
  intros cr cf pf i creds a prk e st si sr id_r g_y g_xy c_r sig ead er K SA RC HR LR HS GS MS LG HX HC HC' HSG HE pt m1 th2 m2 HP HP' L1 L2 HT RX l.
  subst l. destruct (method_type _ _ _ MS) as [MT _].
  assert (ACC : ct2_accepted cf (lenN pt)).
  { split; [exact HP'|]. rewrite ct2_array_bounds by exact HP'. destruct (_ || _); lia. }
  pose proof (plaintext_here cr cf K i st (cr_hash cr m1) g_y g_xy pt (ok_hash_len cr K m1) LG HX ACC) as PL. cbv zeta in PL.
  change (cr_hash cr (rfc_th2_input g_y (cr_hash cr m1))) with th2 in PL. fold m2 in PL.
  assert (SP : plaintext2_split pt (a_len a) (ID_CRED_R_SIZE cf) (EAD_SIZE cf) =
    Ok {| sp_c_r := c_r; sp_id_cred := Some (rfc_id_cred id_r); sp_sig := sig; sp_ead := read_ead ead |})
    by (apply plaintext2_split_fits; assumption).
  destruct (write_c_r_split pt a _ _ _ SA SP) as (a' & EW & SH). cbn [sp_c_r] in SH.
  unfold initiator_leaves. rewrite (msg1_gen_fits cr cf i st HS GS L1). fold m1. rewrite HT.
  unfold receive. rewrite RX. cbn [bind]. destruct (N.ltb_spec (MSG_MAX_SIZE cf) (lenN m2)); [lia|].
  unfold c_r_after. rewrite PL. cbn [bind]. rewrite EW. cbn [written after_write]. unfold msg3_gen. rewrite MT.
  erewrite unknown_here; [|exact PL|exact SP|exact RC]. cbn [bind leave l_ret l_prk l_peer_c].
  split; [reflexivity|]. split; [reflexivity|]. eapply shows_content. exact SH.
Qed.
Print Assumptions C64_claimed_c_r_refuted.

(** Somebody without any credential sends message_3 with the identifier of an initiator
    whose key is [key_i]. Whatever comes of it, the array for the key shows that key. If
    the memory of the array is smaller than its length says and than the key, the run ends
    beyond its end. *)
Theorem C64_claimed_key_refuted :
  forall (cr : crypto) (cf : cfg) (pf : platform) (r : responder) (creds : list other_party_cred) (c_i pk : array) (prk : bytes)
    (e : env) (id_i : cred_id) (cred_i key_i sig m1 : bytes) (me : N) (su g_x c : bytes) (ead_1 : option bytes) (m2 : bytes),
  crypto_ok cr -> sound_array c_i -> a_mem pk <> [] -> lenN key_i <= a_len pk -> key_i <> [] ->
  resolves cr pf false creds id_i (CRED_I_SIZE cf) cred_i key_i -> id_range id_i -> lenN (rfc_id_cred id_i) <= ID_CRED_I_SIZE cf -> lenN sig <= 64 ->
  e_rx e 1 [] = Ok m1 -> msg1_parse cf m1 (a_len c_i) = Ok (me, su, g_x, c, ead_1) -> (forall si sr, method_static me si sr -> si = false) ->
  let pt := rfc_plaintext_3 id_i sig [] in
  lenN pt <= PLAINTEXT3_SIZE cf -> PLAINTEXT3_SIZE cf < 2 ^ 32 ->
  (forall k m, e_ead e k m = Ok tt) -> (forall k m, e_tx e k m = Ok tt) ->
  PLAINTEXT2_SIZE cf <= 8128 -> sends_message_3 cr cf r e m1 m2 me su g_x (fun _ => pt) ->
  let l := responder_leaves cr cf pf r creds c_i (Some pk) prk e in
  l_sent l = [m2] ->
  (sound_array pk -> exists a, l_peer_pk l = Some a /\ content a = key_i) /\
  (lenN (a_mem pk) < lenN key_i -> l_ret l = UB OobWrite).
Proof.
  intros cr cf pf r creds c_i pk prk e id_i cred_i key_i sig m1 me su g_x c ead_1 m2 K SC NE LK NK (f & RF & FC & FG) HI LI HSG HR HP ME pt LP P32
    EE ET P8 HA l. subst l. unfold responder_leaves.
  destruct (receive cf e 1 []) as [m1'|?|?] eqn:ER1; [|discriminate|discriminate].
  apply receive_rx in ER1. rewrite HR in ER1. injection ER1 as <-. cbv zeta.
  assert (AW : after_write (write_c_i cf m1 c_i) (msg2_gen cr cf r m1 (a_len c_i)) = msg2_gen cr cf r m1 (a_len c_i)).
  { unfold after_write. destruct (write_c_i _ _ _) eqn:EW; try reflexivity. symmetry. now apply c_i_ub. }
  rewrite AW. destruct (msg2_gen cr cf r m1 (a_len c_i)) as [[c' rc]|?|?] eqn:E2; [|discriminate|discriminate].
  rewrite EE, ET.
  apply (msg2_gen_sound_len cr cf K) in E2. destruct E2 as (me' & su' & g_x' & ead' & sr & pt2 & P & MS & GS & L3 & _ & ETH & LP2 & V).
  rewrite HP in P. injection P as <- <- <- <- <-. pose proof (ME _ _ MS) as SI.
  intros HO.
  assert (EM : rr_msg rc = m2).
  { destruct (receive cf e 3 [rr_msg rc]) as [m3|?|?];
      [destruct (let* f := msg3_credential cr cf pf r rc m3 creds in export_pk (Some pk) (f_pk f));
         [destruct (msg3_process cr cf pf r rc m3 creds (lenN prk)) as [[[? ?] ?]|?|?]|..]|..];
      cbn in HO; now injection HO. }
  clear HO. set (v := {| v_m1 := m1; v_g_y := r_g_y r; v_pt2 := pt2; v_cred_r := r_cred r; v_prk_3e2m := rr_prk_3e2m rc; v_pt3 := [];
            v_cred_i := []; v_prk_4e3m := [] |}).
  specialize (HA (rr_suite rc) (rr_static_i rc) sr v GS MS). rewrite <- EM in HA. specialize (HA (V [] [] []) (N.le_trans _ _ _ LP2 P8)).
  destruct HA as (ct & R3 & L1 & L2 & EN). unfold receive. rewrite R3. cbn [bind].
  destruct (N.ltb_spec (MSG_MAX_SIZE cf) (lenN (cbor (CBytes ct)))); [lia|].
  change (cr_hash cr (v_th3_input cr v)) with (rfc_th34 (cr_hash cr) (rfc_th2 (cr_hash cr) (r_g_y r) m1) pt2 (r_cred r)) in EN.
  rewrite <- ETH in EN. cbv zeta in EN. change (v_prk_3e2m v) with (rr_prk_3e2m rc) in EN.
  pose proof (ok_aead_enc_len cr K _ _ _ _ _ _ EN) as LC. apply (ok_aead cr K) in EN.
  pose proof (suite_lens _ _ GS) as (S1 & _).
  rewrite (credential_here cr cf pf K (last su 0) r rc creds ct pt
    {| sp_c_r := []; sp_id_cred := Some (rfc_id_cred id_i); sp_sig := sig; sp_ead := [] |} f); [|exact GS| | |exact L2| | |exact EN| |].
  - cbn [bind]. cbn in FG. rewrite FG. split.
    + intros SP. destruct (export_new pk key_i SP LK NE) as (a & -> & SH). exists a. split; [|eapply shows_content; exact SH].
      destruct (msg3_process cr cf pf r rc _ creds (lenN prk)) as [[[? ?] ?]|?|?]; reflexivity.
    + intros LT. unfold export_pk. destruct (N.eqb_spec (lenN (a_mem pk)) 0) as [Z|]; [apply lenN_0 in Z; contradiction|].
      unfold memcpy_array. destruct (N.eqb_spec (lenN key_i) 0) as [Z|]; [apply lenN_0 in Z; contradiction|].
      destruct (N.eqb_spec (lenN (a_mem pk)) 0); [contradiction|]. rewrite check_fits by exact LK. cbn [bind].
      destruct (N.ltb_spec (lenN (a_mem pk)) (lenN key_i)); [reflexivity|lia].
  - rewrite ETH. apply (ok_hash_len cr K).
  - pose proof (ct2_size_ge cf). lia.
  - lia.
  - lia.
  - apply plaintext3_split_fits; try assumption. apply N.le_0_l.
  - rewrite SI. exact RF.
Qed.
Print Assumptions C64_claimed_key_refuted.

(** An array that is too short for the key of the initiator: if the run ends with ok, the
    length of the array is that of the key, and its memory is as before. Either the length
    exceeds the memory, or the array shows what was there before the run. *)
Theorem C64_short_array_refuted :
  forall (cr : crypto) (cf : cfg) (pf : platform) (r : responder) (creds : list other_party_cred) (c_i pk : array)
    (prk : bytes) (e : env),
  crypto_ok cr -> sound_array c_i -> sound_array pk -> a_mem pk <> [] -> lenN prk <= 8128 ->
  let l := responder_leaves cr cf pf r creds c_i (Some pk) prk e in
  l_ret l = Ok tt ->
  exists c ead_3 k key a, responder_verified cr cf pf r creds (a_len c_i) (lenN prk) e c ead_3 k key /\ l_peer_pk l = Some a /\
    (a_len pk < lenN k -> (lenN (a_mem pk) < lenN k -> lenN (a_mem a) < a_len a) /\
                          (lenN k <= lenN (a_mem pk) -> content a = takeN (lenN k) (a_mem pk))).
Proof.
  intros cr cf pf r creds c_i pk prk e K SC SP NE HP l HL.
  destruct (C64_responder_key_partial cr cf pf r creds c_i (Some pk) prk e K SC (fun a E => ltac:(injection E as <-; exact SP)) HP
    (or_intror (or_intror HL))) as (c & e1 & e3 & k & key & V & _ & _ & _ & LONG & SHORT). fold l in LONG, SHORT.
  destruct (N.leb_spec (lenN k) (a_len pk)) as [LE|LT].
  - destruct (LONG pk eq_refl NE LE) as (a & EA & _). exists c, e3, k, key, a. split; [exact V|]. split; [exact EA|]. intros. lia.
  - specialize (SHORT pk eq_refl NE LT). exists c, e3, k, key. eexists. split; [exact V|]. split; [exact SHORT|].
    intros _. cbn [a_mem a_len content]. split; [auto|]. intros _. reflexivity.
Qed.
Print Assumptions C64_short_array_refuted.

(** Concrete cases: a stranger claims C_R = 06 06 06 and the identifier 77; the runs of
    Prop_EdhocOut.v for the arrays of the responder. *)
Example C64_claimed_ex :
  let i := toy_initiator 0 [0] [5; 5] [] in
  let l := initiator_leaves toy_crypto default_cfg toy_pf i toy_creds_r (new_array (repeat 0 10)) (repeat 0 32)
             (toy_env (forged_2 i (fun _ _ => rfc_plaintext_2 [6; 6; 6] (KidInt 77) (repeat 0 64) [])) (Err not_implemented)) in
  retrieve_cred toy_crypto toy_pf false toy_creds_r (Some (rfc_id_cred (KidInt 77))) (CRED_R_SIZE default_cfg) = Err credential_not_found /\
  sound_array (new_array (repeat 0 10)) /\
  l_ret l = Err credential_not_found /\ content (l_peer_c l) = [6; 6; 6].
Proof.
  cbv zeta. split; [vm_compute; reflexivity|]. split; [split; [apply N.leb_le; reflexivity|discriminate]|]. split; vm_compute; reflexivity.
Qed.
Example C64_claimed_key_ex :
  (exists cred, resolves toy_crypto toy_pf false toy_creds_i (KidInt 5) (CRED_I_SIZE default_cfg) cred (repeat 13 32)) /\
  sound_array new32 /\ l_ret (left_r impostor toy_creds_i new32) = Err signature_authentication_failed /\
  l_peer_pk (left_r impostor toy_creds_i new32) = Some (new_array (repeat 13 32)) /\
  l_ret (left_r impostor toy_creds_i {| a_mem := repeat 0 16; a_len := 32 |}) = UB OobWrite.
Proof.
  split; [eexists; eexists; split; [vm_compute; reflexivity|split; reflexivity]|].
  split; [split; [apply N.leb_le; reflexivity|discriminate]|]. split; [|split]; vm_compute; reflexivity.
Qed.
