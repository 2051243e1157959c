(** C58: identifiers of credentials that the receiver does not expect, in messages to and
    from any party. *)
From Verif Require Import Base Proof_Base Model_Common Model_Cbor Proof_Cbor Model_Crypto
  Spec_CborTree Proof_CborTree Spec_Hkdf Proof_Hkdf Spec_Edhoc Model_EdhocCfg Model_EdhocCbor Model_EdhocKeys
  Proof_EdhocBase Model_EdhocCert Model_EdhocMsg Model_EdhocRun Proof_EdhocMsg1 Proof_EdhocMsg Proof_EdhocRun
  Spec_EdhocRun Spec_EdhocView Proof_EdhocAgree Proof_EdhocSound Proof_EdhocSafe Spec_EdhocUb Proof_EdhocUb Model_Toy Proof_Toy Model_ToyEdhoc
  Prop_EdhocRun Prop_EdhocAuth Spec_EdhocCred Prop_EdhocCred Prop_EdhocUb.

(** ID_CRED_x as a COSE header map with one entry: x5t whose hash algorithm is a text string
    (RFC 9360 allows it); kid, x5bag, x5u, c5b, c5c, c5u or c5t. *)
Inductive unusable_id : bytes -> Prop :=
| un_text t h : lenN t < 2 ^ 64 -> lenN h < 2 ^ 64 -> unusable_id (map1 34 (cbor (CArr [CText t; CBytes h])))
| un_kid z : is_int32 z -> unusable_id (map1 4 (cbor (CInt z)))
| un_bytes k b : In k [4; 32; 35; 52; 53; 55] -> lenN b < 2 ^ 64 -> unusable_id (map1 (Z.of_N k) (cbor (CBytes b)))
| un_c5t a h : is_int32 a -> lenN h < 2 ^ 64 -> unusable_id (map1 54 (cbor (CArr [CInt a; CBytes h]))).

Lemma text_pair_enc t h : cbor (CArr [CText t; CBytes h]) = enc_list 2 ++ enc_tstr t ++ enc_bstr h.
Proof. cbor_norm. reflexivity. Qed.
Lemma dec_text_pair t h r : lenN t < 2 ^ 64 -> lenN h < 2 ^ 64 ->
  dec_hash_pair ((enc_list 2 ++ enc_tstr t ++ enc_bstr h) ++ r) = Some ((UStr t, h), r).
Proof.
  intros HT HH. unfold dec_hash_pair, dec_list. rewrite <- !app_assoc. unfold enc_list. rewrite dec_enc_head by lia.
  assert (E : dec_int (enc_tstr t ++ enc_bstr h ++ r) = None) by (unfold dec_int, enc_tstr; rewrite <- app_assoc, dec_enc_head by exact HT; reflexivity).
  rewrite E, dec_enc_tstr by exact HT. rewrite dec_enc_bstr by exact HH. reflexivity.
Qed.

(** what is decoded of it *)
Lemma unusable_decodes id r : unusable_id id ->
  exists m, dec_id_cred_map (id ++ r) = Some (m, r) /\ ic_x5chain m = None /\
    (ic_x5t m = None \/ exists t h, ic_x5t m = Some (UStr t, h)).
Proof.
  intros H. unfold dec_id_cred_map. destruct H as [t h HT HH|z HZ|k b HK HB|a h HA HH].
  - change 34%Z with (Z.of_N 34). rewrite map1_enc, text_pair_enc, <- !app_assoc, dec_map_enc by lia. rewrite !entry_skip by lia.
    erewrite (entry_hit 34); [|lia|rewrite !app_assoc, <- (app_assoc (enc_list 2)), dec_text_pair by assumption; reflexivity].
    rewrite !entry_zero. eexists. split; [reflexivity|]. cbn [ic_x5chain ic_x5t]. eauto.
  - change 4%Z with (Z.of_N 4). rewrite map1_enc, cbor_int, <- !app_assoc, dec_map_enc by lia.
    erewrite (entry_hit 4); [|lia|unfold dec_int_or_bstr; rewrite dec_enc_int by assumption; reflexivity].
    rewrite !entry_zero. eexists. split; [reflexivity|]. cbn [ic_x5chain ic_x5t]. auto.
  - rewrite map1_enc, cbor_bytes, <- !app_assoc, dec_map_enc by lia.
    destruct HK as [<-|[<-|[<-|[<-|[<-|[<-|[]]]]]]]; rewrite ?entry_skip by lia.
    + erewrite (entry_hit 4); [|lia|unfold dec_int_or_bstr; rewrite (proj2 (bstr_not b r HB)), dec_enc_bstr by assumption; reflexivity].
      rewrite !entry_zero. eexists. split; [reflexivity|]. cbn [ic_x5chain ic_x5t]. auto.
    + erewrite (entry_hit 32); [|lia|rewrite dec_enc_bstr by assumption; reflexivity].
      rewrite !entry_zero. eexists. split; [reflexivity|]. cbn [ic_x5chain ic_x5t]. auto.
    + erewrite (entry_hit 35); [|lia|rewrite dec_enc_bstr by assumption; reflexivity].
      rewrite !entry_zero. eexists. split; [reflexivity|]. cbn [ic_x5chain ic_x5t]. auto.
    + erewrite (entry_hit 52); [|lia|rewrite dec_enc_bstr by assumption; reflexivity].
      rewrite !entry_zero. eexists. split; [reflexivity|]. cbn [ic_x5chain ic_x5t]. auto.
    + erewrite (entry_hit 53); [|lia|rewrite dec_enc_bstr by assumption; reflexivity].
      rewrite !entry_zero. eexists. split; [reflexivity|]. cbn [ic_x5chain ic_x5t]. auto.
    + erewrite (entry_hit 55); [|lia|rewrite dec_enc_bstr by assumption; reflexivity].
      rewrite ?entry_zero. eexists. split; [reflexivity|]. cbn [ic_x5chain ic_x5t]. auto.
  - change 54%Z with (Z.of_N 54). rewrite map1_enc, pair_enc, <- !app_assoc, dec_map_enc by lia. rewrite !entry_skip by lia.
    erewrite (entry_hit 54); [|lia|rewrite dec_pair by assumption; reflexivity].
    rewrite !entry_zero. eexists. split; [reflexivity|]. cbn [ic_x5chain ic_x5t]. auto.
Qed.

(** the plaintext cannot be split, or its identifier is never written *)
Definition unwritten (s : res split) : Prop := s = UB Uninit \/ exists x, s = Ok x /\ sp_id_cred x = None.

Lemma unusable_split m cap : ic_x5chain m = None -> (ic_x5t m = None \/ exists t h, ic_x5t m = Some (UStr t, h)) ->
  id_cred_split (IdMap m) cap = UB Uninit \/ id_cred_split (IdMap m) cap = Ok None.
Proof. intros E1 [E2|(t & h & E2)]; unfold id_cred_split; rewrite E1, E2; auto. Qed.

Lemma split3_unusable id sig a b : unusable_id id -> lenN sig <= 64 -> unwritten (plaintext3_split (id ++ cbor (CBytes sig)) a b).
Proof.
  intros H HS. destruct (unusable_decodes id (cbor (CBytes sig)) H) as (m & E & EC & ET).
  unfold plaintext3_split, cbor_decode_ptxt3, dec_id_cred_choice. rewrite E, cbor_bytes.
  rewrite <- (app_nil_r (enc_bstr sig)), dec_enc_bstr by (change (2 ^ 64) with 18446744073709551616; lia). cbn [ext bind pt_id_cred pt_sgn_or_mac pt_ead].
  destruct (unusable_split m a EC ET) as [-> | ->]; [left; reflexivity|]. cbn [bind]. rewrite copy_null_ok by exact HS. cbn [bind].
  right. eexists. split; reflexivity.
Qed.

Lemma split2_unusable c id sig n a b : lenN c < 2 ^ 64 -> lenN c <= n -> unusable_id id -> lenN sig <= 64 ->
  unwritten (plaintext2_split (cbor (CBytes c) ++ id ++ cbor (CBytes sig)) n a b).
Proof.
  intros H0 HN H HS. destruct (unusable_decodes id (cbor (CBytes sig)) H) as (m & E & EC & ET).
  unfold plaintext2_split, cbor_decode_ptxt2, dec_int_or_bstr. rewrite (cbor_bytes c), (proj2 (bstr_not c _ H0)).
  rewrite dec_enc_bstr by exact H0. unfold cbor_decode_ptxt3, dec_id_cred_choice. rewrite E, cbor_bytes.
  rewrite <- (app_nil_r (enc_bstr sig)), dec_enc_bstr by (change (2 ^ 64) with 18446744073709551616; lia).
  cbn [ext bind pt_c_r pt_id_cred pt_sgn_or_mac pt_ead]. rewrite copy_null_ok by exact HN. cbn [bind].
  destruct (unusable_split m a EC ET) as [-> | ->]; [left; reflexivity|]. cbn [bind]. rewrite copy_null_ok by exact HS. cbn [bind].
  right. eexists. split; reflexivity.
Qed.

(** the plaintext cannot be split, or looking up its identifier ends in [UB u], or deriving
    the secret with the static key found for it *)
Definition fatal (cr : crypto) (pf : platform) (ec : ecdh_alg) (sk : bytes) (static_dh : bool) (creds : list other_party_cred) (cap : N)
    (u : ub) (s : res split) : Prop :=
  s = UB u \/ (exists x, s = Ok x /\ retrieve_cred cr pf static_dh creds (sp_id_cred x) cap = UB u) \/
  (exists x f, s = Ok x /\ retrieve_cred cr pf static_dh creds (sp_id_cred x) cap = Ok f /\ static_dh = true /\
     shared_secret_derive cr ec sk (f_g f) = UB u).
Lemma unwritten_fatal cr pf ec sk sd creds cap s : unwritten s -> fatal cr pf ec sk sd creds cap Uninit s.
Proof. intros [E|(x & E & N0)]; [now left|]. right. left. exists x. split; [exact E|]. rewrite N0. reflexivity. Qed.

Section Process.
Variable cr : crypto.
Variable cf : cfg.
Variable pf : platform.
Hypothesis K : crypto_ok cr.

Lemma msg2_fatal i st h1 creds si sr g_y g_xy pt u :
  lenN h1 = 32 -> lenN g_y = 32 -> shared_secret_derive cr (edhoc_ecdh st) (i_x i) g_y = Ok g_xy -> ct2_accepted cf (lenN pt) ->
  fatal cr pf (edhoc_ecdh st) (i_x i) sr creds (CRED_R_SIZE cf) u (plaintext2_split pt (C_R_SIZE cf) (ID_CRED_R_SIZE cf) (EAD_SIZE cf)) ->
  let th2 := cr_hash cr (rfc_th2_input g_y h1) in
  let ks := rfc_kdf (cr_hmac cr) (rfc_prk_2e (cr_hmac cr) th2 g_xy) L_KEYSTREAM_2 th2 (lenN pt) in
  msg2_process cr cf pf i st h1 (cbor (CBytes (g_y ++ rfc_xor pt ks))) creds (C_R_SIZE cf) si sr = UB u.
Proof.
  intros HH HG HX HCT [HU|HU]; [now apply msg2_split_ub|].
  intros th2 ks. pose proof HCT as [HN HA]. pose proof (ct2_accepted_le cf _ HCT) as HLE.
  assert (LK : lenN ks = lenN pt) by (apply kdf_len, (ok_hmac_len cr K)).
  set (ct := rfc_xor pt ks). assert (LC : lenN ct = lenN pt) by (unfold ct; rewrite rfc_xor_eq; apply xor_len; lia).
  set (n := lenN pt) in *. unfold msg2_process.
  assert (E32 : get_ecdh_pk_len (edhoc_ecdh st) = 32) by (destruct (edhoc_ecdh st); reflexivity). rewrite E32.
  rewrite new_fits by (apply N.leb_le; reflexivity). cbn [bind].
  assert (LM : lenN (cbor (CBytes (g_y ++ ct))) = head_len (32 + n) + (32 + n)).
  { rewrite cbor_bytes, enc_bstr_len, lenN_app, HG, LC. reflexivity. }
  rewrite LM. fold (ct2_array n). rewrite new_fits by exact HA. cbn [bind].
  assert (EP : msg2_parse cf (cbor (CBytes (g_y ++ ct))) 32 (ct2_array n) = Ok (g_y, ct)).
  { unfold msg2_parse, decode_bstr. rewrite cbor_bytes, <- (app_nil_r (enc_bstr _)), dec_enc_bstr.
    - cbn [ext bind]. rewrite check_fits; [cbn [bind]|].
      + rewrite lenN_app, HG, LC. destruct (N.ltb_spec (32 + n) 32); [lia|].
        rewrite <- HG, dropN_app, takeN_app. rewrite copy_null_ok; [reflexivity|]. rewrite LC. apply ct2_array_ge, HN.
      + rewrite lenN_app, HG, LC. unfold G_Y_CIPHERTEXT_2. change G_Y_SIZE with 32. lia.
    - rewrite lenN_app, HG, LC. lia. }
  rewrite EP. cbn [bind]. rewrite HX. cbn [bind]. rewrite th2_rfc by assumption. cbn [bind]. fold th2.
  assert (T32 : lenN th2 = 32) by apply (ok_hash_len cr K).
  assert (T2 : th2 <> []) by (intros Q; rewrite Q in T32; discriminate).
  rewrite extract_rfc by exact T2. change (cr_hmac cr th2 g_xy) with (rfc_prk_2e (cr_hmac cr) th2 g_xy).
  rewrite LC. rewrite check_fits by exact HLE. cbn [bind].
  unfold ciphertext2_decrypt_split. rewrite LC. rewrite new_fits by exact HLE. cbn [bind]. unfold key_gen_2.
  rewrite (kdf32 cr cf K); [cbn [bind]|reflexivity|exact HN|exact T32]. rewrite aad_rfc by exact T32. cbn [bind].
  change KEYSTREAM_2 with L_KEYSTREAM_2. change (rfc_kdf (cr_hmac cr) (rfc_prk_2e (cr_hmac cr) th2 g_xy) L_KEYSTREAM_2 th2 n) with ks.
  assert (EX : xor_bytes ct ks = pt) by (unfold ct; rewrite rfc_xor_eq; apply xor_xor; exact LK).
  rewrite EX.
  destruct HU as [(x & HU & HN0)|(x & f & HU & HN0 & HD0 & HS0)]; rewrite HU; cbn [bind]; rewrite HN0; [reflexivity|].
  cbn [bind]. unfold prk_derive. rewrite HD0, HS0. reflexivity.
Qed.

Lemma msg3_fatal l r rc creds n ct pt u :
  get_suite l = Ok (rr_suite rc) -> lenN (rr_th3 rc) = 32 -> 16 <= CIPHERTEXT2_SIZE cf ->
  lenN (cbor (CBytes ct)) <= CIPHERTEXT3_SIZE cf -> lenN ct <= PLAINTEXT3_SIZE cf + edhoc_mac_len_static_dh (rr_suite rc) -> lenN ct < 2 ^ 64 ->
  cr_aead_dec cr (rfc_kdf (cr_hmac cr) (rr_prk_3e2m rc) L_K_3 (rr_th3 rc) 16) (rfc_kdf (cr_hmac cr) (rr_prk_3e2m rc) L_IV_3 (rr_th3 rc) 13)
      (rfc_aad (rr_th3 rc)) (edhoc_mac_len_static_dh (rr_suite rc)) ct = Some pt ->
  fatal cr pf (edhoc_ecdh (rr_suite rc)) (r_y r) (rr_static_i rc) creds (CRED_I_SIZE cf) u
    (plaintext3_split pt (ID_CRED_I_SIZE cf) (if EAD_SIZE cf =? 0 then 0 else lenN (rr_ead rc))) ->
  msg3_process cr cf pf r rc (cbor (CBytes ct)) creds n = UB u.
Proof.
  intros HL HT H16 HC HP HC64 HD [HU|HU]; [eapply msg3_split_ub; eassumption|].
  pose proof (suite_lens l _ HL) as (S1 & S2 & S3 & S4 & S5).
  unfold msg3_process, msg3_process_full. cbv zeta. rewrite new_fits by exact HC. cbn [bind].
  unfold decode_bstr. rewrite cbor_bytes, <- (app_nil_r (enc_bstr _)), dec_enc_bstr by exact HC64. cbn [ext bind].
  rewrite check_fits by (rewrite app_nil_r; unfold enc_bstr; rewrite lenN_app; lia). cbn [bind].
  rewrite S4, new_fits by exact HP. cbn [bind]. unfold ciphertext3_decrypt_split. rewrite S2, new_fits by exact H16. cbn [bind].
  unfold key_gen_3. rewrite S2, S3. rewrite !(kdf32 cr cf K) by (first [reflexivity|exact HT|lia]). cbn [bind].
  rewrite aad_rfc by exact HT. cbn [bind]. rewrite S4. pose proof (ok_aead_dec_len cr K _ _ _ _ _ _ HD) as LD.
  destruct (N.ltb_spec (lenN ct) (edhoc_mac_len_static_dh (rr_suite rc))); [lia|].
  change K_3 with L_K_3. change IV_3 with L_IV_3. rewrite HD. cbn [ext bind].
  destruct HU as [(x & HU & HN0)|(x & f & HU & HN0 & HD0 & HS0)]; rewrite HU; cbn [bind]; rewrite HN0; [reflexivity|].
  cbn [bind]. unfold prk_derive. rewrite HD0, HS0. reflexivity.
Qed.
End Process.

(** message_2 of somebody without any credential, with any such plaintext *)
Lemma fatal_2 : forall (cr : crypto) (cf : cfg) (pf : platform) (i : initiator) (creds : list other_party_cred) (n : N) (e : env)
    (st : suite) (si sr : bool) (g_y g_xy pt : bytes) (u : ub),
  crypto_ok cr -> 1 <= lenN (i_suites i) <= 10 -> get_suite (last (i_suites i) 0) = Ok st -> method_static (i_method i) si sr ->
  lenN g_y = 32 -> shared_secret_derive cr (edhoc_ecdh st) (i_x i) g_y = Ok g_xy ->
  let m1 := rfc_message_1 (i_method i) (i_suites i) (i_g_x i) (i_c_i i) (i_ead_1 i) in
  let th2 := rfc_th2 (cr_hash cr) g_y m1 in
  let m2 := cbor (CBytes (g_y ++ rfc_xor pt (rfc_kdf (cr_hmac cr) (rfc_prk_2e (cr_hmac cr) th2 g_xy) L_KEYSTREAM_2 th2 (lenN pt)))) in
  lenN pt + 1 <= CIPHERTEXT2_SIZE cf -> lenN pt <= 8128 -> lenN m1 <= MSG_MAX_SIZE cf -> lenN m2 <= MSG_MAX_SIZE cf ->
  e_tx e 1 m1 = Ok tt -> e_rx e 2 [m1] = Ok m2 ->
  fatal cr pf (edhoc_ecdh st) (i_x i) sr creds (CRED_R_SIZE cf) u (plaintext2_split pt (C_R_SIZE cf) (ID_CRED_R_SIZE cf) (EAD_SIZE cf)) ->
  o_ret (initiator_run cr cf pf i creds n e) = UB u.
Proof.
  intros cr cf pf i creds n e st si sr g_y g_xy pt u K HS GS MS LG HX m1 th2 m2 HP HP' L1 L2 HT HR HU.
  destruct (method_type _ _ _ MS) as [MT _].
  unfold initiator_run, initiator_run_extended. rewrite (msg1_gen_fits cr cf i st HS GS L1). fold m1. rewrite HT.
  unfold receive. rewrite HR. cbn [bind]. destruct (N.ltb_spec (MSG_MAX_SIZE cf) (lenN m2)); [lia|].
  assert (ACC : ct2_accepted cf (lenN pt)).
  { split; [exact HP'|]. rewrite ct2_array_bounds by exact HP'. destruct (_ || _); lia. }
  unfold msg3_gen. rewrite MT.
  pose proof (msg2_fatal cr cf pf K i st (cr_hash cr m1) creds si sr g_y g_xy pt u (ok_hash_len cr K m1) LG HX ACC HU) as Q.
  cbv zeta in Q. change (cr_hash cr (rfc_th2_input g_y (cr_hash cr m1))) with th2 in Q. fold m2 in Q. rewrite Q. reflexivity.
Qed.

(** message_3 of somebody without any credential, with any such plaintext *)
Lemma fatal_3 : forall (cr : crypto) (cf : cfg) (pf : platform) (r : responder) (creds : list other_party_cred) (ci_cap : N) (pk_cap : option N)
    (n : N) (e : env) (pt m1 : bytes) (me : N) (su g_x c_i : bytes) (ead_1 : option bytes) (m2 : bytes) (u : ub),
  crypto_ok cr ->
  (forall k m, e_ead e k m = Ok tt) -> (forall k m, e_tx e k m = Ok tt) ->
  e_rx e 1 [] = Ok m1 -> msg1_parse cf m1 ci_cap = Ok (me, su, g_x, c_i, ead_1) ->
  lenN pt <= PLAINTEXT3_SIZE cf -> PLAINTEXT3_SIZE cf < 2 ^ 32 ->
  PLAINTEXT2_SIZE cf <= 8128 -> sends_message_3 cr cf r e m1 m2 me su g_x (fun _ => pt) ->
  (forall st si sr a, get_suite (last su 0) = Ok st -> method_static me si sr ->
     fatal cr pf (edhoc_ecdh st) (r_y r) si creds (CRED_I_SIZE cf) u (plaintext3_split pt (ID_CRED_I_SIZE cf) a)) ->
  let o := responder_run_extended cr cf pf r creds ci_cap pk_cap n e in
  o_sent o = [m2] -> o_ret o = UB u.
Proof.
  intros cr cf pf r creds ci_cap pk_cap n e pt m1 me su g_x c_i ead_1 m2 u K EE ET HR HP LP P32 P8 HA HU o HO. subst o.
  unfold responder_run_extended in *.
  destruct (receive cf e 1 []) as [m1'|?|?] eqn:ER1; [|discriminate HO|discriminate HO].
  apply receive_rx in ER1. rewrite HR in ER1. injection ER1 as <-.
  destruct (msg2_gen cr cf r m1 ci_cap) as [[c_i' rc]|?|?] eqn:E2; [|discriminate HO|discriminate HO].
  rewrite EE, ET in *.
  apply (msg2_gen_sound_len cr cf K) in E2. destruct E2 as (me' & su' & g_x' & ead' & sr & pt2 & P & MS & GS & L3 & _ & ETH & LP2 & V).
  rewrite HP in P. injection P as <- <- <- <- <-.
  assert (EM : rr_msg rc = m2).
  { destruct (receive cf e 3 [rr_msg rc]) as [m3|?|?]; [destruct (msg3_process cr cf pf r rc m3 creds n) as [[[? ?] ?]|?|?]|..];
      cbn in HO; now injection HO. }
  set (v := {| v_m1 := m1; v_g_y := r_g_y r; v_pt2 := pt2; v_cred_r := r_cred r; v_prk_3e2m := rr_prk_3e2m rc; v_pt3 := [];
            v_cred_i := []; v_prk_4e3m := [] |}).
  specialize (HA (rr_suite rc) (rr_static_i rc) sr v GS MS). rewrite <- EM in HA. specialize (HA (V [] [] []) (N.le_trans _ _ _ LP2 P8)).
  destruct HA as (ct & R3 & L1 & L2 & EN). unfold receive. rewrite R3. cbn [bind].
  destruct (N.ltb_spec (MSG_MAX_SIZE cf) (lenN (cbor (CBytes ct)))); [lia|].
  change (cr_hash cr (v_th3_input cr v)) with (rfc_th34 (cr_hash cr) (rfc_th2 (cr_hash cr) (r_g_y r) m1) pt2 (r_cred r)) in EN.
  rewrite <- ETH in EN. cbv zeta in EN. change (v_prk_3e2m v) with (rr_prk_3e2m rc) in EN.
  pose proof (ok_aead_enc_len cr K _ _ _ _ _ _ EN) as LC. apply (ok_aead cr K) in EN.
  pose proof (suite_lens _ _ GS) as (S1 & _).
  rewrite (msg3_fatal cr cf pf K (last su 0) r rc creds n ct pt u); [reflexivity|exact GS| | |exact L2| | |exact EN|eapply HU; [exact GS|exact MS]].
  - rewrite ETH. apply (ok_hash_len cr K).
  - pose proof (ct2_size_ge cf). lia.
  - lia.
  - lia.
Qed.

(** message_2: whoever answers message_1, without any credential, with such an ID_CRED_R
    makes the initiator use memory that was never written. *)
Theorem C58_unusable_id_2_refuted :
  forall (cr : crypto) (cf : cfg) (pf : platform) (i : initiator) (creds : list other_party_cred) (n : N) (e : env)
    (st : suite) (si sr : bool) (g_y g_xy c_r id sig : bytes),
  crypto_ok cr -> 1 <= lenN (i_suites i) <= 10 -> get_suite (last (i_suites i) 0) = Ok st -> method_static (i_method i) si sr -> lenN g_y = 32 ->
  shared_secret_derive cr (edhoc_ecdh st) (i_x i) g_y = Ok g_xy ->
  lenN c_r <= C_R_SIZE cf -> lenN c_r < 2 ^ 64 -> unusable_id id -> lenN sig <= 64 ->
  let pt := cbor (CBytes c_r) ++ id ++ cbor (CBytes sig) in
  let m1 := rfc_message_1 (i_method i) (i_suites i) (i_g_x i) (i_c_i i) (i_ead_1 i) in
  let th2 := rfc_th2 (cr_hash cr) g_y m1 in
  let m2 := cbor (CBytes (g_y ++ rfc_xor pt (rfc_kdf (cr_hmac cr) (rfc_prk_2e (cr_hmac cr) th2 g_xy) L_KEYSTREAM_2 th2 (lenN pt)))) in
  lenN pt + 1 <= CIPHERTEXT2_SIZE cf -> lenN pt <= 8128 -> lenN m1 <= MSG_MAX_SIZE cf -> lenN m2 <= MSG_MAX_SIZE cf ->
  e_tx e 1 m1 = Ok tt -> e_rx e 2 [m1] = Ok m2 ->
  o_ret (initiator_run cr cf pf i creds n e) = UB Uninit.
Proof.
  intros cr cf pf i creds n e st si sr g_y g_xy c_r id sig K HS GS MS LG HX HC HC' HK HSG pt m1 th2 m2 HP HP' L1 L2 HT HR.
  apply (fatal_2 cr cf pf i creds n e st si sr g_y g_xy pt Uninit); try assumption.
  apply unwritten_fatal, split2_unusable; assumption.
Qed.
Print Assumptions C58_unusable_id_2_refuted.

(** message_3: the same for ID_CRED_I, in every session in which the responder answered. *)
Theorem C58_unusable_id_3_refuted :
  forall (cr : crypto) (cf : cfg) (pf : platform) (r : responder) (creds : list other_party_cred) (ci_cap : N) (pk_cap : option N)
    (n : N) (e : env) (id sig m1 : bytes) (me : N) (su g_x c_i : bytes) (ead_1 : option bytes) (m2 : bytes),
  crypto_ok cr -> unusable_id id -> lenN sig <= 64 ->
  (forall k m, e_ead e k m = Ok tt) -> (forall k m, e_tx e k m = Ok tt) ->
  e_rx e 1 [] = Ok m1 -> msg1_parse cf m1 ci_cap = Ok (me, su, g_x, c_i, ead_1) ->
  let pt := id ++ cbor (CBytes sig) in
  lenN pt <= PLAINTEXT3_SIZE cf -> PLAINTEXT3_SIZE cf < 2 ^ 32 ->
  PLAINTEXT2_SIZE cf <= 8128 -> sends_message_3 cr cf r e m1 m2 me su g_x (fun _ => pt) ->
  let o := responder_run_extended cr cf pf r creds ci_cap pk_cap n e in
  o_sent o = [m2] -> o_ret o = UB Uninit.
Proof.
  intros cr cf pf r creds ci_cap pk_cap n e id sig m1 me su g_x c_i ead_1 m2 K HK HSG EE ET HR HP pt LP P32 P8 HA.
  eapply (fatal_3 cr cf pf r creds ci_cap pk_cap n e pt m1 me su g_x c_i ead_1 m2 Uninit); try eassumption.
  intros ? ? ? ? _ _. apply unwritten_fatal, split3_unusable; assumption.
Qed.
Print Assumptions C58_unusable_id_3_refuted.

(** A certificate that ends within or right behind its first tag and length. *)
Inductive cut_certificate : bytes -> Prop :=
| cut_tag : cut_certificate [0x30]
| cut_len k : k < 128 -> cut_certificate [0x30; k]
| cut_len2 k : k < 256 -> cut_certificate [0x30; 0x81; k]
| cut_len3 k l : k < 256 -> l < 256 -> cut_certificate [0x30; 0x82; k; l].
Lemma cut_parse c cap : cut_certificate c -> x509_crude_parse c cap = UB OobRead.
Proof.
  intros []; try reflexivity. unfold x509_crude_parse, expecto_tag, asn1_get_len.
  change (rd [48; k] 0) with (@Ok N 48). cbn [bind]. change (negb (48 =? ASN1_SEQUENCE)) with false. cbv iota.
  change (lenN [48; k] <=? 0 + 1) with false. cbv iota. change (rd [48; k] (0 + 1)) with (Ok k). cbn [bind].
  destruct (N.ltb_spec k 128); [|lia]. reflexivity.
Qed.
Lemma cut_len_le c : cut_certificate c -> lenN c <= 4.
Proof. intros []; apply N.leb_le; reflexivity. Qed.
Lemma cut_enc c : cut_certificate c -> lenN (enc_bstr c) <= 5.
Proof. intros []; apply N.leb_le; reflexivity. Qed.
Lemma cut_id c : cut_certificate c -> lenN (rfc_id_cred (X5chain c)) <= 9.
Proof. intros []; apply N.leb_le; reflexivity. Qed.
Lemma cut_retrieve cr pf sd creds c cap : cut_certificate c -> pf_mbedtls pf = false -> 5 <= cap ->
  retrieve_cred cr pf sd creds (Some (rfc_id_cred (X5chain c))) cap = UB OobRead.
Proof.
  intros HC HM HL. pose proof (cut_len_le c HC) as LE. pose proof (cut_enc c HC) as LB.
  unfold retrieve_cred. rewrite <- (app_nil_r (rfc_id_cred _)), dec_cid by (cbn; lia). cbn [ext bind].
  cbn [cid_map ic_kid ic_x5u ic_x5t ic_c5u ic_c5t ic_x5chain]. unfold verify_cert2cred.
  rewrite (proj2 (encode_bstr_ok c cap (enc_bstr c))) by (repeat split; lia). cbn [bind].
  unfold cert_x509_verify. rewrite HM. unfold cert_x509_verify_crude. rewrite cut_parse by exact HC. reflexivity.
Qed.

(** Without Mbed TLS: whoever answers message_1 with such a certificate, without any
    credential, makes the initiator read behind it, whatever the initiator trusts. *)
Theorem C58_certificate_2_refuted :
  forall (cr : crypto) (cf : cfg) (pf : platform) (i : initiator) (creds : list other_party_cred) (n : N) (e : env)
    (st : suite) (si sr : bool) (g_y g_xy c_r cert sig : bytes),
  crypto_ok cr -> pf_mbedtls pf = false -> cut_certificate cert -> 5 <= CRED_R_SIZE cf -> 9 <= ID_CRED_R_SIZE cf ->
  1 <= lenN (i_suites i) <= 10 -> get_suite (last (i_suites i) 0) = Ok st -> method_static (i_method i) si sr -> lenN g_y = 32 ->
  shared_secret_derive cr (edhoc_ecdh st) (i_x i) g_y = Ok g_xy ->
  lenN c_r <= C_R_SIZE cf -> lenN c_r < 2 ^ 64 -> lenN sig <= 64 ->
  let pt := rfc_plaintext_2 c_r (X5chain cert) sig [] in
  let m1 := rfc_message_1 (i_method i) (i_suites i) (i_g_x i) (i_c_i i) (i_ead_1 i) in
  let th2 := rfc_th2 (cr_hash cr) g_y m1 in
  let m2 := cbor (CBytes (g_y ++ rfc_xor pt (rfc_kdf (cr_hmac cr) (rfc_prk_2e (cr_hmac cr) th2 g_xy) L_KEYSTREAM_2 th2 (lenN pt)))) in
  lenN pt + 1 <= CIPHERTEXT2_SIZE cf -> lenN pt <= 8128 -> lenN m1 <= MSG_MAX_SIZE cf -> lenN m2 <= MSG_MAX_SIZE cf ->
  e_tx e 1 m1 = Ok tt -> e_rx e 2 [m1] = Ok m2 ->
  o_ret (initiator_run cr cf pf i creds n e) = UB OobRead.
Proof.
  intros cr cf pf i creds n e st si sr g_y g_xy c_r cert sig K HM HK SC SI HS GS MS LG HX HC HC' HSG pt m1 th2 m2 HP HP' L1 L2 HT HR.
  apply (fatal_2 cr cf pf i creds n e st si sr g_y g_xy pt OobRead); try assumption.
  right. left. eexists. split; [apply plaintext2_split_fits|cbn [sp_id_cred]; apply cut_retrieve; assumption].
  all: pose proof (cut_len_le cert HK); pose proof (cut_id cert HK); try assumption.
  - cbn [cid_ok]. lia.
  - lia.
  - apply N.le_0_l.
Qed.
Print Assumptions C58_certificate_2_refuted.

(** message_3: the same, in every session in which the responder answered. *)
Theorem C58_certificate_3_refuted :
  forall (cr : crypto) (cf : cfg) (pf : platform) (r : responder) (creds : list other_party_cred) (ci_cap : N) (pk_cap : option N)
    (n : N) (e : env) (cert sig m1 : bytes) (me : N) (su g_x c_i : bytes) (ead_1 : option bytes) (m2 : bytes),
  crypto_ok cr -> pf_mbedtls pf = false -> cut_certificate cert -> 5 <= CRED_I_SIZE cf -> 9 <= ID_CRED_I_SIZE cf -> lenN sig <= 64 ->
  (forall k m, e_ead e k m = Ok tt) -> (forall k m, e_tx e k m = Ok tt) ->
  e_rx e 1 [] = Ok m1 -> msg1_parse cf m1 ci_cap = Ok (me, su, g_x, c_i, ead_1) ->
  let pt := rfc_plaintext_3 (X5chain cert) sig [] in
  lenN pt <= PLAINTEXT3_SIZE cf -> PLAINTEXT3_SIZE cf < 2 ^ 32 ->
  PLAINTEXT2_SIZE cf <= 8128 -> sends_message_3 cr cf r e m1 m2 me su g_x (fun _ => pt) ->
  let o := responder_run_extended cr cf pf r creds ci_cap pk_cap n e in
  o_sent o = [m2] -> o_ret o = UB OobRead.
Proof.
  intros cr cf pf r creds ci_cap pk_cap n e cert sig m1 me su g_x c_i ead_1 m2 K HM HK SC SI HSG EE ET HR HP pt LP P32 P8 HA.
  eapply (fatal_3 cr cf pf r creds ci_cap pk_cap n e pt m1 me su g_x c_i ead_1 m2 OobRead); try eassumption.
  intros ? ? ? ? _ _. right. left. eexists. split; [apply plaintext3_split_fits|cbn [sp_id_cred]; apply cut_retrieve; assumption].
  all: pose proof (cut_len_le cert HK); pose proof (cut_id cert HK); try assumption.
  - cbn [cid_ok]. lia.
  - lia.
  - apply N.le_0_l.
Qed.
Print Assumptions C58_certificate_3_refuted.

(** A static X25519 key of less than 32 bytes found for the responder, in the list of the
    initiator or in a certificate: the derivation goes on behind it. *)
Theorem C58_short_static_key_2_refuted :
  forall (cr : crypto) (cf : cfg) (pf : platform) (i : initiator) (creds : list other_party_cred) (n : N) (e : env)
    (st : suite) (si : bool) (id_r : cred_id) (cred_r key_r g_y g_xy c_r sig ead : bytes),
  crypto_ok cr -> resolves cr pf true creds id_r (CRED_R_SIZE cf) cred_r key_r -> lenN key_r < 32 -> id_range id_r ->
  lenN (rfc_id_cred id_r) <= ID_CRED_R_SIZE cf ->
  1 <= lenN (i_suites i) <= 10 -> get_suite (last (i_suites i) 0) = Ok st -> edhoc_ecdh st = X25519 -> method_static (i_method i) si true ->
  lenN (i_x i) = 32 -> lenN g_y = 32 -> shared_secret_derive cr X25519 (i_x i) g_y = Ok g_xy ->
  lenN c_r <= C_R_SIZE cf -> lenN c_r < 2 ^ 64 -> lenN sig <= 64 -> lenN (read_ead ead) <= EAD_SIZE cf ->
  let pt := rfc_plaintext_2 c_r id_r sig ead in
  let m1 := rfc_message_1 (i_method i) (i_suites i) (i_g_x i) (i_c_i i) (i_ead_1 i) in
  let th2 := rfc_th2 (cr_hash cr) g_y m1 in
  let m2 := cbor (CBytes (g_y ++ rfc_xor pt (rfc_kdf (cr_hmac cr) (rfc_prk_2e (cr_hmac cr) th2 g_xy) L_KEYSTREAM_2 th2 (lenN pt)))) in
  lenN pt + 1 <= CIPHERTEXT2_SIZE cf -> lenN pt <= 8128 -> lenN m1 <= MSG_MAX_SIZE cf -> lenN m2 <= MSG_MAX_SIZE cf ->
  e_tx e 1 m1 = Ok tt -> e_rx e 2 [m1] = Ok m2 ->
  o_ret (initiator_run cr cf pf i creds n e) = UB Uninit.
Proof.
  intros cr cf pf i creds n e st si id_r cred_r key_r g_y g_xy c_r sig ead K (f & RF & FC & FG) LK HR LR HS GS EC MS LX LG HX HC HC' HSG HE
    pt m1 th2 m2 HP HP' L1 L2 HT RX.
  apply (fatal_2 cr cf pf i creds n e st si true g_y g_xy pt Uninit); try assumption; [now rewrite EC|].
  right. right. eexists. exists f. split; [apply plaintext2_split_fits; assumption|].
  cbn [sp_id_cred]. split; [exact RF|]. split; [reflexivity|]. cbn in FG. rewrite FG, EC. unfold shared_secret_derive. rewrite LX.
  destruct (N.ltb_spec (lenN key_r) 32); [reflexivity|lia].
Qed.
Print Assumptions C58_short_static_key_2_refuted.

(** message_2 of someone who made G_Y and names a responder that the initiator knows: what
    comes of it is what comes of the field Signature_or_MAC_2. *)
Lemma field_2 : forall (cr : crypto) (cf : cfg) (pf : platform) (i : initiator) (creds : list other_party_cred) (st : suite) (si sr : bool)
    (id_r : cred_id) (cred_r key_r g_y g_xy g_rx c_r field : bytes) (e : env) (n : N) (u : ub),
  crypto_ok cr -> small cf -> 1 <= lenN (i_suites i) <= 10 ->
  method_static (i_method i) si sr -> get_suite (last (i_suites i) 0) = Ok st ->
  resolves cr pf sr creds id_r (CRED_R_SIZE cf) cred_r key_r -> id_range id_r ->
  lenN (rfc_id_cred id_r) <= ID_CRED_R_SIZE cf -> lenN cred_r <= CRED_MAX_SIZE cf ->
  (sr = true -> dh_secret cr (edhoc_ecdh st) (i_x i) key_r g_rx) ->
  lenN g_y = 32 -> dh_secret cr (edhoc_ecdh st) (i_x i) g_y g_xy ->
  lenN c_r <= C_R_SIZE cf -> lenN field <= 64 ->
  let pt := rfc_plaintext_2 c_r id_r field [] in
  let m1 := rfc_message_1 (i_method i) (i_suites i) (i_g_x i) (i_c_i i) (i_ead_1 i) in
  let th2 := rfc_th2 (cr_hash cr) g_y m1 in
  let prk_2e := rfc_prk_2e (cr_hmac cr) th2 g_xy in
  let prk := rfc_prk_next (cr_hmac cr) sr prk_2e L_SALT_3e2m th2 g_rx in
  let m2 := cbor (CBytes (g_y ++ rfc_xor pt (rfc_kdf (cr_hmac cr) prk_2e L_KEYSTREAM_2 th2 (lenN pt)))) in
  lenN pt + 1 <= CIPHERTEXT2_SIZE cf -> lenN pt <= 8128 -> lenN m1 <= MSG_MAX_SIZE cf -> lenN m2 <= MSG_MAX_SIZE cf ->
  e_tx e 1 m1 = Ok tt -> e_rx e 2 [m1] = Ok m2 ->
  (forall pk, (sr = false -> pk = key_r) ->
     sig_or_mac_verify cr cf sr st pk prk c_r th2 (rfc_id_cred id_r) cred_r [] MAC_2 field = UB u) ->
  o_ret (initiator_run cr cf pf i creds n e) = UB u.
Proof.
  intros cr cf pf i creds st si sr id_r cred_r key_r g_y g_xy g_rx c_r field e n u K SM HS MS GS RES HR LR CL DRX LY DXY LC LF
    pt m1 th2 prk_2e prk m2 P1 P2 L1 L2 HT RX BAD.
  pose (x := {| x_m1 := m1; x_g_y := g_y; x_g_xy := g_xy; x_static_r := sr; x_g_rx := g_rx; x_static_i := si; x_g_iy := [];
    x_c_r := c_r; x_ctx_c := []; x_id_r := id_r; x_cred_r := cred_r; x_sig_2 := field; x_id_i := KidInt 0; x_cred_i := [];
    x_sig_3 := []; x_mac2_len := 0; x_mac3_len := 0; x_key_len := 0; x_iv_len := 0; x_tag_len := 0 |}).
  assert (EM : m2 = x_m2 (cr_hmac cr) (cr_hash cr) x) by reflexivity.
  destruct RES as (f & RF & FC & FG). destruct (method_type _ _ _ MS) as [MT _].
  unfold initiator_run, initiator_run_extended. rewrite (msg1_gen_fits cr cf i st HS GS L1). fold m1. rewrite HT.
  rewrite (receive_here cf e 2 [m1] m2 RX L2). unfold msg3_gen. rewrite MT.
  assert (P : msg2_process cr cf pf i st (cr_hash cr m1) m2 creds (C_R_SIZE cf) si sr = UB u).
  { rewrite EM. change (msg2_process cr cf pf i st (cr_hash cr (x_m1 x)) (x_m2 (cr_hmac cr) (cr_hash cr) x) creds (C_R_SIZE cf)
      (x_static_i x) (x_static_r x) = UB u).
    rewrite (msg2_process_upto cr cf pf K x i st creds (C_R_SIZE cf) f); try assumption;
      cbn [x x_g_y x_id_r x_g_xy x_c_r x_sig_2 x_cred_r x_static_r x_g_rx x_static_i x_g_iy].
    - change (x_prk_3e2m (cr_hmac cr) (cr_hash cr) x) with prk. change (x_th2 (cr_hash cr) x) with th2.
      rewrite BAD; [reflexivity|]. intros E. rewrite E in FG. exact FG.
    - now apply ssd.
    - unfold small in SM. lia.
    - change (x_pt2 x) with pt. split; [lia|]. rewrite ct2_array_bounds by lia. destruct (_ || _); lia.
    - intros E. apply ssd. rewrite E in FG. cbn in FG. rewrite FG. apply DRX. exact E. }
  rewrite P. reflexivity.
Qed.

(** The conditions of the lemma, except for the field. *)
Definition answers (cr : crypto) (cf : cfg) (pf : platform) (i : initiator) (creds : list other_party_cred) (st : suite) (sr : bool)
    (id_r : cred_id) (cred_r key_r g_y g_xy g_rx c_r field : bytes) (e : env) : Prop :=
  small cf /\ 1 <= lenN (i_suites i) <= 10 /\ (exists si, method_static (i_method i) si sr) /\
  get_suite (last (i_suites i) 0) = Ok st /\
  resolves cr pf sr creds id_r (CRED_R_SIZE cf) cred_r key_r /\ id_range id_r /\
  lenN (rfc_id_cred id_r) <= ID_CRED_R_SIZE cf /\ lenN cred_r <= CRED_MAX_SIZE cf /\
  (sr = true -> dh_secret cr (edhoc_ecdh st) (i_x i) key_r g_rx) /\
  lenN g_y = 32 /\ dh_secret cr (edhoc_ecdh st) (i_x i) g_y g_xy /\ lenN c_r <= C_R_SIZE cf /\ lenN field <= 64 /\
  let pt := rfc_plaintext_2 c_r id_r field [] in
  let m1 := rfc_message_1 (i_method i) (i_suites i) (i_g_x i) (i_c_i i) (i_ead_1 i) in
  let th2 := rfc_th2 (cr_hash cr) g_y m1 in
  let m2 := cbor (CBytes (g_y ++ rfc_xor pt (rfc_kdf (cr_hmac cr) (rfc_prk_2e (cr_hmac cr) th2 g_xy) L_KEYSTREAM_2 th2 (lenN pt)))) in
  lenN pt + 1 <= CIPHERTEXT2_SIZE cf /\ lenN pt <= 8128 /\ lenN m1 <= MSG_MAX_SIZE cf /\ lenN m2 <= MSG_MAX_SIZE cf /\
  e_tx e 1 m1 = Ok tt /\ e_rx e 2 [m1] = Ok m2.

(** An EdDSA signature of less than 64 bytes, or one to be verified with a key of less than
    32: memory that was never written is part of it. *)
Theorem C58_short_signature_refuted :
  forall (cr : crypto) (cf : cfg) (pf : platform) (i : initiator) (creds : list other_party_cred) (st : suite)
    (id_r : cred_id) (cred_r key_r g_y g_xy c_r field : bytes) (e : env) (n : N),
  crypto_ok cr -> answers cr cf pf i creds st false id_r cred_r key_r g_y g_xy [] c_r field e ->
  (forall b, c_r = [b] -> 23 < b) -> edhoc_sign st = EdDSA -> lenN field < 64 \/ lenN key_r < 32 ->
  o_ret (initiator_run cr cf pf i creds n e) = UB Uninit.
Proof.
  intros cr cf pf i creds st id_r cred_r key_r g_y g_xy c_r field e n K
    (SM & HS & (si & MS) & GS & RES & HR & LR & CL & DRX & LY & DXY & LC & LF & P1 & P2 & L1 & L2 & HT & RX) HC ED SH.
  refine (field_2 cr cf pf i creds st si false id_r cred_r key_r g_y g_xy [] c_r field e n Uninit K SM HS MS GS RES HR LR CL DRX LY DXY LC LF
    P1 P2 L1 L2 HT RX _).
  intros pk PK. rewrite (PK eq_refl). clear pk PK.
  assert (RAW : c_r_is_raw_int c_r = false).
  { unfold c_r_is_raw_int. destruct c_r as [|b [|? ?]]; try reflexivity. specialize (HC b eq_refl). apply N.leb_gt. exact HC. }
  assert (TH : lenN (rfc_th2 (cr_hash cr) g_y (rfc_message_1 (i_method i) (i_suites i) (i_g_x i) (i_c_i i) (i_ead_1 i))) = 32) by apply (ok_hash_len cr K).
  unfold sig_or_mac_verify. rewrite mac_fits; try assumption.
  - cbn [bind]. rewrite tbs_fits; try assumption.
    + cbn [bind]. unfold verify. rewrite ED. destruct (N.ltb_spec (lenN field) 64), (N.ltb_spec (lenN key_r) 32); cbn [orb bind]; try reflexivity. lia.
    + rewrite (the_mac_len cr (ok_hmac_len cr K)). apply N.leb_le. reflexivity.
    + unfold ID_CRED_MAX_SIZE. lia.
    + change (lenN (@nil N)) with 0. lia.
    + change (lenN (@nil N)) with 0. unfold small, ID_CRED_MAX_SIZE, CRED_MAX_SIZE in *. lia.
  - exact (ok_hmac_len cr K).
  - reflexivity.
  - pose proof (mac_len_le _ st false GS). lia.
  - unfold ID_CRED_MAX_SIZE. lia.
  - change (lenN (@nil N)) with 0. lia.
  - change (lenN (@nil N)) with 0. unfold small, ID_CRED_MAX_SIZE, CRED_MAX_SIZE in *. lia.
Qed.
Print Assumptions C58_short_signature_refuted.

(** The right MAC and more: the comparison goes on behind the MAC. *)
Theorem C58_extended_mac_refuted :
  forall (cr : crypto) (cf : cfg) (pf : platform) (i : initiator) (creds : list other_party_cred) (st : suite)
    (id_r : cred_id) (cred_r g_r g_y g_xy g_rx c_r field more : bytes) (e : env) (n : N),
  crypto_ok cr -> answers cr cf pf i creds st true id_r cred_r g_r g_y g_xy g_rx c_r field e ->
  (forall b, c_r = [b] -> 23 < b) ->
  let th2 := rfc_th2 (cr_hash cr) g_y (rfc_message_1 (i_method i) (i_suites i) (i_g_x i) (i_c_i i) (i_ead_1 i)) in
  let prk := rfc_prk_next (cr_hmac cr) true (rfc_prk_2e (cr_hmac cr) th2 g_xy) L_SALT_3e2m th2 g_rx in
  field = expected_mac cr prk c_r th2 (rfc_id_cred id_r) cred_r [] L_MAC_2 true st ++ more -> more <> [] -> lenN field <= 32 ->
  o_ret (initiator_run cr cf pf i creds n e) = UB Uninit.
Proof.
  intros cr cf pf i creds st id_r cred_r g_r g_y g_xy g_rx c_r field more e n K
    (SM & HS & (si & MS) & GS & RES & HR & LR & CL & DRX & LY & DXY & LC & LF & P1 & P2 & L1 & L2 & HT & RX) HC th2 prk EF NE L32.
  refine (field_2 cr cf pf i creds st si true id_r cred_r g_r g_y g_xy g_rx c_r field e n Uninit K SM HS MS GS RES HR LR CL DRX LY DXY LC LF
    P1 P2 L1 L2 HT RX _).
  intros pk _. fold th2. fold prk.
  assert (RAW : c_r_is_raw_int c_r = false).
  { unfold c_r_is_raw_int. destruct c_r as [|b [|? ?]]; try reflexivity. specialize (HC b eq_refl). apply N.leb_gt. exact HC. }
  assert (TH : lenN th2 = 32) by apply (ok_hash_len cr K).
  unfold sig_or_mac_verify. rewrite mac_fits; try assumption.
  - cbn [bind]. change HASH_SIZE with 32. destruct (N.ltb_spec 32 (lenN field)); [lia|].
    change (expected_mac cr prk c_r th2 (rfc_id_cred id_r) cred_r [] L_MAC_2 true st) with (the_mac cr prk c_r th2 (rfc_id_cred id_r) cred_r [] MAC_2 true st) in EF.
    set (mm := the_mac cr prk c_r th2 (rfc_id_cred id_r) cred_r [] MAC_2 true st) in *.
    assert (LM : lenN more <> 0) by (intros Q; apply NE, lenN_0, Q).
    rewrite EF at 1. rewrite lenN_app. destruct (N.leb_spec (lenN mm + lenN more) (lenN mm)); [lia|].
    rewrite EF, takeN_app, beqb_refl. reflexivity.
  - exact (ok_hmac_len cr K).
  - reflexivity.
  - pose proof (mac_len_le _ st true GS). lia.
  - unfold ID_CRED_MAX_SIZE. lia.
  - change (lenN (@nil N)) with 0. lia.
  - change (lenN (@nil N)) with 0. unfold small, ID_CRED_MAX_SIZE, CRED_MAX_SIZE in *. lia.
Qed.
Print Assumptions C58_extended_mac_refuted.

(** C_R of one byte up to 23, as RFC 9528 writes small integers: four bytes are read where
    there is one. *)
Theorem C58_c_r_refuted :
  forall (cr : crypto) (cf : cfg) (pf : platform) (i : initiator) (creds : list other_party_cred) (st : suite) (sr : bool)
    (id_r : cred_id) (cred_r key_r g_y g_xy g_rx field : bytes) (b : N) (e : env) (n : N),
  crypto_ok cr -> b <= 23 -> answers cr cf pf i creds st sr id_r cred_r key_r g_y g_xy g_rx [b] field e ->
  o_ret (initiator_run cr cf pf i creds n e) = UB OobRead.
Proof.
  intros cr cf pf i creds st sr id_r cred_r key_r g_y g_xy g_rx field b e n K B23
    (SM & HS & (si & MS) & GS & RES & HR & LR & CL & DRX & LY & DXY & LC & LF & P1 & P2 & L1 & L2 & HT & RX).
  refine (field_2 cr cf pf i creds st si sr id_r cred_r key_r g_y g_xy g_rx [b] field e n OobRead K SM HS MS GS RES HR LR CL DRX LY DXY LC LF
    P1 P2 L1 L2 HT RX _).
  intros pk _. set (th2 := rfc_th2 _ _ _). assert (TH : lenN th2 = 32) by apply (ok_hash_len cr K).
  unfold sig_or_mac_verify, mac. rewrite TH. rewrite new_fits by reflexivity. cbn [bind].
  assert (ET : encode_bstr th2 (as_bstr_size 32) = Ok (enc_bstr th2)).
  { apply encode_bstr_ok. rewrite bstr32_len by exact TH. split; [reflexivity|]. apply N.leb_le. reflexivity. }
  rewrite ET. cbn [bind]. rewrite (enc_bstr32 th2 TH).
  pose proof (as_bstr_mono _ _ LC) as HA. change (lenN (@nil N)) with 0.
  set (cap := as_bstr_size (lenN [b]) + lenN (rfc_id_cred id_r) + lenN cred_r + 0 + 34).
  assert (HCM : as_bstr_size cap <= CONTEXT_MAC_SIZE cf).
  { unfold CONTEXT_MAC_SIZE. apply as_bstr_mono. change (as_bstr_size HASH_SIZE) with 34. unfold cap, ID_CRED_MAX_SIZE. lia. }
  pose proof (as_bstr_lower cap) as HLO. rewrite new_fits by lia. cbn [bind].
  change (lenN [b] =? 0) with false. cbv iota. rewrite new_fits by exact HA. cbn [bind].
  assert (RAW : c_r_is_raw_int [b] = true) by (apply N.leb_le; exact B23). rewrite RAW. reflexivity.
Qed.
Print Assumptions C58_c_r_refuted.

(** Sessions with each of them. *)
Example C58_unusable_id_ex :
  let i0 := toy_initiator 0 [0] [5; 5] [] in
  let r0 := toy_responder [0] [9; 9] in
  let ids := [map1 34 (cbor (CArr [CText [0x61]; CBytes [1; 2]])); map1 4 (cbor (CInt (-3))); map1 4 (cbor (CBytes [1; 2]));
              map1 35 (cbor (CBytes [1; 2])); map1 54 (cbor (CArr [CInt (-15); CBytes [1; 2]]))] in
  Forall unusable_id ids /\
  Forall (fun id => toy_run_2 i0 (fun _ _ => cbor (CBytes [9; 9]) ++ id ++ cbor (CBytes (repeat 0 64))) = UB Uninit /\
                    toy_run_3 i0 r0 (id ++ cbor (CBytes (repeat 0 64))) = UB Uninit) ids.
Proof.
  cbv zeta. split.
  - constructor; [apply un_text; apply N.ltb_lt; reflexivity|]. constructor; [apply un_kid; split; cbn; lia|].
    constructor; [apply (un_bytes 4); [cbn; tauto|apply N.ltb_lt; reflexivity]|].
    constructor; [apply (un_bytes 35); [cbn; tauto|apply N.ltb_lt; reflexivity]|].
    constructor; [apply un_c5t; [split; cbn; lia|apply N.ltb_lt; reflexivity]|]. constructor.
  - repeat (constructor; [split; vm_compute; reflexivity|]). constructor.
Qed.

(** Sessions to which the last three theorems apply: method 0 with a signature of 63 bytes,
    method 0 with C_R = 5, method 3 with the right MAC and another byte. *)
Definition toy_answer (i : initiator) (c_r field : bytes) : env :=
  toy_env (forged_2 i (fun _ _ => rfc_plaintext_2 c_r (KidInt (-3)) field [])) (Err not_implemented).
Definition toy_g_xy : bytes := match shared_secret_derive toy_crypto X25519 (repeat 99 32) (i_g_x (toy_initiator 0 [0] [5; 5] [])) with Ok s => s | _ => [] end.
Definition toy_g_rx : bytes := match shared_secret_derive toy_crypto X25519 (repeat 22 32) (repeat 11 32) with Ok s => s | _ => [] end.
Definition toy_right : bytes :=
  let m1 := rfc_message_1 3 [0] (i_g_x (toy_initiator 3 [0] [5; 5] [])) [5; 5] [] in
  let th2 := rfc_th2 (cr_hash toy_crypto) (repeat 99 32) m1 in
  toy_mac_2 (rfc_prk_2e (cr_hmac toy_crypto) th2 toy_g_xy) th2.
Example C58_field_hypotheses :
  let i0 := toy_initiator 0 [0] [5; 5] [] in let i3 := toy_initiator 3 [0] [5; 5] [] in
  let g_y := repeat 99 32 in
  exists st pk g_r, get_suite 0 = Ok st /\ edhoc_sign st = EdDSA /\
  answers toy_crypto default_cfg toy_pf i0 toy_creds_r st false (KidInt (-3)) toy_cred_r pk g_y toy_g_xy [] [9; 9] (repeat 0 63)
    (toy_answer i0 [9; 9] (repeat 0 63)) /\
  answers toy_crypto default_cfg toy_pf i0 toy_creds_r st false (KidInt (-3)) toy_cred_r pk g_y toy_g_xy [] [5] (repeat 0 64)
    (toy_answer i0 [5] (repeat 0 64)) /\
  answers toy_crypto default_cfg toy_pf i3 toy_creds_r st true (KidInt (-3)) toy_cred_r g_r g_y toy_g_xy toy_g_rx [9; 9] (toy_right ++ [0])
    (toy_answer i3 [9; 9] (toy_right ++ [0])) /\
  toy_run_2 i0 (fun _ _ => rfc_plaintext_2 [9; 9] (KidInt (-3)) (repeat 0 63) []) = UB Uninit /\
  toy_run_2 i0 (fun _ _ => rfc_plaintext_2 [5] (KidInt (-3)) (repeat 0 64) []) = UB OobRead /\
  toy_run_2 i3 (fun _ _ => rfc_plaintext_2 [9; 9] (KidInt (-3)) (toy_right ++ [0]) []) = UB Uninit.
Proof.
  cbv zeta. eexists.
  exists (match retrieve_cred toy_crypto toy_pf false toy_creds_r (Some (rfc_id_cred (KidInt (-3)))) (CRED_R_SIZE default_cfg) with Ok f => f_pk f | _ => [] end).
  exists (match retrieve_cred toy_crypto toy_pf true toy_creds_r (Some (rfc_id_cred (KidInt (-3)))) (CRED_R_SIZE default_cfg) with Ok f => f_g f | _ => [] end).
  split; [reflexivity|]. split; [reflexivity|].
  assert (S : small default_cfg) by (apply N.ltb_lt; vm_compute; reflexivity).
  split; [|split; [|split]].
  - unfold answers. split; [exact S|]. split; [split; apply N.leb_le; reflexivity|]. split; [exists false; constructor|]. split; [reflexivity|].
    split; [eexists; split; [vm_compute; reflexivity|split; vm_compute; reflexivity]|]. split; [cbn; lia|].
    split; [apply N.leb_le; vm_compute; reflexivity|]. split; [apply N.leb_le; vm_compute; reflexivity|]. split; [discriminate|].
    split; [reflexivity|]. split; [split; [vm_compute; reflexivity|intros _; split; reflexivity]|].
    repeat (split; [apply N.leb_le; vm_compute; reflexivity|]). split; vm_compute; reflexivity.
  - unfold answers. split; [exact S|]. split; [split; apply N.leb_le; reflexivity|]. split; [exists false; constructor|]. split; [reflexivity|].
    split; [eexists; split; [vm_compute; reflexivity|split; vm_compute; reflexivity]|]. split; [cbn; lia|].
    split; [apply N.leb_le; vm_compute; reflexivity|]. split; [apply N.leb_le; vm_compute; reflexivity|]. split; [discriminate|].
    split; [reflexivity|]. split; [split; [vm_compute; reflexivity|intros _; split; reflexivity]|].
    repeat (split; [apply N.leb_le; vm_compute; reflexivity|]). split; vm_compute; reflexivity.
  - unfold answers. split; [exact S|]. split; [split; apply N.leb_le; reflexivity|]. split; [exists true; constructor|]. split; [reflexivity|].
    split; [eexists; split; [vm_compute; reflexivity|split; vm_compute; reflexivity]|]. split; [cbn; lia|].
    split; [apply N.leb_le; vm_compute; reflexivity|]. split; [apply N.leb_le; vm_compute; reflexivity|].
    split; [intros _; split; [vm_compute; reflexivity|intros _; split; vm_compute; reflexivity]|].
    split; [reflexivity|]. split; [split; [vm_compute; reflexivity|intros _; split; reflexivity]|].
    repeat (split; [apply N.leb_le; vm_compute; reflexivity|]). split; vm_compute; reflexivity.
  - split; [vm_compute; reflexivity|split; vm_compute; reflexivity].
Qed.
(** A cut certificate, and a certificate with a static key of three bytes (see
    C39_unsigned_key_refuted). *)
Example C58_certificate_ex :
  let i0 := toy_initiator 0 [0] [5; 5] [] in
  let r0 := toy_responder [0] [9; 9] in
  let sig := repeat 0 64 in
  cut_certificate [0x30; 0x10] /\ pf_mbedtls toy_pf = false /\
  toy_run_2 i0 (fun _ _ => rfc_plaintext_2 [9; 9] (X5chain [0x30; 0x10]) sig []) = UB OobRead /\
  toy_run_3 i0 r0 (rfc_plaintext_3 (X5chain [0x30; 0x10]) sig []) = UB OobRead.
Proof. split; [constructor; lia|]. split; [reflexivity|]. split; vm_compute; reflexivity. Qed.
Example C58_short_static_key_ex :
  let id := X5chain (x509 (der 48 (elems ex_els)) (spki [] [1; 2; 3]) (takeN 32 ex_sig) (dropN 32 ex_sig)) in
  let i3 := toy_initiator 3 [0] [5; 5] [] in
  (exists cred, resolves toy_crypto toy_pf true [ex_ca] id (CRED_R_SIZE default_cfg) cred [1; 2; 3]) /\ lenN (i_x i3) = 32 /\
  o_ret (initiator_run toy_crypto default_cfg toy_pf i3 [ex_ca] 32
    (toy_env (forged_2 i3 (fun _ _ => rfc_plaintext_2 [9; 9] id (repeat 0 8) [])) (Err not_implemented))) = UB Uninit.
Proof.
  cbv zeta. split; [|split; [reflexivity|vm_compute; reflexivity]].
  eexists. eexists. split; [vm_compute; reflexivity|]. split; reflexivity.
Qed.
