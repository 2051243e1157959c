(** The message functions of both parties compute what RFC 9528 prescribes. *)
From Verif Require Import Base Proof_Base Model_Common Model_Cbor Proof_Cbor Model_Crypto
  Spec_CborTree Proof_CborTree Spec_Hkdf Proof_Hkdf Spec_Edhoc Model_EdhocCfg Model_EdhocCbor Model_EdhocKeys
  Proof_EdhocBase Model_EdhocCert Model_EdhocMsg Model_EdhocRun Proof_EdhocMsg1 Proof_EdhocMsg.

Lemma enc_bstr_nonempty b : enc_bstr b <> [].
Proof.
  intros Q. apply (f_equal lenN) in Q. rewrite enc_bstr_len in Q. pose proof (head_len_pos (lenN b)).
  change (lenN (@nil N)) with 0 in Q. lia.
Qed.
Lemma pt2_nonempty c i s e : rfc_plaintext_2 c i s e <> [].
Proof.
  unfold rfc_plaintext_2. intros Q. apply app_eq_nil in Q as [_ Q]. apply app_eq_nil in Q as [_ Q].
  apply app_eq_nil in Q as [Q _]. rewrite cbor_bytes in Q. now apply enc_bstr_nonempty in Q.
Qed.
Lemma pt3_nonempty i s e : rfc_plaintext_3 i s e <> [].
Proof.
  unfold rfc_plaintext_3. intros Q. apply app_eq_nil in Q as [_ Q].
  apply app_eq_nil in Q as [Q _]. rewrite cbor_bytes in Q. now apply enc_bstr_nonempty in Q.
Qed.

(** length of the ciphertext array that msg2_process computes from the length of a
    message_2 with an [n]-byte ciphertext *)
Definition ct2_array (n : N) : N :=
  let l := sub32 (head_len (32 + n) + (32 + n)) 32 in sub32 l (bstr_overhead l).
Lemma ct2_array_bounds n : n <= 8128 ->
  ct2_array n = if (n <=? 3) || ((224 <=? n) && (n <=? 252)) then n + 1 else n.
Proof.
  intros H. unfold ct2_array.
  assert (E : head_len (32 + n) = if n <? 224 then 2 else 3).
  { unfold head_len. change (2 ^ 8) with 256. change (2 ^ 16) with 65536.
    destruct (N.ltb_spec (32 + n) 24), (N.ltb_spec (32 + n) 256), (N.ltb_spec (32 + n) 65536),
      (N.ltb_spec n 224); try lia. }
  assert (B : forall m, bstr_overhead m = if m <=? 5 then 1 else if m <=? 255 then 2 else if m <=? 65535 then 3 else 5)
    by reflexivity.
  rewrite E. destruct (N.ltb_spec n 224) as [Q|Q].
  - rewrite (sub32_exact (2 + (32 + n)) 32) by lia. replace (2 + (32 + n) - 32) with (2 + n) by lia. rewrite B.
    destruct (N.leb_spec (2 + n) 5), (N.leb_spec (2 + n) 255), (N.leb_spec n 3), (N.leb_spec 224 n); cbv [orb andb]; cbv iota; try lia;
      rewrite sub32_exact by lia; lia.
  - rewrite (sub32_exact (3 + (32 + n)) 32) by lia. replace (3 + (32 + n) - 32) with (3 + n) by lia. rewrite B.
    destruct (N.leb_spec (3 + n) 5), (N.leb_spec (3 + n) 255), (N.leb_spec (3 + n) 65535), (N.leb_spec n 3), (N.leb_spec 224 n), (N.leb_spec n 252);
      cbv [orb andb]; cbv iota; try lia; rewrite sub32_exact by lia; lia.
Qed.

Section Run.
Variable cr : crypto.
Variable cf : cfg.
Variable pf : platform.
Hypothesis K : crypto_ok cr.

Local Notation hmac := (cr_hmac cr).
Local Notation H := (cr_hash cr).
Local Notation aead := (cr_aead_enc cr).
Local Notation h32 := (ok_hmac_len cr K).

Definition small : Prop :=
  ID_CRED_I_SIZE cf + ID_CRED_R_SIZE cf + CRED_I_SIZE cf + CRED_R_SIZE cf + C_R_SIZE cf + C_I_SIZE cf + EAD_SIZE cf < 2 ^ 30.
Hypothesis HS : small.

(** the size of a ciphertext_2 that passes the checks of the initiator *)
Definition ct2_accepted (n : N) : Prop :=
  n <= 8128 /\ ct2_array n <= CIPHERTEXT2_SIZE cf.
Lemma ct2_accepted_le n : ct2_accepted n -> n <= CIPHERTEXT2_SIZE cf.
Proof. intros [H1 H2]. rewrite ct2_array_bounds in H2 by exact H1. destruct (_ || _) in H2; lia. Qed.
Lemma ct2_array_ge n : n <= 8128 -> n <= ct2_array n.
Proof. intros H1. rewrite ct2_array_bounds by exact H1. destruct (_ || _); lia. Qed.

Lemma ct2_size_ge : 66 <= CIPHERTEXT2_SIZE cf.
Proof. unfold CIPHERTEXT2_SIZE, PLAINTEXT2_SIZE. change (as_bstr_size SIG_OR_MAC_SIZE) with 66. lia. Qed.

Lemma as_bstr_upper x : as_bstr_size x <= 5 + x.
Proof. unfold as_bstr_size, bstr_overhead. destruct (x <=? 5), (x <=? 255), (x <=? 65535); lia. Qed.

Lemma info32 : 38 <= INFO_MAX_SIZE cf.
Proof. pose proof (info_max_ge cf). lia. Qed.
Lemma kdf32 prk label th len : label < 24 -> len <= 8128 -> lenN th = 32 ->
  edhoc_kdf cr cf prk label th len = Ok (rfc_kdf hmac prk label th len).
Proof.
  intros HL Hn HT. apply kdf_fits.
  - exact h32.
  - exact HL.
  - lia.
  - rewrite HT. lia.
  - rewrite HT. apply info32.
Qed.

Lemma len_th2 x : lenN (x_th2 H x) = 32.
Proof. apply (ok_hash_len cr K). Qed.
Lemma len_th3 x : lenN (x_th3 H x) = 32.
Proof. apply (ok_hash_len cr K). Qed.
Lemma len_th4 x : lenN (x_th4 H x) = 32.
Proof. apply (ok_hash_len cr K). Qed.

Lemma th34_run th pt cred : lenN th = 32 -> pt <> [] -> cred <> [] ->
  lenN pt <= PLAINTEXT23_MAX_SIZE cf -> lenN cred <= CRED_MAX_SIZE cf ->
  th34_calculate cr cf th pt cred = Ok (rfc_th34 H th pt cred).
Proof.
  intros HT HP HC LP LC. apply th34_fits; try assumption.
  - unfold PLAINTEXT23_MAX_SIZE, PLAINTEXT2_SIZE, PLAINTEXT3_SIZE, CRED_MAX_SIZE, small in *.
    change (as_bstr_size SIG_OR_MAC_SIZE) with 66 in *. pose proof (as_bstr_upper (C_R_SIZE cf)). lia.
  - unfold TH34_INPUT_SIZE. change (as_bstr_size HASH_SIZE) with 34. lia.
Qed.

Lemma x_ct2_len x : lenN (x_ct2 hmac H x) = lenN (x_pt2 x).
Proof. unfold x_ct2. rewrite rfc_xor_eq. apply xor_len, kdf_len, h32. Qed.
Lemma x_m2_len x : lenN (x_g_y x) = 32 ->
  lenN (x_m2 hmac H x) = head_len (32 + lenN (x_pt2 x)) + (32 + lenN (x_pt2 x)).
Proof. intros HG. unfold x_m2. rewrite cbor_bytes, enc_bstr_len, lenN_app, x_ct2_len, HG. reflexivity. Qed.

(** The initiator on a message_2 with any Signature_or_MAC_2 field, up to the check of
    the field. *)
Lemma msg2_process_upto x (c : initiator) st creds c_cap f :
  lenN (x_g_y x) = 32 -> cid_ok (x_id_r x) ->
  shared_secret_derive cr (edhoc_ecdh st) (i_x c) (x_g_y x) = Ok (x_g_xy x) ->
  lenN (x_c_r x) <= c_cap -> lenN (x_c_r x) < 2 ^ 32 -> lenN (rfc_id_cred (x_id_r x)) <= ID_CRED_R_SIZE cf ->
  lenN (x_sig_2 x) <= 64 -> ct2_accepted (lenN (x_pt2 x)) ->
  retrieve_cred cr pf (x_static_r x) creds (Some (rfc_id_cred (x_id_r x))) (CRED_R_SIZE cf) = Ok f ->
  f_cred f = x_cred_r x ->
  (x_static_r x = true -> shared_secret_derive cr (edhoc_ecdh st) (i_x c) (f_g f) = Ok (x_g_rx x)) ->
  msg2_process cr cf pf c st (H (x_m1 x)) (x_m2 hmac H x) creds c_cap (x_static_i x) (x_static_r x) =
  (let* _ := sig_or_mac_verify cr cf (x_static_r x) st (f_pk f) (x_prk_3e2m hmac H x) (x_c_r x) (x_th2 H x)
               (rfc_id_cred (x_id_r x)) (x_cred_r x) [] MAC_2 (x_sig_2 x) in
   let* th3 := th34_calculate cr cf (x_th2 H x) (x_pt2 x) (x_cred_r x) in
   let* prk_4e3m := prk_derive cr cf (x_static_i x) st SALT_4e3m th3 (x_prk_3e2m hmac H x) (x_g_y x) (i_i c) in
   Ok {| a2_c_r := x_c_r x; a2_ead := []; a2_th3 := th3; a2_prk_3e2m := x_prk_3e2m hmac H x; a2_prk_4e3m := prk_4e3m |}).
Proof.
  intros HG HI HX HC HC' HID HSG HCT HF HFC HRX. pose proof HCT as [HN HA].
  pose proof (ct2_accepted_le _ HCT) as HLE. set (n := lenN (x_pt2 x)) in *.
  unfold msg2_process.
  assert (E32 : get_ecdh_pk_len (edhoc_ecdh st) = 32) by (destruct (edhoc_ecdh st); reflexivity). rewrite E32.
  rewrite new_fits by (apply N.leb_le; reflexivity). cbn [bind].
  rewrite x_m2_len by exact HG. fold n. fold (ct2_array n). rewrite new_fits by exact HA. cbn [bind].
  assert (EP : msg2_parse cf (x_m2 hmac H x) 32 (ct2_array n) = Ok (x_g_y x, x_ct2 hmac H x)).
  { unfold msg2_parse, decode_bstr, x_m2. rewrite cbor_bytes, <- (app_nil_r (enc_bstr _)), dec_enc_bstr.
    - cbn [ext bind]. rewrite check_fits; [cbn [bind]|].
      + rewrite lenN_app, HG, x_ct2_len. fold n. destruct (N.ltb_spec (32 + n) 32); [lia|].
        rewrite <- HG, dropN_app, takeN_app. rewrite copy_null_ok; [reflexivity|].
        rewrite x_ct2_len. fold n. apply ct2_array_ge, HN.
      + rewrite lenN_app, HG, x_ct2_len. fold n. unfold G_Y_CIPHERTEXT_2. change G_Y_SIZE with 32. lia.
    - rewrite lenN_app, HG, x_ct2_len. fold n. lia. }
  rewrite EP. cbn [bind]. rewrite HX. cbn [bind].
  rewrite th2_rfc; [|apply (ok_hash_len cr K)|exact HG]. cbn [bind].
  change (H (rfc_th2_input (x_g_y x) (H (x_m1 x)))) with (x_th2 H x).
  assert (T2 : x_th2 H x <> []) by (intros Q; pose proof (len_th2 x) as L; rewrite Q in L; discriminate).
  rewrite extract_rfc by exact T2. change (hmac (x_th2 H x) (x_g_xy x)) with (x_prk_2e hmac H x).
  rewrite x_ct2_len. fold n. rewrite check_fits by exact HLE. cbn [bind].
  assert (ED : ciphertext2_decrypt_split cr cf st (x_prk_2e hmac H x) (x_th2 H x) (x_ct2 hmac H x) c_cap
                 (ID_CRED_R_SIZE cf) (EAD_SIZE cf) =
          Ok (x_pt2 x, {| sp_c_r := x_c_r x; sp_id_cred := Some (rfc_id_cred (x_id_r x)); sp_sig := x_sig_2 x; sp_ead := [] |})).
  { unfold ciphertext2_decrypt_split. rewrite x_ct2_len. fold n. rewrite new_fits by exact HLE. cbn [bind].
    unfold key_gen_2. rewrite kdf32; [cbn [bind]|reflexivity|exact HN|apply len_th2].
    rewrite aad_rfc by apply len_th2. cbn [bind].
    assert (EX : xor_bytes (x_ct2 hmac H x) (rfc_kdf hmac (x_prk_2e hmac H x) KEYSTREAM_2 (x_th2 H x) n) = x_pt2 x).
    { unfold x_ct2. rewrite rfc_xor_eq. apply xor_xor. apply kdf_len, h32. }
    rewrite EX. unfold x_pt2 at 1. rewrite plaintext2_split_fits; try assumption; try lia.
    - reflexivity.
    - rewrite read_ead_nil. change (lenN (@nil N)) with 0. lia. }
  rewrite ED. cbn [bind sp_id_cred sp_c_r sp_sig sp_ead]. rewrite HF. cbn [bind]. rewrite HFC.
  rewrite (prk_derive_fits cr cf h32 (x_static_r x) st SALT_3e2m (x_th2 H x) (x_prk_2e hmac H x) (f_g f) (i_x c) (x_g_rx x));
    [cbn [bind]|reflexivity|apply len_th2|apply info32|exact HRX].
  change (rfc_prk_next hmac (x_static_r x) (x_prk_2e hmac H x) SALT_3e2m (x_th2 H x) (x_g_rx x))
    with (x_prk_3e2m hmac H x).
  reflexivity.
Qed.
(** ... with a field that its check accepts *)
Lemma msg2_process_any x (c : initiator) st creds c_cap f :
  lenN (x_g_y x) = 32 -> cid_ok (x_id_r x) ->
  shared_secret_derive cr (edhoc_ecdh st) (i_x c) (x_g_y x) = Ok (x_g_xy x) ->
  lenN (x_c_r x) <= c_cap -> lenN (x_c_r x) < 2 ^ 32 -> lenN (rfc_id_cred (x_id_r x)) <= ID_CRED_R_SIZE cf ->
  lenN (x_sig_2 x) <= 64 -> ct2_accepted (lenN (x_pt2 x)) ->
  retrieve_cred cr pf (x_static_r x) creds (Some (rfc_id_cred (x_id_r x))) (CRED_R_SIZE cf) = Ok f ->
  f_cred f = x_cred_r x -> x_cred_r x <> [] -> lenN (x_cred_r x) <= CRED_MAX_SIZE cf ->
  (x_static_r x = true -> shared_secret_derive cr (edhoc_ecdh st) (i_x c) (f_g f) = Ok (x_g_rx x)) ->
  (x_static_i x = true -> shared_secret_derive cr (edhoc_ecdh st) (i_i c) (x_g_y x) = Ok (x_g_iy x)) ->
  sig_or_mac_verify cr cf (x_static_r x) st (f_pk f) (x_prk_3e2m hmac H x) (x_c_r x) (x_th2 H x)
    (rfc_id_cred (x_id_r x)) (x_cred_r x) [] MAC_2 (x_sig_2 x) = Ok tt ->
  msg2_process cr cf pf c st (H (x_m1 x)) (x_m2 hmac H x) creds c_cap (x_static_i x) (x_static_r x) =
  Ok {| a2_c_r := x_c_r x; a2_ead := []; a2_th3 := x_th3 H x; a2_prk_3e2m := x_prk_3e2m hmac H x;
        a2_prk_4e3m := x_prk_4e3m hmac H x |}.
Proof.
  intros HG HI HX HC HC' HID HSG HCT HF HFC HCN HCL HRX HIY HV. pose proof HCT as [HN HA].
  pose proof (ct2_accepted_le _ HCT) as HLE. set (n := lenN (x_pt2 x)) in *.
  rewrite (msg2_process_upto x c st creds c_cap f HG HI HX HC HC' HID HSG HCT HF HFC HRX).
  rewrite HV. cbn [bind].
  rewrite th34_run; [cbn [bind]|apply len_th2|apply pt2_nonempty|exact HCN| |exact HCL].
  2:{ fold n. unfold PLAINTEXT23_MAX_SIZE. unfold CIPHERTEXT2_SIZE in HLE. lia. }
  change (rfc_th34 H (x_th2 H x) (x_pt2 x) (x_cred_r x)) with (x_th3 H x).
  rewrite (prk_derive_fits cr cf h32 (x_static_i x) st SALT_4e3m (x_th3 H x) (x_prk_3e2m hmac H x) (x_g_y x) (i_i c) (x_g_iy x));
    [cbn [bind]|reflexivity|apply len_th3|apply info32|exact HIY].
  reflexivity.
Qed.

Lemma suite_lens l st : get_suite l = Ok st ->
  edhoc_mac_len_static_dh st <= 16 /\ get_aead_key_len (edhoc_aead st) = 16 /\ get_aead_iv_len (edhoc_aead st) = 13 /\
  get_aead_mac_len (edhoc_aead st) = edhoc_mac_len_static_dh st /\ 8 <= edhoc_mac_len_static_dh st.
Proof.
  clear. intros E. unfold get_suite in E. destruct l as [|[[p|p|]|[p|p|]|]]; try discriminate; injection E as <-; cbn; lia.
Qed.
Lemma mac_len_le l st sdh : get_suite l = Ok st -> mac_len sdh st <= 32.
Proof. clear. intros E. apply suite_lens in E. unfold mac_len. destruct sdh; lia. Qed.

(** [s] is a Signature_or_MAC field made with the right key *)
Definition sig_of (sdh : bool) (st : suite) (sk pk tbs mac s : bytes) : Prop :=
  if sdh then s = mac else cr_sign cr (sign_sel (edhoc_sign st)) sk pk tbs = Some s.
Lemma sig_of_len l st sdh sk pk tbs mac s : get_suite l = Ok st -> lenN mac = mac_len sdh st ->
  sig_of sdh st sk pk tbs mac s -> lenN s <= 64.
Proof.
  clear HS. intros E HL HG. unfold sig_of in HG. pose proof (mac_len_le l st sdh E). destruct sdh.
  - subst. lia.
  - rewrite (ok_sign_len cr K _ _ _ _ _ HG). lia.
Qed.

Section Sig.
Variables (l : N) (st : suite) (sdh : bool) (sk pk prk c_r th id_cred cred : bytes) (label : N) (s : bytes).
Hypotheses (HL : get_suite l = Ok st) (HB : label < 24) (HT : lenN th = 32) (HR : c_r_is_raw_int c_r = false)
  (HC : lenN c_r <= C_R_SIZE cf) (HI : lenN id_cred <= ID_CRED_MAX_SIZE cf) (HD : lenN cred <= CRED_MAX_SIZE cf).
Local Notation m := (rfc_mac hmac prk label (rfc_context (mac_c c_r) id_cred th cred []) (mac_len sdh st)).
Hypothesis HG : sig_of sdh st sk pk (rfc_tbs id_cred th cred [] m) m s.

Lemma sums : lenN c_r + lenN id_cred + lenN cred + lenN (@nil N) < 2 ^ 31.
Proof. clear - HS HC HI HD. change (lenN (@nil N)) with 0. unfold small, ID_CRED_MAX_SIZE, CRED_MAX_SIZE in *. lia. Qed.
Lemma mac_here : mac cr cf prk c_r th id_cred cred [] label sdh st = Ok m.
Proof.
  rewrite mac_fits; try assumption; try reflexivity.
  - exact h32.
  - pose proof (mac_len_le l st sdh HL). lia.
  - change (lenN (@nil N)) with 0. lia.
  - apply sums.
Qed.
Lemma tbs_here mm : lenN mm <= 32 -> to_be_signed cf th id_cred cred [] mm = Ok (rfc_tbs id_cred th cred [] mm).
Proof.
  intros HM. pose proof sums. apply tbs_fits; try assumption.
  - change (lenN (@nil N)) with 0. lia.
  - lia.
Qed.
Lemma m_len : lenN m = mac_len sdh st.
Proof. apply kdf_len, h32. Qed.
Lemma generate_fits : sig_or_mac_generate cr cf sdh st sk pk prk c_r th id_cred cred [] label = Ok s.
Proof.
  unfold sig_or_mac_generate. rewrite mac_here. cbn [bind]. unfold sig_of in HG.
  pose proof m_len as ML. pose proof (mac_len_le l st sdh HL) as MM. destruct sdh.
  - now subst s.
  - rewrite tbs_here by lia. cbn [bind]. unfold sign. rewrite HG. reflexivity.
Qed.
Lemma verify_fits pk' :
  (sdh = false -> pk' = pk /\ (sign_sel (edhoc_sign st) = 8 -> 32 <= lenN pk) /\
     forall m s, cr_sign cr (sign_sel (edhoc_sign st)) sk pk m = Some s ->
                 cr_verify cr (sign_sel (edhoc_sign st)) pk m s = Some true) ->
  sig_or_mac_verify cr cf sdh st pk' prk c_r th id_cred cred [] label s = Ok tt.
Proof.
  intros HP. unfold sig_or_mac_verify. rewrite mac_here. cbn [bind]. unfold sig_of in HG.
  pose proof m_len as ML. pose proof (mac_len_le l st sdh HL) as MM. destruct sdh.
  - subst s. change HASH_SIZE with 32.
    match goal with |- context [32 <? ?x] => destruct (N.ltb_spec 32 x); [lia|] end. rewrite N.leb_refl. rewrite takeN_all by lia. rewrite beqb_refl. reflexivity.
  - destruct (HP eq_refl) as (-> & P32 & PV). rewrite tbs_here by lia. cbn [bind].
    pose proof (ok_sign_len cr K _ _ _ _ _ HG) as L64. pose proof (PV _ _ HG) as V.
    unfold verify. destruct (edhoc_sign st); cbn [sign_sel] in *.
    + rewrite V. reflexivity.
    + rewrite L64. change (64 <? 64) with false. specialize (P32 eq_refl).
      destruct (N.ltb_spec (lenN pk) 32); [lia|]. cbn [orb]. rewrite takeN_all by lia. rewrite V. reflexivity.
Qed.
End Sig.

Lemma id_compact_len i : lenN (rfc_id_cred_compact i) <= lenN (rfc_id_cred i).
Proof.
  clear. destruct i as [z|c|a h]; cbn [rfc_id_cred_compact]; try lia.
  unfold rfc_id_cred, map1. rewrite !lenN_app. lia.
Qed.
Lemma pt2_len c i s : lenN c < 2 ^ 32 -> lenN s <= 64 ->
  lenN (rfc_plaintext_2 c i s []) <= as_bstr_size (lenN c) + lenN (rfc_id_cred i) + as_bstr_size (lenN s) + lenN (@nil N).
Proof.
  clear. intros HC HSG. unfold rfc_plaintext_2. rewrite !lenN_app. change (lenN (@nil N)) with 0. rewrite cbor_bytes.
  pose proof (conn_id_len c HC). pose proof (id_compact_len i). pose proof (as_bstr_ge s ltac:(lia)). lia.
Qed.
Lemma pt3_len i s : lenN s <= 64 ->
  lenN (rfc_plaintext_3 i s []) <= lenN (rfc_id_cred i) + as_bstr_size SIG_OR_MAC_SIZE.
Proof.
  clear. intros HSG. unfold rfc_plaintext_3. rewrite !lenN_app. change (lenN (@nil N)) with 0. rewrite cbor_bytes.
  pose proof (id_compact_len i). pose proof (as_bstr_ge s ltac:(lia)). pose proof (as_bstr_mono (lenN s) SIG_OR_MAC_SIZE HSG). lia.
Qed.

(** The responder's message_2 *)
Lemma msg2_gen_fits x l (c : responder) st ci_cap me su g_x c_i ead :
  msg1_parse cf (x_m1 x) ci_cap = Ok (me, su, g_x, c_i, ead) -> r_suites c <> [] ->
  l = last su 0 -> get_suite l = Ok st ->
  authentication_type_get me (false, false) = (x_static_i x, x_static_r x) ->
  x_g_y x = r_g_y c -> lenN (r_g_y c) = 32 ->
  shared_secret_derive cr (edhoc_ecdh st) (r_y c) g_x = Ok (x_g_xy x) ->
  (x_static_r x = true -> shared_secret_derive cr (edhoc_ecdh st) (r_r c) g_x = Ok (x_g_rx x)) ->
  x_c_r x = r_c_r c -> x_ctx_c x = mac_c (r_c_r c) -> r_id_cred c = rfc_id_cred (x_id_r x) -> cid_ok (x_id_r x) ->
  r_cred c = x_cred_r x -> r_ead_2 c = [] -> x_mac2_len x = mac_len (x_static_r x) st ->
  sig_of (x_static_r x) st (r_sk c) (r_pk c) (x_tbs_2 hmac H x) (x_mac_2 hmac H x) (x_sig_2 x) ->
  c_r_is_raw_int (r_c_r c) = false -> lenN (r_c_r c) <= C_R_SIZE cf -> lenN (r_c_r c) <= C_I_SIZE cf ->
  lenN (r_id_cred c) <= ID_CRED_I_SIZE cf -> lenN (r_cred c) <= CRED_MAX_SIZE cf -> r_cred c <> [] ->
  lenN (x_pt2 x) <= 8128 -> lenN (x_m2 hmac H x) <= MSG_MAX_SIZE cf ->
  msg2_gen cr cf c (x_m1 x) ci_cap =
  Ok (c_i, {| rr_suite := st; rr_static_i := x_static_i x; rr_th3 := x_th3 H x; rr_prk_3e2m := x_prk_3e2m hmac H x;
              rr_ead := match ead with Some b => b | None => repeat 0 (N.to_nat (EAD_SIZE cf)) end;
              rr_msg := x_m2 hmac H x |}).
Proof.
  intros HP HSU -> HST HAT EGY HGY HX HRX EC ECC EID HID ECR HE HML HSG HRAW HC1 HC2 HI1 HD HDN HP2 HM2.
  unfold msg2_gen. rewrite HP. cbn [bind]. unfold selected_suite_is_supported.
  destruct (r_suites c) as [|s0 sl]; [congruence|]. cbn [negb]. rewrite HST. cbn [bind]. rewrite HAT.
  rewrite th2_rfc; [|apply (ok_hash_len cr K)|exact HGY]. cbn [bind].
  assert (ET : H (rfc_th2_input (r_g_y c) (H (x_m1 x))) = x_th2 H x) by (unfold x_th2, rfc_th2; rewrite EGY; reflexivity).
  rewrite ET. rewrite HX. cbn [bind].
  assert (T2 : x_th2 H x <> []) by (intros Q; pose proof (len_th2 x) as L; rewrite Q in L; discriminate).
  rewrite extract_rfc by exact T2. change (hmac (x_th2 H x) (x_g_xy x)) with (x_prk_2e hmac H x).
  rewrite (prk_derive_fits cr cf h32 (x_static_r x) st SALT_3e2m (x_th2 H x) (x_prk_2e hmac H x) g_x (r_r c) (x_g_rx x));
    [cbn [bind]|reflexivity|apply len_th2|apply info32|exact HRX].
  change (rfc_prk_next hmac (x_static_r x) (x_prk_2e hmac H x) SALT_3e2m (x_th2 H x) (x_g_rx x))
    with (x_prk_3e2m hmac H x).
  assert (IDM : lenN (rfc_id_cred (x_id_r x)) <= ID_CRED_MAX_SIZE cf) by (rewrite <- EID; unfold ID_CRED_MAX_SIZE; lia).
  assert (EM : x_mac_2 hmac H x = rfc_mac hmac (x_prk_3e2m hmac H x) MAC_2
            (rfc_context (mac_c (r_c_r c)) (rfc_id_cred (x_id_r x)) (x_th2 H x) (x_cred_r x) []) (mac_len (x_static_r x) st))
    by (unfold x_mac_2; rewrite ECC, HML; reflexivity).
  assert (LSG : lenN (x_sig_2 x) <= 64).
  { eapply sig_of_len; [exact HST| |exact HSG]. rewrite EM. apply kdf_len, h32. }
  rewrite HE, EID, ECR in *.
  rewrite (generate_fits (last su 0) st (x_static_r x) (r_sk c) (r_pk c) (x_prk_3e2m hmac H x) (r_c_r c) (x_th2 H x)
    (rfc_id_cred (x_id_r x)) (x_cred_r x) MAC_2 (x_sig_2 x) HST (eq_refl _) (len_th2 x) HRAW HC1 IDM HD);
    [cbn [bind]|rewrite <- EM; exact HSG].
  assert (C32 : lenN (r_c_r c) < 2 ^ 32) by (unfold small in HS; lia).
  pose proof (pt2_len (r_c_r c) (x_id_r x) (x_sig_2 x) C32 LSG) as PL.
  assert (EPT : x_pt2 x = rfc_plaintext_2 (r_c_r c) (x_id_r x) (x_sig_2 x) []) by (unfold x_pt2; now rewrite EC).
  rewrite <- EPT in PL.
  set (pcap := as_bstr_size (lenN (r_c_r c)) + lenN (rfc_id_cred (x_id_r x)) + as_bstr_size (lenN (x_sig_2 x)) + lenN (@nil N)) in *.
  assert (PC : pcap <= PLAINTEXT2_SIZE cf).
  { unfold pcap, PLAINTEXT2_SIZE. change (lenN (@nil N)) with 0. pose proof (as_bstr_mono _ _ HC1).
    pose proof (as_bstr_mono (lenN (x_sig_2 x)) SIG_OR_MAC_SIZE LSG). lia. }
  rewrite new_fits by exact PC. cbn [bind].
  unfold ciphertext2_gen. rewrite plaintext2_gen_fits; [cbn [bind]|exact HID|exact HC2|exact C32|exact LSG|rewrite <- EPT; exact PL].
  rewrite <- EPT. rewrite new_fits by (unfold CIPHERTEXT2_SIZE; lia). cbn [bind]. unfold key_gen_2.
  rewrite kdf32; [cbn [bind]|reflexivity|exact HP2|apply len_th2].
  destruct (N.ltb_spec (CIPHERTEXT2_SIZE cf) (lenN (x_pt2 x))) as [Q|Q]; [unfold CIPHERTEXT2_SIZE in Q; lia|]. cbn [bind].
  assert (EX : xor_bytes (x_pt2 x) (rfc_kdf hmac (x_prk_2e hmac H x) KEYSTREAM_2 (x_th2 H x) (lenN (x_pt2 x))) = x_ct2 hmac H x)
    by (unfold x_ct2; rewrite rfc_xor_eq; reflexivity).
  rewrite EX. unfold msg2_encode. rewrite x_ct2_len, HGY.
  rewrite new_fits by (unfold G_Y_CIPHERTEXT_2, CIPHERTEXT2_SIZE; change G_Y_SIZE with 32; lia). cbn [bind].
  assert (EE : encode_bstr (r_g_y c ++ x_ct2 hmac H x) (MSG_MAX_SIZE cf) = Ok (x_m2 hmac H x)).
  { apply encode_bstr_ok. unfold x_m2 in *. rewrite EGY, cbor_bytes in *. split; [reflexivity|exact HM2]. }
  rewrite EE. cbn [bind].
  rewrite th34_run; [cbn [bind]|apply len_th2|rewrite EPT; apply pt2_nonempty|exact HDN| |exact HD].
  - reflexivity.
  - unfold PLAINTEXT23_MAX_SIZE. lia.
Qed.

(** The initiator's message_3; [cap] is the length of the array with the received message_2 *)
Lemma msg3_message_core x l (c : initiator) st cap ct3 cr' ead :
  get_suite l = Ok st ->
  x_mac3_len x = mac_len (x_static_i x) st -> x_key_len x = 16 -> x_iv_len x = 13 ->
  x_tag_len x = get_aead_mac_len (edhoc_aead st) ->
  i_id_cred c = rfc_id_cred (x_id_i x) -> cid_ok (x_id_i x) -> i_cred c = x_cred_i x -> i_ead_3 c = [] ->
  sig_of (x_static_i x) st (i_sk c) (i_pk c) (x_tbs_3 hmac H x) (x_mac_3 hmac H x) (x_sig_3 x) ->
  x_ct3 hmac H aead x = Some ct3 ->
  lenN (i_id_cred c) <= ID_CRED_I_SIZE cf -> lenN (i_cred c) <= CRED_MAX_SIZE cf -> i_cred c <> [] ->
  as_bstr_size (lenN (i_id_cred c) + 66) + get_aead_mac_len (edhoc_aead st) <= CIPHERTEXT3_SIZE cf ->
  msg3_message cr cf c st (x_static_i x)
    {| a2_c_r := cr'; a2_ead := ead; a2_th3 := x_th3 H x; a2_prk_3e2m := x_prk_3e2m hmac H x;
       a2_prk_4e3m := x_prk_4e3m hmac H x |} cap =
  match encode_bstr ct3 cap with
  | Ok m3 => Ok (x_pt3 x, m3)
  | Err e => Err e
  | UB u => UB u
  end.
Proof.
  intros HST HML HKL HIL HTL EID HID ECR HE HSG HCT HI HD HDN HC3.
  pose proof (suite_lens l st HST) as (S1 & S2 & S3 & S4 & S5).
  unfold msg3_message. cbn [a2_th3 a2_prk_4e3m a2_prk_3e2m]. rewrite HE, EID, ECR in *.
  change (lenN (@nil N)) with 0. change (as_bstr_size SIG_OR_MAC_SIZE) with 66. rewrite N.add_0_r.
  assert (P3 : lenN (rfc_id_cred (x_id_i x)) + 66 <= PLAINTEXT3_SIZE cf)
    by (unfold PLAINTEXT3_SIZE; change (as_bstr_size SIG_OR_MAC_SIZE) with 66; lia).
  rewrite new_fits by exact P3. cbn [bind]. rewrite new_fits by exact HC3. cbn [bind].
  assert (IDM : lenN (rfc_id_cred (x_id_i x)) <= ID_CRED_MAX_SIZE cf) by (unfold ID_CRED_MAX_SIZE; lia).
  assert (EM : x_mac_3 hmac H x = rfc_mac hmac (x_prk_4e3m hmac H x) MAC_3
            (rfc_context (mac_c []) (rfc_id_cred (x_id_i x)) (x_th3 H x) (x_cred_i x) []) (mac_len (x_static_i x) st))
    by (unfold x_mac_3; rewrite HML; reflexivity).
  assert (LSG : lenN (x_sig_3 x) <= 64).
  { eapply sig_of_len; [exact HST| |exact HSG]. rewrite EM. apply kdf_len, h32. }
  rewrite (generate_fits l st (x_static_i x) (i_sk c) (i_pk c) (x_prk_4e3m hmac H x) [] (x_th3 H x)
    (rfc_id_cred (x_id_i x)) (x_cred_i x) MAC_3 (x_sig_3 x) HST (eq_refl _) (len_th3 x) (eq_refl _)
    (N.le_0_l _) IDM HD); [cbn [bind]|rewrite <- EM; exact HSG].
  pose proof (pt3_len (x_id_i x) (x_sig_3 x) LSG) as PL. change (as_bstr_size SIG_OR_MAC_SIZE) with 66 in PL.
  change (rfc_plaintext_3 (x_id_i x) (x_sig_3 x) []) with (x_pt3 x) in PL.
  unfold ciphertext3_gen. rewrite plaintext3_gen_fits; [cbn [bind]|exact HID|exact LSG|exact PL].
  change (rfc_plaintext_3 (x_id_i x) (x_sig_3 x) []) with (x_pt3 x).
  rewrite S2. pose proof ct2_size_ge as CG. rewrite new_fits by lia. cbn [bind]. unfold key_gen_3.
  rewrite S2, S3. rewrite (kdf32 _ K_3); [cbn [bind]|reflexivity|lia|apply len_th3].
  rewrite (kdf32 _ IV_3); [cbn [bind]|reflexivity|lia|apply len_th3].
  rewrite aad_rfc by apply len_th3. cbn [bind].
  assert (LAB : lenN (x_pt3 x) + get_aead_mac_len (edhoc_aead st) <= CIPHERTEXT3_SIZE cf).
  { pose proof (as_bstr_lower (lenN (rfc_id_cred (x_id_i x)) + 66)). lia. }
  destruct (N.ltb_spec (CIPHERTEXT3_SIZE cf) (lenN (x_pt3 x) + get_aead_mac_len (edhoc_aead st))) as [Q|Q]; [lia|].
  unfold x_ct3 in HCT. rewrite HKL, HIL, HTL in HCT. change L_K_3 with K_3 in HCT. change L_IV_3 with IV_3 in HCT.
  rewrite HCT. cbn [ext bind].
  destruct (encode_bstr ct3 cap) as [m3|e|u]; reflexivity.
Qed.
Lemma th4_core x (c : initiator) : i_cred c = x_cred_i x -> lenN (i_cred c) <= CRED_MAX_SIZE cf -> i_cred c <> [] ->
  lenN (i_id_cred c) <= ID_CRED_I_SIZE cf -> i_id_cred c = rfc_id_cred (x_id_i x) -> lenN (x_sig_3 x) <= 64 ->
  th34_calculate cr cf (x_th3 H x) (x_pt3 x) (i_cred c) = Ok (x_th4 H x).
Proof.
  intros ECR HD HDN HI EID LSG. rewrite ECR in *. rewrite EID in HI.
  pose proof (pt3_len (x_id_i x) (x_sig_3 x) LSG) as PL. change (as_bstr_size SIG_OR_MAC_SIZE) with 66 in PL.
  change (rfc_plaintext_3 (x_id_i x) (x_sig_3 x) []) with (x_pt3 x) in PL.
  rewrite th34_run; [reflexivity|apply len_th3|apply pt3_nonempty|exact HDN| |exact HD].
  unfold PLAINTEXT23_MAX_SIZE, PLAINTEXT3_SIZE. change (as_bstr_size SIG_OR_MAC_SIZE) with 66. lia.
Qed.
Lemma msg3_gen_core x l (c : initiator) st msg prk_len ct3 cr' ead :
  get_suite l = Ok st ->
  x_mac3_len x = mac_len (x_static_i x) st -> x_key_len x = 16 -> x_iv_len x = 13 ->
  x_tag_len x = get_aead_mac_len (edhoc_aead st) ->
  i_id_cred c = rfc_id_cred (x_id_i x) -> cid_ok (x_id_i x) -> i_cred c = x_cred_i x -> i_ead_3 c = [] ->
  sig_of (x_static_i x) st (i_sk c) (i_pk c) (x_tbs_3 hmac H x) (x_mac_3 hmac H x) (x_sig_3 x) ->
  x_ct3 hmac H aead x = Some ct3 ->
  lenN (i_id_cred c) <= ID_CRED_I_SIZE cf -> lenN (i_cred c) <= CRED_MAX_SIZE cf -> i_cred c <> [] ->
  as_bstr_size (lenN (i_id_cred c) + 66) + get_aead_mac_len (edhoc_aead st) <= CIPHERTEXT3_SIZE cf ->
  prk_len <= 8128 ->
  msg3_only_gen cr cf c st (x_static_i x)
    {| a2_c_r := cr'; a2_ead := ead; a2_th3 := x_th3 H x; a2_prk_3e2m := x_prk_3e2m hmac H x;
       a2_prk_4e3m := x_prk_4e3m hmac H x |} msg prk_len =
  match encode_bstr ct3 (lenN msg) with
  | Ok m3 => (m3, Ok (x_prk_out hmac H x prk_len))
  | Err e => (msg, Err e)
  | UB u => (msg, UB u)
  end.
Proof.
  intros HST HML HKL HIL HTL EID HID ECR HE HSG HCT HI HD HDN HC3 HPL.
  unfold msg3_only_gen. rewrite (msg3_message_core x l c st (lenN msg) ct3 cr' ead) by assumption.
  cbn [a2_th3 a2_prk_4e3m a2_prk_3e2m].
  destruct (encode_bstr ct3 (lenN msg)) as [m3|e|u]; [|reflexivity|reflexivity]. f_equal.
  assert (EM : x_mac_3 hmac H x = rfc_mac hmac (x_prk_4e3m hmac H x) MAC_3
            (rfc_context (mac_c []) (rfc_id_cred (x_id_i x)) (x_th3 H x) (x_cred_i x) []) (mac_len (x_static_i x) st))
    by (unfold x_mac_3; rewrite HML; reflexivity).
  assert (LSG : lenN (x_sig_3 x) <= 64).
  { eapply sig_of_len; [exact HST| |exact HSG]. rewrite EM. apply kdf_len, h32. }
  rewrite th4_core by assumption. cbn [bind].
  rewrite kdf32; [reflexivity|reflexivity|exact HPL|apply len_th4].
Qed.

(** The responder on message_3 *)
Lemma msg3_process_full_fits x l (c : responder) st creds prk_len ct3 f ead m2 :
  get_suite l = Ok st ->
  x_mac3_len x = mac_len (x_static_i x) st -> x_key_len x = 16 -> x_iv_len x = 13 ->
  x_tag_len x = get_aead_mac_len (edhoc_aead st) ->
  cid_ok (x_id_i x) -> x_ct3 hmac H aead x = Some ct3 ->
  retrieve_cred cr pf (x_static_i x) creds (Some (rfc_id_cred (x_id_i x))) (CRED_I_SIZE cf) = Ok f ->
  f_cred f = x_cred_i x -> x_cred_i x <> [] -> lenN (x_cred_i x) <= CRED_MAX_SIZE cf ->
  (x_static_i x = true -> shared_secret_derive cr (edhoc_ecdh st) (r_y c) (f_g f) = Ok (x_g_iy x)) ->
  sig_or_mac_verify cr cf (x_static_i x) st (f_pk f) (x_prk_4e3m hmac H x) [] (x_th3 H x)
    (rfc_id_cred (x_id_i x)) (x_cred_i x) [] MAC_3 (x_sig_3 x) = Ok tt ->
  lenN (rfc_id_cred (x_id_i x)) <= ID_CRED_I_SIZE cf -> lenN (x_sig_3 x) <= 64 ->
  lenN (cbor (CBytes ct3)) <= CIPHERTEXT3_SIZE cf -> prk_len <= 8128 ->
  msg3_process_full cr cf pf c
    {| rr_suite := st; rr_static_i := x_static_i x; rr_th3 := x_th3 H x; rr_prk_3e2m := x_prk_3e2m hmac H x;
       rr_ead := ead; rr_msg := m2 |} (cbor (CBytes ct3)) creds prk_len =
  Ok ([], f_pk f, x_prk_out hmac H x prk_len, (x_prk_4e3m hmac H x, x_th4 H x)).
Proof.
  intros HST HML HKL HIL HTL HID HCT HF HFC HCN HCL HIY HV HI LSG HM3 HPL.
  pose proof (suite_lens l st HST) as (S1 & S2 & S3 & S4 & S5).
  unfold msg3_process_full. cbn [rr_suite rr_th3 rr_prk_3e2m rr_static_i rr_ead].
  rewrite new_fits by exact HM3. cbn [bind].
  assert (LC : lenN ct3 = lenN (x_pt3 x) + x_tag_len x) by (unfold x_ct3 in HCT; apply (ok_aead_enc_len cr K _ _ _ _ _ _ HCT)).
  assert (LB : lenN ct3 <= lenN (cbor (CBytes ct3))) by (rewrite cbor_bytes, enc_bstr_len; lia).
  pose proof (pt3_len (x_id_i x) (x_sig_3 x) LSG) as PL.
  change (rfc_plaintext_3 (x_id_i x) (x_sig_3 x) []) with (x_pt3 x) in PL.
  assert (P3 : lenN (x_pt3 x) <= PLAINTEXT3_SIZE cf) by (unfold PLAINTEXT3_SIZE; lia).
  assert (ED : decode_bstr (cbor (CBytes ct3)) (lenN (cbor (CBytes ct3))) = Ok ct3).
  { unfold decode_bstr. rewrite cbor_bytes in *.
    assert (Q : dec_bstr (enc_bstr ct3) = Some (ct3, [])).
    { rewrite <- (app_nil_r (enc_bstr ct3)) at 1. apply dec_enc_bstr.
      unfold CIPHERTEXT3_SIZE, PLAINTEXT3_SIZE, small in *. change (as_bstr_size SIG_OR_MAC_SIZE) with 66 in *.
      change MAC_SIZE with 16 in *. lia. }
    rewrite Q. cbn [ext bind]. rewrite check_fits by exact LB. reflexivity. }
  rewrite ED. cbn [bind]. rewrite new_fits by (rewrite LC, HTL; lia). cbn [bind].
  unfold ciphertext3_decrypt_split. rewrite S2. pose proof ct2_size_ge as CG. rewrite new_fits by lia. cbn [bind].
  unfold key_gen_3. rewrite S2, S3. rewrite (kdf32 _ K_3); [cbn [bind]|reflexivity|lia|apply len_th3].
  rewrite (kdf32 _ IV_3); [cbn [bind]|reflexivity|lia|apply len_th3].
  rewrite aad_rfc by apply len_th3. cbn [bind].
  destruct (N.ltb_spec (lenN ct3) (get_aead_mac_len (edhoc_aead st))) as [Q|Q]; [lia|].
  unfold x_ct3 in HCT. rewrite HKL, HIL, HTL in HCT. change L_K_3 with K_3 in HCT. change L_IV_3 with IV_3 in HCT.
  rewrite (ok_aead cr K _ _ _ _ _ _ HCT). cbn [ext bind].
  unfold x_pt3 at 1. rewrite plaintext3_split_fits; try assumption;
    [cbn [bind]|rewrite read_ead_nil; change (lenN (@nil N)) with 0; lia].
  cbn [sp_id_cred sp_sig sp_ead]. rewrite HF. cbn [bind]. rewrite HFC.
  rewrite (prk_derive_fits cr cf h32 (x_static_i x) st SALT_4e3m (x_th3 H x) (x_prk_3e2m hmac H x) (f_g f) (r_y c) (x_g_iy x));
    [cbn [bind]|reflexivity|apply len_th3|apply info32|exact HIY].
  change (rfc_prk_next hmac (x_static_i x) (x_prk_3e2m hmac H x) SALT_4e3m (x_th3 H x) (x_g_iy x))
    with (x_prk_4e3m hmac H x).
  rewrite read_ead_nil. rewrite HV. cbn [bind].
  rewrite th34_run; [cbn [bind]|apply len_th3|apply pt3_nonempty|exact HCN| |exact HCL].
  - change (rfc_th34 H (x_th3 H x) (x_pt3 x) (x_cred_i x)) with (x_th4 H x).
    rewrite kdf32; [reflexivity|reflexivity|exact HPL|apply len_th4].
  - unfold PLAINTEXT23_MAX_SIZE. lia.
Qed.
Lemma msg3_process_fits x l (c : responder) st creds prk_len ct3 f ead m2 :
  get_suite l = Ok st ->
  x_mac3_len x = mac_len (x_static_i x) st -> x_key_len x = 16 -> x_iv_len x = 13 ->
  x_tag_len x = get_aead_mac_len (edhoc_aead st) ->
  cid_ok (x_id_i x) -> x_ct3 hmac H aead x = Some ct3 ->
  retrieve_cred cr pf (x_static_i x) creds (Some (rfc_id_cred (x_id_i x))) (CRED_I_SIZE cf) = Ok f ->
  f_cred f = x_cred_i x -> x_cred_i x <> [] -> lenN (x_cred_i x) <= CRED_MAX_SIZE cf ->
  (x_static_i x = true -> shared_secret_derive cr (edhoc_ecdh st) (r_y c) (f_g f) = Ok (x_g_iy x)) ->
  sig_or_mac_verify cr cf (x_static_i x) st (f_pk f) (x_prk_4e3m hmac H x) [] (x_th3 H x)
    (rfc_id_cred (x_id_i x)) (x_cred_i x) [] MAC_3 (x_sig_3 x) = Ok tt ->
  lenN (rfc_id_cred (x_id_i x)) <= ID_CRED_I_SIZE cf -> lenN (x_sig_3 x) <= 64 ->
  lenN (cbor (CBytes ct3)) <= CIPHERTEXT3_SIZE cf -> prk_len <= 8128 ->
  msg3_process cr cf pf c
    {| rr_suite := st; rr_static_i := x_static_i x; rr_th3 := x_th3 H x; rr_prk_3e2m := x_prk_3e2m hmac H x;
       rr_ead := ead; rr_msg := m2 |} (cbor (CBytes ct3)) creds prk_len =
  Ok ([], f_pk f, x_prk_out hmac H x prk_len).
Proof.
  intros. unfold msg3_process. erewrite msg3_process_full_fits by eassumption. reflexivity.
Qed.
End Run.
