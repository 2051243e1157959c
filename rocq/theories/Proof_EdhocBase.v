(** The EDHOC codecs and the key schedule functions against RFC 9528. *)
From Verif Require Import Base Proof_Base Model_Common Model_Cbor Proof_Cbor Model_Crypto
  Spec_CborTree Proof_CborTree Spec_Hkdf Proof_Hkdf Spec_Edhoc
  Model_EdhocCfg Model_EdhocCbor Model_EdhocKeys Model_OscorePrims.

Lemma check_ok a b u : check_buffer_size a b = Ok u <-> b <= a.
Proof.
  unfold check_buffer_size. destruct (N.ltb_spec a b); split; intros H'; try discriminate; try lia.
  destruct u. reflexivity.
Qed.
Lemma check_fits a b : b <= a -> check_buffer_size a b = Ok tt.
Proof. intros. apply check_ok. assumption. Qed.
Lemma new_fits a b : b <= a -> byte_array_new a b = Ok tt.
Proof. apply check_fits. Qed.
Lemma new_ok a b u : byte_array_new a b = Ok u <-> b <= a.
Proof. apply check_ok. Qed.
Lemma put_fits cap b : lenN b <= cap -> cbor_put cap b = Ok b.
Proof. intros H. apply cbor_put_ok. auto. Qed.
Lemma ext_ok {A} (o : option A) a : ext o = Ok a <-> o = Some a.
Proof. destruct o; cbn; split; intros H; congruence. Qed.

Lemma overhead_ge x : x < 2 ^ 32 -> head_len x <= bstr_overhead x.
Proof.
  intros Hx. unfold head_len, bstr_overhead.
  change (2 ^ 8) with 256. change (2 ^ 16) with 65536.
  destruct (N.ltb_spec x 24), (N.ltb_spec x 256), (N.ltb_spec x 65536), (N.ltb_spec x (2 ^ 32)),
    (N.leb_spec x 5), (N.leb_spec x 255), (N.leb_spec x 65535); lia.
Qed.
Lemma head_len_pos x : 1 <= head_len x.
Proof. unfold head_len. repeat destruct (_ <? _); lia. Qed.
Lemma head_len_le x : x < 2 ^ 32 -> head_len x <= 5.
Proof. intros. unfold head_len. destruct (x <? 24), (x <? 2 ^ 8), (x <? 2 ^ 16), (N.ltb_spec x (2 ^ 32)); lia. Qed.
Lemma head_len_small x : x < 24 -> head_len x = 1.
Proof. intros. unfold head_len. destruct (N.ltb_spec x 24); lia. Qed.
Lemma head_len_mono x y : x <= y -> head_len x <= head_len y.
Proof.
  intros. unfold head_len. change (2 ^ 8) with 256. change (2 ^ 16) with 65536.
  destruct (N.ltb_spec x 24), (N.ltb_spec x 256), (N.ltb_spec x 65536), (N.ltb_spec x (2 ^ 32)),
    (N.ltb_spec y 24), (N.ltb_spec y 256), (N.ltb_spec y 65536), (N.ltb_spec y (2 ^ 32)); lia.
Qed.
Lemma as_bstr_ge b : lenN b < 2 ^ 32 -> lenN (enc_bstr b) <= as_bstr_size (lenN b).
Proof. intros H. rewrite enc_bstr_len. unfold as_bstr_size. pose proof (overhead_ge _ H). lia. Qed.
Lemma encode_bstr_fits b : lenN b < 2 ^ 32 -> encode_bstr b (as_bstr_size (lenN b)) = Ok (enc_bstr b).
Proof. intros H. apply put_fits, as_bstr_ge, H. Qed.
Lemma encode_bstr_ok b cap e : encode_bstr b cap = Ok e <-> e = enc_bstr b /\ lenN (enc_bstr b) <= cap.
Proof. apply cbor_put_ok. Qed.

Lemma enc_uint_int n : enc_uint n = enc_int (Z.of_N n).
Proof.
  unfold enc_uint, enc_int. destruct (Z.leb_spec 0 (Z.of_N n)); [|lia]. now rewrite N2Z.id.
Qed.
Lemma info_rfc label ctx len : enc_edhoc_info label ctx len = rfc_edhoc_info label ctx len.
Proof.
  unfold enc_edhoc_info, rfc_edhoc_info. cbor_norm. rewrite !enc_uint_int. reflexivity.
Qed.

Lemma bstr32_len (b : bytes) : lenN b = 32 -> lenN (enc_bstr b) = 34.
Proof. intros H. rewrite enc_bstr_len, H. reflexivity. Qed.

Section Keys.
Variable cr : crypto.
Variable cf : cfg.
Hypothesis hmac32 : forall k m, lenN (cr_hmac cr k m) = 32.

Lemma expand_cases prk info len :
  hkdf_expand_tc cr prk info len = Ok (hkdf_okm (cr_hmac cr) prk info len) \/ 254 * 32 < len.
Proof.
  destruct (N.leb_spec len (254 * 32)); [left; apply expand_tc_correct; assumption|right; assumption].
Qed.

Lemma kdf_fits prk label ctx len :
  label < 24 -> len <= 254 * 32 -> lenN ctx < 2 ^ 32 -> as_bstr_size (lenN ctx) + 4 <= INFO_MAX_SIZE cf ->
  edhoc_kdf cr cf prk label ctx len = Ok (rfc_kdf (cr_hmac cr) prk label ctx len).
Proof.
  intros HL Hn Hc Hi. unfold edhoc_kdf. change (2 * CBOR_ENCODED_UINT) with 4.
  rewrite new_fits by exact Hi. cbn [bind]. unfold create_hkdf_info.
  rewrite put_fits; [cbn [bind]|].
  - rewrite info_rfc. apply expand_tc_correct; assumption.
  - unfold enc_edhoc_info. rewrite !lenN_app. pose proof (as_bstr_ge _ Hc).
    unfold enc_uint. rewrite !enc_head_len.
    assert (head_len label = 1) by (apply head_len_small; lia).
    assert (head_len len <= 3).
    { unfold head_len. destruct (len <? 24), (len <? 2 ^ 8); try lia.
      destruct (N.ltb_spec len (2 ^ 16)); lia. }
    lia.
Qed.

Lemma kdf_ok prk label ctx len x :
  edhoc_kdf cr cf prk label ctx len = Ok x -> len <= 254 * 32 ->
  x = rfc_kdf (cr_hmac cr) prk label ctx len /\ lenN x = len.
Proof.
  intros H Hn. unfold edhoc_kdf in H. apply bind_ok in H as ([] & _ & H).
  apply bind_ok in H as (info & EI & H). unfold create_hkdf_info in EI.
  apply cbor_put_ok in EI as [-> _]. rewrite info_rfc in H.
  rewrite expand_tc_correct in H by assumption.
  assert (E : forall a b : bytes, Ok a = Ok b -> b = a) by (intros a b Q; inversion Q; reflexivity).
  apply E in H. rewrite H. split; [reflexivity|]. unfold rfc_kdf. apply okm_len. assumption.
Qed.

Lemma kdf_len prk label ctx len : lenN (rfc_kdf (cr_hmac cr) prk label ctx len) = len.
Proof. unfold rfc_kdf. apply okm_len. assumption. Qed.

Lemma extract_rfc th x : th <> [] -> hkdf_extract cr th x = cr_hmac cr th x.
Proof. intros H. unfold hkdf_extract. destruct th; [congruence|reflexivity]. Qed.

Lemma th2_rfc h1 g_y : lenN h1 = 32 -> lenN g_y = 32 ->
  th2_calculate cr h1 g_y = Ok (cr_hash cr (rfc_th2_input g_y h1)).
Proof.
  clear hmac32.
  intros H1 H2. unfold th2_calculate. rewrite H2.
  rewrite new_fits by (apply N.leb_le; vm_compute; reflexivity). cbn [bind].
  unfold th2_input_encode, enc_th2. rewrite put_fits; [cbn [bind]|].
  - unfold rfc_th2_input. cbor_norm. reflexivity.
  - rewrite lenN_app, !bstr32_len by assumption. apply N.leb_le. vm_compute. reflexivity.
Qed.
Lemma th2_ok h1 g_y th : th2_calculate cr h1 g_y = Ok th -> th = cr_hash cr (rfc_th2_input g_y h1).
Proof.
  clear hmac32.
  intros H. unfold th2_calculate in H. apply bind_ok in H as ([] & _ & H).
  apply bind_ok in H as (i & EI & H). apply cbor_put_ok in EI as [-> _]. injection H as <-.
  unfold enc_th2, rfc_th2_input. cbor_norm. reflexivity.
Qed.

Lemma sub32_exact a b : b <= a -> a < 2 ^ 32 -> sub32 a b = a - b.
Proof.
  intros. unfold sub32. replace (a + 2 ^ 32 - b) with (a - b + 1 * 2 ^ 32) by lia.
  rewrite N.mod_add by lia. apply N.mod_small. lia.
Qed.
Lemma sub32_wrap a b : a < b -> b <= 2 ^ 32 -> sub32 a b = a + 2 ^ 32 - b.
Proof. intros. unfold sub32. apply N.mod_small. lia. Qed.

(** the capacities that th34_input_encode computes wrap, so they never refuse
    non-empty arguments *)
Lemma th34_fits th pt cred :
  lenN th = 32 -> pt <> [] -> cred <> [] -> lenN pt + lenN cred < 2 ^ 31 ->
  34 + lenN pt + lenN cred <= TH34_INPUT_SIZE cf ->
  th34_calculate cr cf th pt cred = Ok (rfc_th34 (cr_hash cr) th pt cred).
Proof.
  clear hmac32.
  intros Ht Hp Hc Hs Hf. unfold th34_calculate.
  change (as_bstr_size get_hash_len) with 34.
  rewrite new_fits by exact Hf. cbn [bind]. unfold th34_input_encode.
  assert (Hp0 : lenN pt <> 0) by (intros Q; apply lenN_0 in Q; congruence).
  assert (Hc0 : lenN cred <> 0) by (intros Q; apply lenN_0 in Q; congruence).
  assert (E : encode_bstr th (34 + lenN pt + lenN cred) = Ok (enc_bstr th)).
  { apply encode_bstr_ok. rewrite bstr32_len by assumption. split; [reflexivity|lia]. }
  rewrite E. cbn [bind]. rewrite bstr32_len by assumption.
  destruct (N.eqb_spec (lenN pt) 0); [lia|]. destruct (N.eqb_spec (lenN cred) 0); [lia|].
  rewrite (sub32_exact 34 34) by lia. replace (34 - 34) with 0 by lia.
  rewrite (sub32_wrap 0 (lenN cred)) by lia. rewrite check_fits by lia. cbn [bind].
  destruct (N.ltb_spec (TH34_INPUT_SIZE cf) (34 + lenN pt)); [lia|]. cbn [bind].
  rewrite (sub32_wrap 34 (34 + lenN pt)) by lia. rewrite check_fits by lia. cbn [bind].
  destruct (N.ltb_spec (TH34_INPUT_SIZE cf) (34 + lenN pt + lenN cred)); [lia|]. cbn [bind].
  unfold rfc_th34, rfc_th34_input. rewrite cbor_bytes. reflexivity.
Qed.
Lemma th34_ok th pt cred x :
  th34_calculate cr cf th pt cred = Ok x -> x = rfc_th34 (cr_hash cr) th pt cred.
Proof.
  clear hmac32.
  intros H. unfold th34_calculate in H. apply bind_ok in H as ([] & _ & H).
  apply bind_ok in H as (i & EI & H). injection H as <-.
  unfold th34_input_encode in EI. apply bind_ok in EI as (e & EE & EI).
  apply encode_bstr_ok in EE as [-> _]. apply bind_ok in EI as ([] & _ & EI).
  apply bind_ok in EI as ([] & _ & EI). injection EI as <-.
  unfold rfc_th34, rfc_th34_input. rewrite cbor_bytes. reflexivity.
Qed.

Lemma aad_rfc th : lenN th = 32 -> associated_data_encode th = Ok (rfc_aad th).
Proof.
  clear hmac32.
  intros H. unfold associated_data_encode, cose_enc_structure_encode.
  rewrite put_fits.
  - f_equal. unfold rfc_aad. cbor_norm. reflexivity.
  - rewrite !lenN_app, (bstr32_len th) by assumption. apply N.leb_le. vm_compute. reflexivity.
Qed.
Lemma aad_ok th a : associated_data_encode th = Ok a -> a = rfc_aad th.
Proof.
  clear hmac32.
  intros H. apply cbor_put_ok in H as [-> _]. unfold rfc_aad. cbor_norm. reflexivity.
Qed.

Lemma prk_derive_ok sdh st label ctx prk pk sk x : prk_derive cr cf sdh st label ctx prk pk sk = Ok x ->
  exists dh, x = rfc_prk_next (cr_hmac cr) sdh prk label ctx dh /\
  (sdh = true -> shared_secret_derive cr (edhoc_ecdh st) sk pk = Ok dh).
Proof.
  intros H. unfold prk_derive in H. destruct sdh.
  - apply bind_ok in H as (dh & ED & H). apply bind_ok in H as (salt & ES & H). injection H as <-.
    exists dh. split; [|intros _; exact ED].
    apply kdf_ok in ES as [-> HL]; [|apply N.leb_le; reflexivity]. cbn [rfc_prk_next].
    change get_hash_len with 32 in *. apply extract_rfc. intros Q. rewrite Q in HL. discriminate.
  - injection H as <-. exists []. split; [reflexivity|discriminate].
Qed.
Lemma prk_derive_fits sdh st label ctx prk pk sk dh :
  label < 24 -> lenN ctx = 32 -> 38 <= INFO_MAX_SIZE cf ->
  (sdh = true -> shared_secret_derive cr (edhoc_ecdh st) sk pk = Ok dh) ->
  prk_derive cr cf sdh st label ctx prk pk sk = Ok (rfc_prk_next (cr_hmac cr) sdh prk label ctx dh).
Proof.
  intros HL Hc Hi HD. unfold prk_derive. destruct sdh; [|reflexivity].
  rewrite HD by reflexivity. cbn [bind]. rewrite kdf_fits; cbn [bind].
  - cbn [rfc_prk_next]. f_equal. change get_hash_len with 32. apply extract_rfc. intros Q.
    pose proof (kdf_len prk label ctx 32) as L. rewrite Q in L. discriminate.
  - exact HL.
  - apply N.leb_le. reflexivity.
  - rewrite Hc. lia.
  - rewrite Hc. exact Hi.
Qed.
Lemma prk_next_len sdh prk label ctx dh :
  lenN prk = 32 -> lenN (rfc_prk_next (cr_hmac cr) sdh prk label ctx dh) = 32.
Proof. intros H. unfold rfc_prk_next. destruct sdh; [apply hmac32|exact H]. Qed.
End Keys.

Lemma as_bstr_lower x : 1 + x <= as_bstr_size x.
Proof. unfold as_bstr_size, bstr_overhead. destruct (x <=? 5), (x <=? 255), (x <=? 65535); lia. Qed.
Lemma as_bstr_lower2 x : 6 <= x -> 2 + x <= as_bstr_size x.
Proof.
  intros. unfold as_bstr_size, bstr_overhead. destruct (N.leb_spec x 5), (x <=? 255), (x <=? 65535); lia.
Qed.
Lemma info_max_ge cf : 41 <= INFO_MAX_SIZE cf.
Proof.
  unfold INFO_MAX_SIZE, CONTEXT_MAC_SIZE. change (as_bstr_size HASH_SIZE) with 34.
  change (2 * CBOR_ENCODED_UINT) with 4. pose proof (as_bstr_lower (C_R_SIZE cf)).
  match goal with |- _ <= as_bstr_size ?x + 4 => pose proof (as_bstr_lower2 x) end. lia.
Qed.
