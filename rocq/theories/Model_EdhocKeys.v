(** Model of src/edhoc/hkdf_info.c, okm.c, prk.c, th.c, edhoc_exporter.c and of
    the parts of src/common/crypto_wrapper.c they and the message functions use. *)
From Verif Require Import Base Model_Common Model_Cbor Model_Crypto Model_EdhocCfg Model_EdhocCbor.

(** inc/edhoc/hkdf_info.h:20-33 enum info_label *)
Definition KEYSTREAM_2 : N := 0.   (* inc/edhoc/hkdf_info.h:21 *)
Definition SALT_3e2m : N := 1.   (* inc/edhoc/hkdf_info.h:22 *)
Definition MAC_2 : N := 2.   (* inc/edhoc/hkdf_info.h:23 *)
Definition K_3 : N := 3.   (* inc/edhoc/hkdf_info.h:24 *)
Definition IV_3 : N := 4.   (* inc/edhoc/hkdf_info.h:25 *)
Definition SALT_4e3m : N := 5.   (* inc/edhoc/hkdf_info.h:26 *)
Definition MAC_3 : N := 6.   (* inc/edhoc/hkdf_info.h:27 *)
Definition PRK_out : N := 7.   (* inc/edhoc/hkdf_info.h:28 *)
Definition K_4 : N := 8.   (* inc/edhoc/hkdf_info.h:29 *)
Definition IV_4 : N := 9.   (* inc/edhoc/hkdf_info.h:30 *)
Definition PRK_exporter : N := 10.   (* inc/edhoc/hkdf_info.h:31 *)
Definition PRK_out_update_label : N := 11.   (* inc/edhoc/hkdf_info.h:32 *)
(** inc/edhoc.h enum export_label *)
Definition OSCORE_MASTER_SECRET : N := 0.
Definition OSCORE_MASTER_SALT : N := 1.   (* inc/edhoc.h:209 *)

Section Keys.
Variable cr : crypto.
Variable cf : cfg.

(** src/edhoc/hkdf_info.c:22-61 create_hkdf_info *)
Definition create_hkdf_info (label : N) (context : bytes) (okm_len cap : N) : res bytes :=
  cbor_put cap (enc_edhoc_info label context okm_len).

(** src/edhoc/okm.c:22-35 edhoc_kdf *)
Definition edhoc_kdf (prk : bytes) (label : N) (context : bytes) (okm_len : N) : res bytes :=
  let info_len := as_bstr_size (lenN context) + 2 * CBOR_ENCODED_UINT in
  let* _ := byte_array_new (INFO_MAX_SIZE cf) info_len in
  let* info := create_hkdf_info label context okm_len info_len in
  hkdf_expand_tc cr prk info okm_len.

(** src/common/crypto_wrapper.c:585-672 shared_secret_derive. X25519 reads 32
    bytes of both keys whatever their length fields say. *)
Definition shared_secret_derive (alg : ecdh_alg) (sk pk : bytes) : res bytes :=
  match alg with
  | X25519 =>
      if lenN sk <? 32 then UB OobRead
      else if lenN pk <? 32 then UB Uninit
      else ext (cr_dh cr (ecdh_id X25519) (takeN 32 sk) (takeN 32 pk))
  | P256 => ext (cr_dh cr (ecdh_id P256) sk pk)
  end.

(** src/edhoc/prk.c:25-47 prk_derive *)
Definition prk_derive (static_dh : bool) (st : suite) (label : N) (context prk_in stat_pk stat_sk : bytes)
    : res bytes :=
  if static_dh then
    let* secret := shared_secret_derive (edhoc_ecdh st) stat_sk stat_pk in
    let* salt := edhoc_kdf prk_in label context get_hash_len in
    Ok (hkdf_extract cr salt secret)
  else Ok prk_in.

(** src/edhoc/th.c:35-60 th2_input_encode *)
Definition th2_input_encode (hash_msg1 g_y : bytes) (cap : N) : res bytes :=
  cbor_put cap (enc_th2 g_y hash_msg1).
(** src/edhoc/th.c:126-137 th2_calculate *)
Definition th2_calculate (msg1_hash g_y : bytes) : res bytes :=
  let n := as_bstr_size (lenN g_y) + as_bstr_size get_hash_len in
  let* _ := byte_array_new TH2_INPUT_SIZE n in
  let* inp := th2_input_encode msg1_hash g_y n in
  Ok (cr_hash cr inp).

(** src/edhoc/th.c:72-98 th34_input_encode into a buffer of [bufsz] bytes whose
    length field is [cap]. After encode_bstr the length field is the length of
    the encoded transcript hash, so the capacities handed to _memcpy_s are
    differences that wrap. *)
Definition th34_input_encode (th23 plaintext_23 cred : bytes) (bufsz cap : N) : res bytes :=
  let* e := encode_bstr th23 cap in
  let tmp_len := lenN e in
  let* _ := (if lenN plaintext_23 =? 0 then Ok tt
             else let* _ := check_buffer_size (sub32 (sub32 (lenN e) tmp_len) (lenN cred)) (lenN plaintext_23) in
                  if bufsz <? tmp_len + lenN plaintext_23 then UB OobWrite else Ok tt) in
  let tmp_len := tmp_len + lenN plaintext_23 in
  let* _ := (if lenN cred =? 0 then Ok tt
             else let* _ := check_buffer_size (sub32 (lenN e) tmp_len) (lenN cred) in
                  if bufsz <? tmp_len + lenN cred then UB OobWrite else Ok tt) in
  Ok (e ++ plaintext_23 ++ cred).
(** src/edhoc/th.c:112-124 th34_calculate *)
Definition th34_calculate (th23 plaintext_23 cred : bytes) : res bytes :=
  let n := as_bstr_size get_hash_len + lenN plaintext_23 + lenN cred in
  let* _ := byte_array_new (TH34_INPUT_SIZE cf) n in
  let* inp := th34_input_encode th23 plaintext_23 cred (TH34_INPUT_SIZE cf) n in
  Ok (cr_hash cr inp).

(** src/edhoc/edhoc_exporter.c:23-29 prk_out2exporter *)
Definition prk_out2exporter (prk_out : bytes) (len : N) : res bytes :=
  edhoc_kdf prk_out PRK_exporter [] len.
(** src/edhoc/edhoc_exporter.c:31-37 prk_out_update *)
Definition prk_out_update (prk_out context : bytes) (len : N) : res bytes :=
  edhoc_kdf prk_out PRK_out_update_label context len.
(** src/edhoc/edhoc_exporter.c:39-43 edhoc_exporter *)
Definition edhoc_exporter (label : N) (prk_exporter : bytes) (len : N) : res bytes :=
  edhoc_kdf prk_exporter label [] len.

(** src/common/crypto_wrapper.c:275-356 sign. EdDSA reads 32 bytes of both keys
    whatever their length fields say; they are the caller's own and not checked
    here. *)
Definition sign (alg : sign_alg) (sk pk msg : bytes) : res bytes :=
  ext (cr_sign cr (sign_sel alg) sk pk msg).
(** src/common/crypto_wrapper.c:358-430 verify. EdDSA reads 64 bytes of the
    signature buffer and 32 bytes of the key whatever their length fields say; the
    buffers used for them hold 64 and 65 bytes of which only the received ones are
    written. *)
Definition verify (alg : sign_alg) (pk msg sgn : bytes) : res bool :=
  match alg with
  | EdDSA => if (lenN sgn <? 64) || (lenN pk <? 32) then UB Uninit
             else ext (cr_verify cr (sign_sel EdDSA) pk msg (takeN 64 sgn))
  | ES256 => ext (cr_verify cr (sign_sel ES256) pk msg sgn)
  end.
End Keys.
