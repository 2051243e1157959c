(** Model of inc/edhoc/buffer_sizes.h, src/edhoc/suites.c, inc/edhoc/suites.h and
    src/edhoc/edhoc_method_type.c. The compile-time parameters are the fields of
    [cfg], so everything below is for an arbitrary configuration. *)
From Verif Require Import Base Model_Common.

(** inc/edhoc/buffer_sizes.h:10-40, the parameters a build can set. *)
Record cfg := {
  EAD_SIZE : N;
  C_I_SIZE : N;
  C_R_SIZE : N;
  ID_CRED_I_SIZE : N;
  ID_CRED_R_SIZE : N;
  CRED_I_SIZE : N;
  CRED_R_SIZE : N;
  SUITES_I_SIZE : N
}.

(** inc/edhoc/buffer_sizes.h:10-40, the defaults. *)
Definition default_cfg : cfg := {|
  EAD_SIZE := 0; C_I_SIZE := 10; C_R_SIZE := 10; ID_CRED_I_SIZE := 400;
  ID_CRED_R_SIZE := 400; CRED_I_SIZE := 400; CRED_R_SIZE := 400; SUITES_I_SIZE := 6 |}.

(** inc/edhoc/buffer_sizes.h:44-45 BSTR_ENCODING_OVERHEAD *)
Definition bstr_overhead (x : N) : N :=
  if x <=? 5 then 1 else if x <=? 255 then 2 else if x <=? 65535 then 3 else 5.
(** inc/edhoc/buffer_sizes.h:47 AS_BSTR_SIZE. Sums of lengths are not reduced
    modulo 2^32: all objects together are assumed smaller than 4 GiB. *)
Definition as_bstr_size (x : N) : N := bstr_overhead x + x.

(** inc/edhoc/buffer_sizes.h:49-71, constants *)
Definition PK_SIZE : N := 65.
Definition G_Y_SIZE : N := 32.   (* inc/edhoc/buffer_sizes.h:54 *)
Definition G_X_SIZE : N := 32.   (* inc/edhoc/buffer_sizes.h:55 *)
Definition G_R_SIZE : N := 65.   (* inc/edhoc/buffer_sizes.h:56 *)
Definition G_I_SIZE : N := 65.   (* inc/edhoc/buffer_sizes.h:57 *)
Definition SIGNATURE_SIZE : N := 64.   (* inc/edhoc/buffer_sizes.h:58 *)
Definition HASH_SIZE : N := 32.   (* inc/edhoc/buffer_sizes.h:61 *)
Definition PRK_SIZE : N := 32.   (* inc/edhoc/buffer_sizes.h:60 *)
Definition AEAD_IV_SIZE : N := 13.   (* inc/edhoc/buffer_sizes.h:62 *)
Definition MAC_SIZE : N := 16.   (* inc/edhoc/buffer_sizes.h:63 *)
Definition MAC23_SIZE : N := 32.   (* inc/edhoc/buffer_sizes.h:64 *)
Definition AAD_SIZE : N := 45.   (* inc/edhoc/buffer_sizes.h:65 *)
Definition KID_SIZE : N := 8.   (* inc/edhoc/buffer_sizes.h:66 *)
Definition SIG_OR_MAC_SIZE : N := 64.   (* inc/edhoc/buffer_sizes.h:67 *)
Definition COSE_SIGN1_STR_LEN : N := 10.   (* inc/edhoc/buffer_sizes.h:68 *)
Definition COSE_ENC0_STR_LEN : N := 8.   (* inc/edhoc/buffer_sizes.h:69 *)
Definition CBOR_ENCODED_UINT : N := 2.   (* inc/edhoc/buffer_sizes.h:70 *)

Section Sizes.
Variable cf : cfg.

(** inc/edhoc/buffer_sizes.h:73-77 *)
Definition PLAINTEXT2_SIZE : N :=
  as_bstr_size (C_R_SIZE cf) + ID_CRED_I_SIZE cf + as_bstr_size SIG_OR_MAC_SIZE + EAD_SIZE cf.
Definition CIPHERTEXT2_SIZE : N := PLAINTEXT2_SIZE.   (* inc/edhoc/buffer_sizes.h:76 *)
Definition G_Y_CIPHERTEXT_2 : N := G_Y_SIZE + CIPHERTEXT2_SIZE.   (* inc/edhoc/buffer_sizes.h:77 *)
(** inc/edhoc/buffer_sizes.h:79-85 *)
Definition PLAINTEXT3_SIZE : N :=
  ID_CRED_I_SIZE cf + as_bstr_size SIG_OR_MAC_SIZE + EAD_SIZE cf.
Definition CIPHERTEXT3_SIZE : N := PLAINTEXT3_SIZE + MAC_SIZE.   (* inc/edhoc/buffer_sizes.h:82 *)
Definition CIPHERTEXT4_SIZE : N := EAD_SIZE cf + COSE_ENC0_STR_LEN.   (* inc/edhoc/buffer_sizes.h:84-85 *)
(** inc/edhoc/buffer_sizes.h:87-96 *)
Definition MSG_1_SIZE : N :=
  1 + SUITES_I_SIZE cf + G_X_SIZE + as_bstr_size (C_I_SIZE cf) + EAD_SIZE cf.
(** inc/edhoc/buffer_sizes.h:89 *)
Definition MSG_2_SIZE : N := G_Y_SIZE + CIPHERTEXT2_SIZE + as_bstr_size (C_R_SIZE cf).
Definition MSG_3_SIZE : N := as_bstr_size CIPHERTEXT3_SIZE.   (* inc/edhoc/buffer_sizes.h:91 *)
Definition MSG_4_SIZE : N := as_bstr_size CIPHERTEXT4_SIZE.   (* inc/edhoc/buffer_sizes.h:92 *)
(** inc/edhoc/buffer_sizes.h:94-96 *)
Definition MSG_MAX_SIZE : N := N.max (N.max MSG_1_SIZE MSG_2_SIZE) (N.max MSG_3_SIZE MSG_4_SIZE).
(** inc/edhoc/buffer_sizes.h:97-99 *)
Definition PLAINTEXT23_MAX_SIZE : N := N.max PLAINTEXT2_SIZE PLAINTEXT3_SIZE.
(** inc/edhoc/buffer_sizes.h:98 *)
Definition CRED_MAX_SIZE : N := N.max (CRED_R_SIZE cf) (CRED_I_SIZE cf).
(** inc/edhoc/buffer_sizes.h:99 *)
Definition ID_CRED_MAX_SIZE : N := N.max (ID_CRED_R_SIZE cf) (ID_CRED_I_SIZE cf).
(** inc/edhoc/buffer_sizes.h:101-110 *)
Definition sig_struct_size_calc (context prot external_aad payload : N) : N :=
  as_bstr_size context + as_bstr_size prot + as_bstr_size external_aad + as_bstr_size payload + 1.
(** inc/edhoc/buffer_sizes.h:106-110 *)
Definition SIG_STRUCT_SIZE : N :=
  sig_struct_size_calc COSE_SIGN1_STR_LEN ID_CRED_MAX_SIZE
    (as_bstr_size HASH_SIZE + CRED_MAX_SIZE + EAD_SIZE cf) MAC23_SIZE.
(** inc/edhoc/buffer_sizes.h:113-122 *)
Definition CONTEXT_MAC_SIZE : N :=
  as_bstr_size (as_bstr_size (C_R_SIZE cf) + as_bstr_size HASH_SIZE + ID_CRED_MAX_SIZE
                + CRED_MAX_SIZE + EAD_SIZE cf).
(** inc/edhoc/buffer_sizes.h:117 *)
Definition INFO_MAX_SIZE : N := CONTEXT_MAC_SIZE + 2 * CBOR_ENCODED_UINT.
(** inc/edhoc/buffer_sizes.h:119-121 *)
Definition TH34_INPUT_SIZE : N := as_bstr_size HASH_SIZE + PLAINTEXT23_MAX_SIZE + CRED_MAX_SIZE.
(** inc/edhoc/buffer_sizes.h:122 *)
Definition TH2_INPUT_SIZE : N := as_bstr_size G_Y_SIZE + as_bstr_size HASH_SIZE.
End Sizes.

(** inc/edhoc/suites.h:24-47. Algorithms carry their COSE numbers through
    [aead_id] .. below. *)
Inductive aead_alg := AES_CCM_16_64_128 | AES_CCM_16_128_128.
Inductive ecdh_alg := P256 | X25519.   (* inc/edhoc/suites.h:34-37 *)
Inductive sign_alg := ES256 | EdDSA.   (* inc/edhoc/suites.h:39-42 *)
(** inc/edhoc/suites.h:27-30 *)
Definition aead_id (a : aead_alg) : Z := match a with AES_CCM_16_64_128 => 10 | AES_CCM_16_128_128 => 30 end.
(** inc/edhoc/suites.h:34-37 *)
Definition ecdh_id (a : ecdh_alg) : N := match a with P256 => 1 | X25519 => 4 end.
(** inc/edhoc/suites.h:39-42 *)
Definition sign_id (a : sign_alg) : Z := match a with ES256 => -7 | EdDSA => -8 end.
(** the [cr_sign]/[cr_verify] selector for a signature algorithm; different from the
    selectors of the key agreement, because the public keys have other formats *)
(** inc/edhoc/suites.h:39-42 *)
Definition sign_sel (a : sign_alg) : N := match a with ES256 => 7 | EdDSA => 8 end.

(** inc/edhoc/suites.h:49-58 struct suite. The hash algorithm has a single value
    (SHA_256) and is not represented. *)
Record suite := {
  suite_label : N;
  edhoc_aead : aead_alg;
  edhoc_mac_len_static_dh : N;
  edhoc_ecdh : ecdh_alg;
  edhoc_sign : sign_alg;
  app_aead : aead_alg
}.

(** src/edhoc/suites.c:16-64 get_suite *)
Definition get_suite (label : N) : res suite :=
  match label with
  | 0 => Ok {| suite_label := 0; edhoc_aead := AES_CCM_16_64_128; edhoc_mac_len_static_dh := 8;
               edhoc_ecdh := X25519; edhoc_sign := EdDSA; app_aead := AES_CCM_16_64_128 |}
  | 1 => Ok {| suite_label := 1; edhoc_aead := AES_CCM_16_128_128; edhoc_mac_len_static_dh := 16;
               edhoc_ecdh := X25519; edhoc_sign := EdDSA; app_aead := AES_CCM_16_64_128 |}
  | 2 => Ok {| suite_label := 2; edhoc_aead := AES_CCM_16_64_128; edhoc_mac_len_static_dh := 8;
               edhoc_ecdh := P256; edhoc_sign := ES256; app_aead := AES_CCM_16_64_128 |}
  | 3 => Ok {| suite_label := 3; edhoc_aead := AES_CCM_16_128_128; edhoc_mac_len_static_dh := 16;
               edhoc_ecdh := P256; edhoc_sign := ES256; app_aead := AES_CCM_16_64_128 |}
  | _ => Err unsupported_cipher_suite
  end.

(** src/edhoc/suites.c:66-74 get_hash_len (SHA_256) *)
Definition get_hash_len : N := 32.
(** src/edhoc/suites.c:76-87 get_aead_mac_len *)
Definition get_aead_mac_len (a : aead_alg) : N :=
  match a with AES_CCM_16_128_128 => 16 | AES_CCM_16_64_128 => 8 end.
(** src/edhoc/suites.c:89-98 get_aead_key_len *)
Definition get_aead_key_len (a : aead_alg) : N :=
  match a with AES_CCM_16_128_128 => 16 | AES_CCM_16_64_128 => 16 end.
(** src/edhoc/suites.c:100-109 get_aead_iv_len *)
Definition get_aead_iv_len (a : aead_alg) : N :=
  match a with AES_CCM_16_128_128 => 13 | AES_CCM_16_64_128 => 13 end.
(** src/edhoc/suites.c:111-120 get_signature_len *)
Definition get_signature_len (a : sign_alg) : N := match a with ES256 => 64 | EdDSA => 64 end.
(** src/edhoc/suites.c:122-134 get_ecdh_pk_len *)
Definition get_ecdh_pk_len (a : ecdh_alg) : N := match a with P256 => 32 | X25519 => 32 end.

(** src/edhoc/edhoc_method_type.c:18-38 authentication_type_get: the values of
    *static_dh_i and *static_dh_r after the call; both keep their old values
    ([old]) for any other method number. *)
Definition authentication_type_get (m : N) (old : bool * bool) : bool * bool :=
  match m with
  | 0 => (false, false)
  | 1 => (false, true)
  | 2 => (true, false)
  | 3 => (true, true)
  | _ => old
  end.
