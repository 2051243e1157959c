(** Model of the pure building blocks of OSCORE: Partial IV, nonce, AAD, COSE
    structures, HKDF info and key derivation. *)
From Verif Require Import Base Model_Common Model_Cbor Model_Crypto.

(** inc/oscore/oscore_coap_defines.h:15-22, inc/oscore/security_context.h *)
Definition MAX_PIV_LEN : N := 5.
Definition MAX_PIV_FIELD_VALUE : N := 2 ^ 40 - 1.   (* inc/oscore/oscore_coap_defines.h:22 *)
Definition NONCE_LEN : N := 13.   (* inc/oscore/supported_algorithm.h:26 *)
Definition MAX_AAD_LEN : N := 30.   (* inc/oscore/oscore_coap_defines.h:20 *)
Definition MAX_INFO_LEN : N := 50.   (* inc/oscore/oscore_coap_defines.h:21 *)
Definition AUTH_TAG_LEN : N := 8.   (* inc/oscore/supported_algorithm.h:25 *)
Definition ENCRYPT0_ENCODING_OVERHEAD : N := 16.   (* src/oscore/oscore_cose.c:26 *)
Definition OSCORE_SSN_OVERFLOW_VALUE : N := 0x7FFFFF.   (* inc/oscore/security_context.h:28 *)

(** src/oscore/security_context.c:193-197, the digit loop of ssn2piv: least
    significant byte first into [tmp_piv[MAX_PIV_LEN]]. [room] is the space left
    in [tmp_piv]. *)
Fixpoint ssn_digits (room : nat) (ssn : N) : res bytes :=
  if 0 <? ssn then
    match room with
    | O => UB OobWrite
    | S room' =>
        let* t := ssn_digits room' (ssn / 256) in
        Ok (u8 ssn :: t)
    end
  else Ok [].

(** src/oscore/security_context.c:184-211 ssn2piv (null pointers not modelled,
    the destination has at least MAX_PIV_LEN bytes in every call). *)
Definition ssn2piv (ssn : N) : res bytes :=
  if MAX_PIV_FIELD_VALUE <? ssn then Err wrong_parameter
  else
    let* tmp := ssn_digits (N.to_nat MAX_PIV_LEN) ssn in
    match tmp with
    | [] => Ok [0]
    | _ => Ok (rev tmp)
    end.

(** src/oscore/security_context.c:225-232, the summation loop of piv2ssn
    ([result += value[pos] << (8*(len-1-pos))] on 64 bits). *)
Fixpoint piv_sum (piv : bytes) (result : N) : N :=
  match piv with
  | [] => result
  | b :: t => piv_sum t (u64 (result + u64 (b * 2 ^ (8 * lenN t))))
  end.

(** src/oscore/security_context.c:213-235 piv2ssn. *)
Definition piv2ssn (piv : bytes) : res N :=
  if MAX_PIV_LEN <? lenN piv then Err wrong_parameter
  else Ok (piv_sum piv 0).

(** Copy of [b] to the end of a zeroed array of [n] bytes:
    [_memcpy_s(&a[sizeof(a) - b.len], b.len, b.ptr, b.len)], used twice by
    create_nonce (src/oscore/nonce.c:25-33). With [b.len > n] the destination is
    before the array. *)
Definition left_pad (n : N) (b : bytes) : res bytes :=
  if n <? lenN b then UB OobWrite
  else Ok (repeat 0 (N.to_nat (n - lenN b)) ++ b).

(** src/oscore/nonce.c:46-49, the XOR loop over common_iv->len bytes. *)
Fixpoint xor_into (nonce iv : bytes) : res bytes :=
  match iv, nonce with
  | [], _ => Ok nonce
  | i :: iv', n :: nonce' => let* r := xor_into nonce' iv' in Ok (N.lxor n i :: r)
  | _ :: _, [] => UB OobWrite
  end.

(** src/oscore/nonce.c:21-53 create_nonce; [nonce->ptr] has NONCE_LEN bytes. *)
Definition create_nonce (id_piv piv common_iv : bytes) : res bytes :=
  let* padded_piv := left_pad MAX_PIV_LEN piv in
  let* padded_id_piv := left_pad (NONCE_LEN - MAX_PIV_LEN - 1) id_piv in
  xor_into (u8 (lenN id_piv) :: padded_id_piv ++ padded_piv) common_iv.

(** src/oscore/aad.c:23-57 create_aad with src/cbor/oscore_aad_array.c:27-33;
    [cap] is out->len on entry. *)
Definition create_aad (aead_alg : Z) (kid piv : bytes) (cap : N) : res bytes :=
  cbor_put cap (enc_list 5 ++ enc_uint 1 ++ enc_list 1 ++ enc_int aead_alg ++
                enc_bstr kid ++ enc_bstr piv ++ enc_bstr []).

(** "Encrypt0" *)
(** src/oscore/oscore_cose.c:39 *)
Definition str_Encrypt0 : bytes := [69; 110; 99; 114; 121; 112; 116; 48].

(** src/oscore/oscore_cose.c:34-59 create_enc_structure. *)
Definition oscore_enc_structure (external_aad : bytes) (cap : N) : res bytes :=
  cbor_put cap (enc_list 3 ++ enc_tstr str_Encrypt0 ++ enc_bstr [] ++ enc_bstr external_aad).

Section WithCrypto.
Variable cr : crypto.

(** src/oscore/oscore_cose.c:61-83 oscore_cose_decrypt. *)
Definition oscore_cose_decrypt (ct nonce aad key : bytes) : res bytes :=
  let aad_len := u32 (lenN aad + ENCRYPT0_ENCODING_OVERHEAD) in
  let* _ := byte_array_new MAX_AAD_LEN aad_len in
  let* a := oscore_enc_structure aad aad_len in
  ext (cr_aead_dec cr key nonce a AUTH_TAG_LEN ct).

(** src/oscore/oscore_cose.c:85-112 oscore_cose_encrypt. *)
Definition oscore_cose_encrypt (pt nonce aad key : bytes) : res bytes :=
  let aad_len := u32 (lenN aad + ENCRYPT0_ENCODING_OVERHEAD) in
  let* _ := byte_array_new MAX_AAD_LEN aad_len in
  let* a := oscore_enc_structure aad aad_len in
  ext (cr_aead_enc cr key nonce a AUTH_TAG_LEN pt).

(** inc/oscore/oscore_hkdf_info.h: enum derive_type *)
Inductive derive_type := KEY | IV.
Definition str_Key : bytes := [75; 101; 121].   (* src/oscore/oscore_hkdf_info.c:51 *)
Definition str_IV : bytes := [73; 86].   (* src/oscore/oscore_hkdf_info.c:55 *)

(** src/oscore/oscore_hkdf_info.c:40-88 oscore_create_hkdf_info. *)
Definition oscore_create_hkdf_info (id id_context : bytes) (aead_alg : Z) (ty : derive_type)
    (cap : N) : res bytes :=
  let '(type_enc, len) := match ty with KEY => (str_Key, 16) | IV => (str_IV, 13) end in
  cbor_put cap
    (enc_list 5 ++ enc_bstr id ++
     (if lenN id_context =? 0 then enc_nil else enc_bstr id_context) ++
     enc_int aead_alg ++ enc_tstr type_enc ++ enc_uint len).

(** inc/oscore/supported_algorithm.h *)
Definition OSCORE_AES_CCM_16_64_128 : Z := 10%Z.
Definition OSCORE_SHA_256 : Z := 0%Z.   (* inc/oscore/supported_algorithm.h:17 *)

(** src/oscore/security_context.c:41-60 derive; [outl] is out->len. *)
Definition derive (secret salt id_context : bytes) (aead_alg kdf : Z) (id : bytes)
    (ty : derive_type) (outl : N) : res bytes :=
  let* info := oscore_create_hkdf_info id id_context aead_alg ty MAX_INFO_LEN in
  if (kdf =? OSCORE_SHA_256)%Z then hkdf_sha_256 cr secret salt info outl
  else Err oscore_unknown_hkdf.

End WithCrypto.
