(** Abstract cryptography, and the parts of src/common/crypto_wrapper.c that are
    logic of this repository (HKDF). *)
From Verif Require Import Base.

(** The external primitives used by src/common/crypto_wrapper.c (TinyCrypt,
    compact25519, Mbed TLS/PSA). [None] stands for a failure reported by the
    library, mapped by the wrapper to [unexpected_result_from_ext_lib].
    HMAC and SHA-256 are total. *)
Record crypto := {
  cr_hmac : bytes -> bytes -> bytes;                       (* key, message *)
  cr_hash : bytes -> bytes;
  cr_aead_enc : bytes -> bytes -> bytes -> N -> bytes -> option bytes;
    (* key, nonce, aad, tag length, plaintext -> ciphertext with tag appended *)
  cr_aead_dec : bytes -> bytes -> bytes -> N -> bytes -> option bytes;
    (* key, nonce, aad, tag length, ciphertext with tag -> plaintext *)
  cr_dh : N -> bytes -> bytes -> option bytes;             (* curve, sk, pk *)
  cr_pub : N -> bytes -> bytes;                            (* curve, sk -> pk *)
  cr_sign : N -> bytes -> bytes -> bytes -> option bytes;  (* alg, sk, pk, message *)
  cr_verify : N -> bytes -> bytes -> bytes -> option bool  (* alg, pk, message, signature *)
}.

(** What correct primitives satisfy. Used as a hypothesis by the theorems that
    need it; inhabited by [toy_crypto] (Model_Toy.v). *)
(** assumptions on the libraries behind src/common/crypto_wrapper.c *)
Record crypto_ok (cr : crypto) : Prop := {
  ok_hmac_len : forall k m, lenN (cr_hmac cr k m) = 32;
  ok_hash_len : forall m, lenN (cr_hash cr m) = 32;
  ok_aead : forall k n a t p c, cr_aead_enc cr k n a t p = Some c -> cr_aead_dec cr k n a t c = Some p;
  ok_aead_enc_len : forall k n a t p c, cr_aead_enc cr k n a t p = Some c -> lenN c = lenN p + t;
  ok_aead_dec_len : forall k n a t p c, cr_aead_dec cr k n a t c = Some p -> lenN c = lenN p + t;
  ok_dh_comm : forall g a b, cr_dh cr g a (cr_pub cr g b) = cr_dh cr g b (cr_pub cr g a);
  ok_sign : forall g sk m s, cr_sign cr g sk (cr_pub cr g sk) m = Some s ->
            cr_verify cr g (cr_pub cr g sk) m s = Some true;
  ok_aead_enc_bytes : forall k n a t p c, cr_aead_enc cr k n a t p = Some c -> is_bytes c;
  ok_hmac_bytes : forall k m, is_bytes (cr_hmac cr k m);
  ok_hash_bytes : forall m, is_bytes (cr_hash cr m);
  ok_aead_dec_bytes : forall k n a t p c, cr_aead_dec cr k n a t c = Some p -> is_bytes c -> is_bytes p;
  ok_sign_len : forall g sk pk m s, cr_sign cr g sk pk m = Some s -> lenN s = 64;
  ok_sign_bytes : forall g sk pk m s, cr_sign cr g sk pk m = Some s -> is_bytes s;
  ok_dh_len : forall g a b s, cr_dh cr g a b = Some s -> lenN s = 32;
  ok_dh_bytes : forall g a b s, cr_dh cr g a b = Some s -> is_bytes s
}.

(** TRY_EXPECT on a library result. *)
(** inc/common/oscore_edhoc_error.h TRY_EXPECT *)
Definition ext {A} (o : option A) : res A :=
  match o with Some a => Ok a | None => Err unexpected_result_from_ext_lib end.

Section Hkdf.
Variable cr : crypto.

(** src/common/crypto_wrapper.c:432-490 hkdf_extract (SHA_256): an absent or
    empty salt is replaced by 32 zero bytes. *)
Definition hkdf_extract (salt ikm : bytes) : bytes :=
  cr_hmac cr (match salt with [] => repeat 0 32 | _ => salt end) ikm.

(** The loop of hkdf_expand, src/common/crypto_wrapper.c:508-525 (TinyCrypt) and
    553-568 (Mbed TLS). [wrap] is the conversion to the type of the loop
    counter: [uint8_t] in the TinyCrypt version, [uint32_t] in the Mbed TLS one.
    [t] is the previous block, [acc] what has been written to [out] so far,
    [outl] is out->len. Writing at index [(i-1)*32] with [i = 0] is a write
    before the buffer. *)
Fixpoint hkdf_expand_loop (wrap : N -> N) (fuel : nat) (prk info : bytes)
    (outl iterations i : N) (t acc : bytes) : res bytes :=
  if iterations <? i then Ok acc
  else match fuel with
  | O => UB OobWrite
  | S fuel' =>
      let t' := cr_hmac cr prk ((if 1 <? i then t else []) ++ info ++ [u8 i]) in
      if i =? 0 then UB OobWrite
      else
        let blk := if outl <? i * 32 then takeN (outl mod 32) t' else takeN 32 t' in
        if outl <? (i - 1) * 32 + lenN blk then UB OobWrite
        else hkdf_expand_loop wrap fuel' prk info outl iterations (wrap (i + 1)) t'
               (acc ++ blk)
  end.

(** src/common/crypto_wrapper.c:492-529 hkdf_expand, TinyCrypt version
    ([uint8_t i]). The fuel 300 is never exhausted: after 255 rounds the
    8-bit counter is 0 again, which is already undefined behaviour. *)
Definition hkdf_expand_tc (prk info : bytes) (outl : N) : res bytes :=
  let iterations := u32 (outl + 31) / 32 in
  if 255 <? iterations then Err hkdf_failed
  else hkdf_expand_loop u8 300 prk info outl iterations 1 [] [].

(** src/common/crypto_wrapper.c:492-503 and 530-572 hkdf_expand, Mbed TLS
    version ([uint32_t i]). Its extra check of info->len against INFO_MAX_SIZE
    (548-550) is the [cap] argument. *)
Definition hkdf_expand_psa (cap : N) (prk info : bytes) (outl : N) : res bytes :=
  let iterations := u32 (outl + 31) / 32 in
  if 255 <? iterations then Err hkdf_failed
  else if cap <? lenN info then Err unexpected_result_from_ext_lib
  else hkdf_expand_loop u32 300 prk info outl iterations 1 [] [].

(** src/common/crypto_wrapper.c:575-583 hkdf_sha_256 (TinyCrypt version). *)
Definition hkdf_sha_256 (secret salt info : bytes) (outl : N) : res bytes :=
  hkdf_expand_tc (hkdf_extract salt secret) info outl.

End Hkdf.
