(** src/common/crypto_wrapper.c in the build with TinyCrypt (and compact25519): aead, sign,
    verify, shared_secret_derive, ephemeral_dh_key_gen and hash. HKDF is in Model_Crypto.v
    (hkdf_expand), the decompression of points in Model_Uecc.v.

    Functions that crypto_wrapper.c calls but does not define are marked "library"; they
    appear by the mathematical functions of [prims] (Model_Wrapper.v) and [tiny], and by the
    conditions on lengths that TinyCrypt's headers state. Pointers are not NULL.
    Arguments whose length TinyCrypt takes for granted are modelled by the bytes it reads:
    fewer bytes than that are [UB OobRead]. *)
From Verif Require Import Base Model_Cbor Model_Crypto Model_EdhocCfg Model_Uecc Model_Wrapper.

(** The P-256 functions of TinyCrypt, called at crypto_wrapper.c:311, 424, 609 and 711 *)
Record tiny := {
  ty_pub : bytes -> bytes;                          (* private key -> 64 bytes x, y *)
  ty_mul : bytes -> bytes -> option bytes;          (* uECC_shared_secret: 64 bytes x, y and private key *)
  ty_sign : bytes -> bytes -> option bytes;         (* uECC_sign: private key, hash *)
  ty_verify : bytes -> bytes -> bytes -> bool       (* uECC_verify: 64 bytes x, y, hash, 64 bytes *)
}.

Section Tiny.
Variable pr : prims.
Variable ty : tiny.

(** library, called at crypto_wrapper.c:197: tc_ccm_config accepts nonces of 13 bytes and
    tags of 4, 6, ..., 16 bytes *)
Definition ccm_config (nonce_len tag_len : N) : bool :=
  (nonce_len =? 13) && (4 <=? tag_len) && (tag_len <=? 16) && N.even tag_len.
(** library, called at crypto_wrapper.c:202 and 208: TC_CCM_AAD_MAX_BYTES and
    TC_CCM_PAYLOAD_MAX_BYTES *)
Definition aad_max : N := 0xff00.
(** library, see [aad_max] *)
Definition payload_max : N := 0x10000.
(** library, called at crypto_wrapper.c:196: tc_aes128_set_encrypt_key reads 16 bytes, and
    then the checks of tc_ccm_config (crypto_wrapper.c:197) *)
Definition with_ccm {A} (key nonce : bytes) (tag_len : N) (k : bytes -> res A) : res A :=
  if lenN key <? 16 then UB OobRead
  else if ccm_config (lenN nonce) tag_len then k (takeN 16 key)
  else Err unexpected_result_from_ext_lib.

(** crypto_wrapper.c:194-214 aead (ENCRYPT). [mem] is the memory at out->ptr, [out_len] is
    out->len. Result: that memory after the call, and what is written to tag->ptr. *)
Definition t_encrypt (inp key nonce aad : bytes) (tag_len out_len : N) (mem : bytes) : res (bytes * bytes) :=
  with_ccm key nonce tag_len (fun key =>
  if (aad_max <=? lenN aad) || (payload_max <=? lenN inp) || (out_len + tag_len <? lenN inp + tag_len)
  then Err unexpected_result_from_ext_lib
  else if lenN mem <? lenN inp + tag_len then UB OobWrite
  else
    let* c := ext (pr_ccm_enc pr key nonce aad tag_len inp) in
    let mem := c ++ dropN (lenN c) mem in
    if lenN mem <? out_len + tag_len then UB OobRead
    else Ok (mem, takeN tag_len (dropN out_len mem))).
(** crypto_wrapper.c:194-206 aead (DECRYPT); result: what is written to out->ptr. The library
    compares out->len with in->len - tag->len, which wraps if the input is shorter than a
    tag and is then larger than every out->len. *)
Definition t_decrypt (inp key nonce aad : bytes) (tag_len out_len : N) : res bytes :=
  with_ccm key nonce tag_len (fun key =>
  if (aad_max <=? lenN aad) || (payload_max <=? lenN inp) || (lenN inp <? tag_len) || (out_len <? lenN inp - tag_len)
  then Err unexpected_result_from_ext_lib
  else ext (pr_ccm_dec pr key nonce aad tag_len inp)).

(** crypto_wrapper.c:275-356 sign; ES256 at lines 298-314. The length of the private key is
    not looked at. *)
Definition t_sign (c25519 : bool) (alg : sign_alg) (sk pk msg : bytes) : res bytes :=
  match alg with
  | EdDSA => if c25519 then Ok (pr_ed_sign pr pk sk msg) else Err unsupported_ecdh_curve
  | ES256 => if lenN sk <? 32 then UB OobRead else ext (ty_sign ty (takeN 32 sk) (pr_hash pr msg))
  end.
(** crypto_wrapper.c:358-430 verify; ES256 at lines 410-428. Result: *result. The lengths of
    the signature and of the key are not looked at, except that the first byte of a key of
    65 bytes is skipped if it is 4. *)
Definition t_verify (c25519 : bool) (alg : sign_alg) (pk msg sgn : bytes) : res bool :=
  match alg with
  | EdDSA => if c25519 then Ok (pr_ed_verify pr sgn pk msg) else Err crypto_operation_not_implemented
  | ES256 =>
      let key := if (lenN pk =? 65) && (nth 0 pk 0 =? 4) then dropN 1 pk else pk in
      if (lenN key <? 64) || (lenN sgn <? 64) then UB OobRead
      else if ty_verify ty (takeN 64 key) (pr_hash pr msg) (takeN 64 sgn) then Ok true
      else Err unexpected_result_from_ext_lib
  end.
(** crypto_wrapper.c:585-672 shared_secret_derive; P256 at lines 599-613 (Model_Uecc.v) *)
Definition t_derive (c25519 : bool) (alg : ecdh_alg) (sk pk : bytes) : res bytes :=
  match alg with
  | X25519 =>
      if c25519 then
        if (lenN sk <? 32) || (lenN pk <? 32) then UB OobRead
        else Ok (pr_x_mult pr (takeN 32 sk) (takeN 32 pk))
      else Err crypto_operation_not_implemented
  | P256 => tc_p256_derive (ty_mul ty) (takeN 32 sk) (takeN 32 pk)
  end.
(** crypto_wrapper.c:674-721 ephemeral_dh_key_gen. [drawn] is the private key that
    uECC_make_key draws (None: it fails). Result: what is written to sk->ptr and pk->ptr, and
    the new lengths; that of sk is not changed with P256. For X25519 without COMPACT25519
    nothing is written and ok is returned. The seed is hashed as the 4 bytes of a little
    endian uint32_t. *)
Definition t_keygen (c25519 : bool) (drawn : option bytes) (alg : ecdh_alg) (seed sk_len pk_len : N) : res (bytes * bytes * (N * N)) :=
  match alg with
  | X25519 =>
      if negb c25519 then Ok ([], [], (sk_len, pk_len))
      else if (sk_len <? 32) || (pk_len <? 32) then UB OobWrite
      else
        let sk := pr_x_clamp pr (pr_hash pr (rev (be_enc 4 (u32 seed)))) in
        Ok (sk, pr_x_pub pr sk, (32, 32))
  | P256 =>
      if pk_len <? 32 then Err buffer_to_small
      else if sk_len <? 32 then UB OobWrite
      else let* sk := ext drawn in Ok (sk, takeN 32 (ty_pub ty sk), (sk_len, 32))
  end.
(** crypto_wrapper.c:770-781 hash (SHA_256); the result has 32 bytes, [cap] is the room at
    out->ptr (out->len is not looked at) *)
Definition t_hash (msg : bytes) (cap : N) : res bytes := if cap <? 32 then UB OobWrite else Ok (pr_hash pr msg).
End Tiny.
