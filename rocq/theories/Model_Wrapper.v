(** src/common/crypto_wrapper.c in the build with Mbed TLS: every operation imports its
    key into the key store of the PSA library, uses it through its identifier and has to
    destroy it again, on every path. The library is represented by its key store, by the
    functions it computes ([prims]) and by an arbitrary list of faults, one for each call:
    a call may fail for reasons of its own (memory, hardware, a full key store).
    compact25519 and the decompression of P-256 points (src/common/crypto_p256.c) are
    called directly. *)
From Verif Require Import Base Model_Cbor Model_Crypto Model_Common Model_EdhocCfg Model_P256.

(** ** The libraries *)
(** inc of the PSA API, as used at crypto_wrapper.c:223-229, 326-336, 387-395, 466-469,
    533-536, 626-631, 730-738 *)
Inductive usage := Encrypt | Decrypt | SignHash | SignMessage | VerifyHash | VerifyMessage | Derive | Export.
(** key types, crypto_wrapper.c:227, 333, 393, 469, 536, 630, 736 *)
Inductive ktype := Aes | Hmac | EcPair | EcPublic.
(** algorithms, the same lines and crypto_wrapper.c:220-221 *)
Inductive kalg := Ccm (tag_len : N) | HmacSha256 | EcdsaSha256 | Ecdh.
(** psa_key_attributes_t, filled at crypto_wrapper.c:223-229; [a_bits] is 0 when psa_set_key_bits is not called *)
Record attrs := { a_usage : list usage; a_alg : kalg; a_type : ktype; a_bits : N }.

(** What the libraries compute (the PSA functions, edsign_*, c25519_*, compact_x25519_keygen
    called in crypto_wrapper.c). [None] is a failure for the given arguments. *)
Record prims := {
  pr_hmac : bytes -> bytes -> bytes;                            (* key, message *)
  pr_hash : bytes -> bytes;
  pr_ccm_enc : bytes -> bytes -> bytes -> N -> bytes -> option bytes;
  pr_ccm_dec : bytes -> bytes -> bytes -> N -> bytes -> option bytes;
  pr_ec_sk_ok : bytes -> bool;                                  (* 32 bytes in the range of private keys *)
  pr_ec_pk_ok : bytes -> bool;                                  (* 65 bytes, a point of the curve *)
  pr_ec_pub : bytes -> bytes;                                   (* uncompressed point, 65 bytes *)
  pr_ec_agree : bytes -> bytes -> option bytes;                 (* private key, uncompressed point *)
  pr_ec_sign : bytes -> bytes -> option bytes;                  (* private key, message *)
  pr_ec_verify : bytes -> bytes -> bytes -> bool;               (* uncompressed point, message, signature *)
  pr_x_mult : bytes -> bytes -> bytes;                          (* X25519: private key, public key *)
  pr_x_pub : bytes -> bytes;
  pr_x_clamp : bytes -> bytes;                                  (* seed -> private key *)
  pr_ed_sign : bytes -> bytes -> bytes -> bytes;                (* public key, private key, message *)
  pr_ed_pub : bytes -> bytes;
  pr_ed_verify : bytes -> bytes -> bytes -> bool                (* signature, public key, message *)
}.

(** A slot of the key store, filled by psa_import_key (crypto_wrapper.c:230) *)
Record slot := { k_attr : attrs; k_data : bytes }.
(** The state of the library used from crypto_wrapper.c:214-250 on: the keys with their identifiers, the next identifier, the
    faults to come, the random bytes for key generation, whether psa_destroy_key has failed
    for an existing key, and whether it has been called with an identifier that is not in
    the store. *)
Record psa := { keys : list (N * slot); next : N; faults : list bool; rnd : list bytes; lost : bool; wrong : bool }.
(** Whether the next call fails (any of those under TRY_EXPECT_PSA, crypto_wrapper.c:63-75) *)
Definition fault (s : psa) : bool * psa :=
  match faults s with
  | [] => (false, s)
  | b :: l => (b, {| keys := keys s; next := next s; faults := l; rnd := rnd s; lost := lost s; wrong := wrong s |})
  end.
(** library, for crypto_wrapper.c:236 and similar: the key with an identifier *)
Fixpoint lookup (id : N) (l : list (N * slot)) : option slot :=
  match l with [] => None | (i, k) :: l' => if i =? id then Some k else lookup id l' end.
(** library, for crypto_wrapper.c:250 and similar: the other keys *)
Definition remove (id : N) (l : list (N * slot)) : list (N * slot) := filter (fun e => negb (fst e =? id)) l.

(** library, for crypto_wrapper.c:230 and similar: key material that psa_import_key accepts for the attributes *)
Definition key_ok (pr : prims) (a : attrs) (data : bytes) : bool :=
  ((a_bits a =? 0) || (a_bits a =? (match a_type a with EcPublic => 256 | _ => 8 * lenN data end))) &&
  match a_type a with
  | Aes => (lenN data =? 16) || (lenN data =? 24) || (lenN data =? 32)
  | Hmac => negb (lenN data =? 0)
  | EcPair => (lenN data =? 32) && pr_ec_sk_ok pr data
  | EcPublic => (lenN data =? 65) && pr_ec_pk_ok pr data
  end.
(** library, flags of crypto_wrapper.c:224-225 and similar: a usage flag, where the flag for hashes implies the one for messages *)
Definition has_usage (u : usage) (a : attrs) : bool :=
  existsb (fun v => match u, v with
    | Encrypt, Encrypt | Decrypt, Decrypt | SignHash, SignHash | SignMessage, (SignMessage | SignHash)
    | VerifyHash, VerifyHash | VerifyMessage, (VerifyMessage | VerifyHash) | Derive, Derive | Export, Export => true
    | _, _ => false end) (a_usage a).
(** library, for crypto_wrapper.c:236 and similar: the algorithm given to the operation has to be the one of the key *)
Definition alg_eqb (a b : kalg) : bool :=
  match a, b with
  | Ccm n, Ccm m => n =? m
  | HmacSha256, HmacSha256 | EcdsaSha256, EcdsaSha256 | Ecdh, Ecdh => true
  | _, _ => false
  end.

Section Psa.
Variable pr : prims.
(** The PSA functions return [Some] result for PSA_SUCCESS and [None] otherwise. *)
(** psa_crypto_init, called first at crypto_wrapper.c:217 *)
Definition psa_crypto_init (s : psa) : option unit * psa :=
  let (f, s) := fault s in (if f then None else Some tt, s).
(** psa_import_key, called first at crypto_wrapper.c:230; on failure the identifier is 0 *)
Definition psa_import_key (a : attrs) (data : bytes) (s : psa) : option unit * N * psa :=
  let (f, s) := fault s in
  if f then (None, 0, s)
  else if key_ok pr a data then
    (Some tt, next s, {| keys := (next s, {| k_attr := a; k_data := data |}) :: keys s; next := next s + 1;
                         faults := faults s; rnd := rnd s; lost := lost s; wrong := wrong s |})
  else (None, 0, s).
(** psa_destroy_key, called first at crypto_wrapper.c:68 *)
Definition psa_destroy_key (id : N) (s : psa) : option unit * psa :=
  let (f, s) := fault s in
  match lookup id (keys s) with
  | Some _ =>
      if f then (None, {| keys := keys s; next := next s; faults := faults s; rnd := rnd s; lost := true; wrong := wrong s |})
      else (Some tt, {| keys := remove id (keys s); next := next s; faults := faults s; rnd := rnd s; lost := lost s; wrong := wrong s |})
  | None => (None, {| keys := keys s; next := next s; faults := faults s; rnd := rnd s; lost := lost s; wrong := true |})
  end.
(** library, for crypto_wrapper.c:236, 243, 343, 400, 483, 557, 658: an operation with the key [id] that needs a usage flag, an algorithm and a key type *)
Definition with_key {A} (id : N) (u : usage) (g : kalg) (ty : ktype -> bool) (f : bytes -> option A) (s : psa) : option A * psa :=
  let (b, s) := fault s in
  if b then (None, s)
  else match lookup id (keys s) with
       | Some k => (if has_usage u (k_attr k) && alg_eqb g (a_alg (k_attr k)) && ty (a_type (k_attr k)) then f (k_data k) else None, s)
       | None => (None, s)
       end.
(** key types of crypto_wrapper.c:227, 333, 393, 469 that an operation accepts *)
Definition is_aes (t : ktype) := match t with Aes => true | _ => false end.
(** key types of crypto_wrapper.c:227, 333, 393, 469 that an operation accepts *)
Definition is_hmac (t : ktype) := match t with Hmac => true | _ => false end.
(** key types of crypto_wrapper.c:227, 333, 393, 469 that an operation accepts *)
Definition is_pair (t : ktype) := match t with EcPair => true | _ => false end.
(** key types of crypto_wrapper.c:227, 333, 393, 469 that an operation accepts *)
Definition is_public (t : ktype) := match t with EcPublic => true | _ => false end.
(** psa_aead_encrypt, called at crypto_wrapper.c:243; [osize] is the size of the output *)
Definition psa_aead_encrypt (id : N) (g : kalg) (t : N) (nonce aad inp : bytes) (osize : N) :=
  with_key id Encrypt g is_aes (fun k =>
    match pr_ccm_enc pr k nonce aad t inp with Some c => if osize <? lenN c then None else Some c | None => None end).
(** psa_aead_decrypt, called at crypto_wrapper.c:236 *)
Definition psa_aead_decrypt (id : N) (g : kalg) (t : N) (nonce aad inp : bytes) (osize : N) :=
  with_key id Decrypt g is_aes (fun k =>
    match pr_ccm_dec pr k nonce aad t inp with Some p => if osize <? lenN p then None else Some p | None => None end).
(** psa_sign_message, called at crypto_wrapper.c:343 *)
Definition psa_sign_message (id : N) (g : kalg) (msg : bytes) (osize : N) :=
  with_key id SignMessage g is_pair (fun k =>
    match pr_ec_sign pr k msg with Some c => if osize <? lenN c then None else Some c | None => None end).
(** psa_verify_message, called at crypto_wrapper.c:400 *)
Definition psa_verify_message (id : N) (g : kalg) (msg sgn : bytes) :=
  with_key id VerifyMessage g is_public (fun k => if pr_ec_verify pr k msg sgn then Some tt else None).
(** psa_mac_compute, called at crypto_wrapper.c:483 and 557; the output has 32 bytes *)
Definition psa_mac_compute (id : N) (g : kalg) (msg : bytes) :=
  with_key id SignMessage g is_hmac (fun k => Some (pr_hmac pr k msg)).
(** psa_raw_key_agreement, called at crypto_wrapper.c:658 *)
Definition psa_raw_key_agreement (id : N) (g : kalg) (pk : bytes) (osize : N) :=
  with_key id Derive g is_pair (fun k =>
    if pr_ec_pk_ok pr pk then
      match pr_ec_agree pr k pk with Some c => if osize <? lenN c then None else Some c | None => None end
    else None).
(** psa_generate_key, called at crypto_wrapper.c:740 *)
Definition psa_generate_key (a : attrs) (s : psa) : option unit * N * psa :=
  match rnd s with
  | d :: r => psa_import_key a d {| keys := keys s; next := next s; faults := faults s; rnd := r; lost := lost s; wrong := wrong s |}
  | [] => (None, 0, s)
  end.
(** psa_export_key, called at crypto_wrapper.c:747 *)
Definition psa_export_key (id osize : N) (s : psa) : option bytes * psa :=
  let (b, s) := fault s in
  if b then (None, s)
  else match lookup id (keys s) with
       | Some k => (if has_usage Export (k_attr k) && (lenN (k_data k) <=? osize) then Some (k_data k) else None, s)
       | None => (None, s)
       end.
(** psa_export_public_key, called at crypto_wrapper.c:752 *)
Definition psa_export_public_key (id osize : N) (s : psa) : option bytes * psa :=
  let (b, s) := fault s in
  if b then (None, s)
  else match lookup id (keys s) with
       | Some k => (if is_pair (a_type (k_attr k)) && (lenN (pr_ec_pub pr (k_data k)) <=? osize)
                    then Some (pr_ec_pub pr (k_data k)) else None, s)
       | None => (None, s)
       end.
(** psa_hash_compute, called at crypto_wrapper.c:689 and 784; the output has 32 bytes *)
Definition psa_hash_compute (msg : bytes) (s : psa) : option bytes * psa :=
  let (f, s) := fault s in (if f then None else Some (pr_hash pr msg), s).

(** ** The wrapper *)
(** crypto_wrapper.c:63-75 TRY_EXPECT_PSA *)
Definition try_psa {A B} (r : option A * psa) (key_id : N) (e : err) (k : A -> psa -> res B * psa) : res B * psa :=
  match r with
  | (Some a, s) => k a s
  | (None, s) => (Err e, if key_id =? 0 then s else snd (psa_destroy_key key_id s))
  end.
(** inc/common/oscore_edhoc_error.h TRY_EXPECT *)
Definition try_expect {A B} (r : option A * psa) (k : A -> psa -> res B * psa) : res B * psa :=
  match r with
  | (Some a, s) => k a s
  | (None, s) => (Err unexpected_result_from_ext_lib, s)
  end.
(** crypto_wrapper.c:230-231: TRY_EXPECT_PSA around psa_import_key; the macro sees the identifier that the call
    has just written *)
Definition try_import {B} (a : attrs) (data : bytes) (s : psa) (k : N -> psa -> res B * psa) : res B * psa :=
  let '(r, id, s) := psa_import_key a data s in
  try_psa (r, s) id unexpected_result_from_ext_lib (fun _ s => k id s).

(** crypto_wrapper.c:220-229 *)
Definition aead_attr (key_len tag_len : N) : attrs :=
  {| a_usage := [Decrypt; Encrypt]; a_alg := Ccm tag_len; a_type := Aes; a_bits := 8 * key_len |}.
(** crypto_wrapper.c:173-254 aead (ENCRYPT); result: what is written to out->ptr (ciphertext and
    tag) and to tag->ptr *)
Definition w_encrypt (inp key nonce aad : bytes) (tag_len : N) (s : psa) : res (bytes * bytes) * psa :=
  try_psa (psa_crypto_init s) 0 unexpected_result_from_ext_lib (fun _ s =>
  try_import (aead_attr (lenN key) tag_len) key s (fun id s =>
  try_psa (psa_aead_encrypt id (Ccm tag_len) tag_len nonce aad inp (lenN inp + tag_len) s) id unexpected_result_from_ext_lib (fun c s =>
  try_expect (psa_destroy_key id s) (fun _ s =>
  (Ok (c, takeN tag_len (dropN (lenN c - tag_len) c)), s))))).
(** crypto_wrapper.c:173-254 aead (DECRYPT); [out_len] is out->len *)
Definition w_decrypt (inp key nonce aad : bytes) (tag_len out_len : N) (s : psa) : res bytes * psa :=
  try_psa (psa_crypto_init s) 0 unexpected_result_from_ext_lib (fun _ s =>
  try_import (aead_attr (lenN key) tag_len) key s (fun id s =>
  try_psa (psa_aead_decrypt id (Ccm tag_len) tag_len nonce aad inp out_len s) id unexpected_result_from_ext_lib (fun p s =>
  try_expect (psa_destroy_key id s) (fun _ s => (Ok p, s))))).

(** crypto_wrapper.c:320-336 *)
Definition sign_attr (sk_len : N) : attrs :=
  {| a_usage := [VerifyMessage; VerifyHash; SignMessage; SignHash]; a_alg := EcdsaSha256; a_type := EcPair; a_bits := 8 * sk_len |}.
(** crypto_wrapper.c:275-356 sign; [c25519] says whether COMPACT25519 is defined *)
Definition w_sign (c25519 : bool) (alg : sign_alg) (sk pk msg : bytes) (s : psa) : res bytes * psa :=
  match alg with
  | EdDSA => (if c25519 then Ok (pr_ed_sign pr pk sk msg) else Err unsupported_ecdh_curve, s)
  | ES256 =>
      try_psa (psa_crypto_init s) 0 unexpected_result_from_ext_lib (fun _ s =>
      try_import (sign_attr (lenN sk)) sk s (fun id s =>
      try_psa (psa_sign_message id EcdsaSha256 msg 64 s) id unexpected_result_from_ext_lib (fun c s =>
      try_psa (if lenN c =? 64 then Some tt else None, s) id sign_failed (fun _ s =>
      try_expect (psa_destroy_key id s) (fun _ s => (Ok c, s))))))
  end.

(** crypto_wrapper.c:381-395 *)
Definition verify_attr : attrs :=
  {| a_usage := [VerifyMessage; VerifyHash]; a_alg := EcdsaSha256; a_type := EcPublic; a_bits := 256 |}.
(** crypto_wrapper.c:358-430 verify; result: *result *)
Definition w_verify (c25519 : bool) (alg : sign_alg) (pk msg sgn : bytes) (s : psa) : res bool * psa :=
  match alg with
  | EdDSA => (if c25519 then Ok (pr_ed_verify pr sgn pk msg) else Err crypto_operation_not_implemented, s)
  | ES256 =>
      try_psa (psa_crypto_init s) 0 unexpected_result_from_ext_lib (fun _ s =>
      try_import verify_attr pk s (fun id s =>
      let (status, s) := psa_verify_message id EcdsaSha256 msg sgn s in
      let result := match status with Some _ => true | None => false end in
      try_expect (psa_destroy_key id s) (fun _ s => (Ok result, s))))
  end.

(** crypto_wrapper.c:466-469 and 533-536 *)
Definition hmac_attr : attrs := {| a_usage := [SignHash]; a_alg := HmacSha256; a_type := Hmac; a_bits := 0 |}.
(** crypto_wrapper.c:432-490 hkdf_extract (SHA_256); an absent or empty salt is [] *)
Definition w_hkdf_extract (salt ikm : bytes) (s : psa) : res bytes * psa :=
  try_psa (psa_crypto_init s) 0 unexpected_result_from_ext_lib (fun _ s =>
  try_import hmac_attr (match salt with [] => repeat 0 32 | _ => salt end) s (fun id s =>
  try_psa (psa_mac_compute id HmacSha256 ikm s) id unexpected_result_from_ext_lib (fun out s =>
  try_expect (psa_destroy_key id s) (fun _ s => (Ok out, s))))).

(** crypto_wrapper.c:548-569: the loop; [acc] is what has been written to out->ptr. combo
    holds tmp_out, info and the counter, of which the part from [offset] on is used. *)
Fixpoint w_expand_loop (n : nat) (id : N) (info : bytes) (outl i offset : N) (tmp_out acc : bytes) (s : psa) : res bytes * psa :=
  match n with
  | O => (Ok acc, s)
  | S n' =>
      let combo := tmp_out ++ info ++ [u8 i] in
      try_psa (psa_mac_compute id HmacSha256 (dropN offset combo) s) id unexpected_result_from_ext_lib (fun tmp_out s =>
      let blk := if outl <? i * 32 then takeN (outl mod 32) tmp_out else takeN 32 tmp_out in
      w_expand_loop n' id info outl (i + 1) 0 tmp_out (acc ++ blk) s)
  end.
(** crypto_wrapper.c:492-573 hkdf_expand (SHA_256); [cap] is INFO_MAX_SIZE. The loop runs
    [iterations] times, at most 255. *)
Definition w_hkdf_expand (cap : N) (prk info : bytes) (outl : N) (s : psa) : res bytes * psa :=
  let iterations := u32 (outl + 31) / 32 in
  if 255 <? iterations then (Err hkdf_failed, s)
  else
    try_psa (psa_crypto_init s) 0 unexpected_result_from_ext_lib (fun _ s =>
    try_import hmac_attr prk s (fun id s =>
    try_psa (if cap + 33 <? 32 + lenN info + 1 then None else Some tt, s) id unexpected_result_from_ext_lib (fun _ s =>
    match w_expand_loop (N.to_nat iterations) id info outl 1 32 (repeat 0 32) [] s with
    | (Ok out, s) => try_expect (psa_destroy_key id s) (fun _ s => (Ok out, s))
    | (r, s) => (r, s)
    end))).

(** crypto_wrapper.c:626-631: psa_set_key_bits is not called *)
Definition dh_attr : attrs := {| a_usage := [Derive]; a_alg := Ecdh; a_type := EcPair; a_bits := 0 |}.
(** crypto_wrapper.c:585-672 shared_secret_derive; [mi] and the [junk]s as in Model_P256.v.
    PSA_RAW_KEY_AGREEMENT_OUTPUT_SIZE of 8 * sk->len bits is sk->len. X25519 reads 32
    bytes of both keys. *)
Definition w_derive (c25519 : bool) (mi : muladd) (junk1 junk2 junk3 : list N) (alg : ecdh_alg) (sk pk : bytes) (s : psa)
    : res bytes * psa :=
  match alg with
  | X25519 =>
      (if negb c25519 then Err crypto_operation_not_implemented
       else if (lenN sk <? 32) || (lenN pk <? 32) then UB OobRead
       else Ok (pr_x_mult pr (takeN 32 sk) (takeN 32 pk)), s)
  | P256 =>
      try_psa (psa_crypto_init s) 0 unexpected_result_from_ext_lib (fun _ s =>
      try_import dh_attr sk s (fun id s =>
      let (result, s) :=
        match uncompress_point mi junk1 junk2 junk3 pk 65 with
        | None => (Err unexpected_result_from_ext_lib, s)
        | Some pt =>
            match psa_raw_key_agreement id Ecdh pt (lenN sk) s with
            | (None, s) => (Err unexpected_result_from_ext_lib, s)
            | (Some c, s) => (Ok c, s)
            end
        end in
      if id =? 0 then (result, s) else try_expect (psa_destroy_key id s) (fun _ s => (result, s))))
  end.

(** crypto_wrapper.c:730-738 *)
Definition gen_attr : attrs :=
  {| a_usage := [Export; Derive; SignMessage; SignHash]; a_alg := Ecdh; a_type := EcPair; a_bits := 256 |}.
(** crypto_wrapper.c:674-768 ephemeral_dh_key_gen. [sk_len] and [pk_len] are the lengths of
    the arrays that the caller passes, [junk] what the array extended_seed holds. Result:
    what is written to sk->ptr, to pk->ptr, and the new lengths. For X25519 without
    COMPACT25519 nothing is written and ok is returned. *)
Definition w_keygen (c25519 : bool) (junk : bytes) (alg : ecdh_alg) (seed sk_len pk_len : N) (s : psa)
    : res (bytes * bytes * (N * N)) * psa :=
  match alg with
  | X25519 =>
      if negb c25519 then (Ok ([], [], (sk_len, pk_len)), s)
      else
        (if sk_len <? 32 then (UB OobWrite, s) else
        try_expect (psa_hash_compute (rev (be_enc 4 seed)) s) (fun h s =>
        if negb (lenN h =? 32) then (Err sha_failed, s)
        else if pk_len <? 32 then (UB OobWrite, s)
        else (Ok (pr_x_clamp pr junk, pr_x_pub pr (pr_x_clamp pr junk), (32, 32)), s)))
  | P256 =>
      if pk_len <? 32 then (Err buffer_to_small, s)
      else
        try_psa (psa_crypto_init s) 0 unexpected_result_from_ext_lib (fun _ s =>
        let '(r, id, s) := psa_generate_key gen_attr s in
        try_psa (r, s) id unexpected_result_from_ext_lib (fun _ s =>
        if sk_len <? 32 then (UB OobWrite, s) else
        try_psa (psa_export_key id 32 s) id unexpected_result_from_ext_lib (fun sk s =>
        try_psa (psa_export_public_key id 65 s) id unexpected_result_from_ext_lib (fun pub s =>
        try_psa (if lenN pub =? 65 then Some tt else None, s) id unexpected_result_from_ext_lib (fun _ s =>
        try_expect (psa_destroy_key id s) (fun _ s =>
        (Ok (sk, takeN 32 (dropN 1 pub), (sk_len, 32)), s)))))))
  end.

(** crypto_wrapper.c:770-797 hash (SHA_256) *)
Definition w_hash (msg : bytes) (s : psa) : res bytes * psa :=
  try_expect (psa_hash_compute msg s) (fun h s => if negb (lenN h =? 32) then (Err sha_failed, s) else (Ok h, s)).
End Psa.
