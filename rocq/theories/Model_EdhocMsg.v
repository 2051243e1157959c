(** Model of src/edhoc/plaintext_decode.c, plaintext_encode.c, ciphertext.c and
    signature_or_mac_msg.c. *)
From Verif Require Import Base Model_Common Model_Cbor Model_Crypto Model_EdhocCfg Model_EdhocCbor
  Model_EdhocKeys Model_EdhocCert.

(** _memcpy_s of [b] into an array of capacity [cap] whose pointer is NULL iff
    [cap] is 0, as seen by the reader of the copy (src/common/memcpy_s.c:27-40) *)
Definition copy_null (cap : N) (b : bytes) : res bytes :=
  if lenN b =? 0 then Ok []
  else if cap =? 0 then Err wrong_parameter
  else let* _ := check_buffer_size cap (lenN b) in Ok b.

(** byte_array_append (src/common/byte_array.c:27-37) to the part [acc] of a buffer
    that is written already; the buffers behind the capacities are at least as
    large. *)
Definition append (cap : N) (acc b : bytes) : res bytes :=
  if cap <? lenN b + lenN acc then Err buffer_to_small else Ok (acc ++ b).

(** src/edhoc/plaintext_decode.c:39-79 id_cred_x_encode for the three labels *)
Definition id_cred_kid_encode (z : Z) (cap : N) : res bytes :=
  cbor_put cap (enc_id_cred_map {|
    ic_kid := Some (UInt z); ic_x5bag := None; ic_x5chain := None; ic_x5t := None; ic_x5u := None;
    ic_c5b := None; ic_c5c := None; ic_c5t := None; ic_c5u := None |}).
(** src/edhoc/plaintext_decode.c:39-79, label x5chain *)
Definition id_cred_x5chain_encode (c : bytes) (cap : N) : res bytes :=
  cbor_put cap (enc_id_cred_map {|
    ic_kid := None; ic_x5bag := None; ic_x5chain := Some c; ic_x5t := None; ic_x5u := None;
    ic_c5b := None; ic_c5c := None; ic_c5t := None; ic_c5u := None |}).
(** src/edhoc/plaintext_decode.c:39-79, label x5t *)
Definition id_cred_x5t_encode (alg : Z) (h : bytes) (cap : N) : res bytes :=
  cbor_put cap (enc_id_cred_map {|
    ic_kid := None; ic_x5bag := None; ic_x5chain := None; ic_x5t := Some (UInt alg, h);
    ic_x5u := None; ic_c5b := None; ic_c5c := None; ic_c5t := None; ic_c5u := None |}).

(** src/edhoc/plaintext_decode.c:104-140 (and 170-206), ID_CRED_x. [None]: nothing
    was written to the buffer, its length field still is [cap]. Members of the
    union that were not decoded are indeterminate. *)
Definition id_cred_split (i : id_cred_choice) (cap : N) : res (option bytes) :=
  match i with
  | IdMap m =>
      let* o1 := match ic_x5chain m with
                 | Some c => let* b := id_cred_x5chain_encode c cap in Ok (Some b)
                 | None => Ok None
                 end in
      match ic_x5t m with
      | Some (UInt alg, h) =>
          let* b := id_cred_x5t_encode alg h (match o1 with Some b => lenN b | None => cap end) in
          Ok (Some b)
      | Some (UStr _, _) => UB Uninit
      | None => Ok o1
      end
  | IdInt z => let* b := id_cred_kid_encode z cap in Ok (Some b)
  | IdBstr _ => UB Uninit
  end.

(** result of splitting a plaintext *)
(** the outputs of src/edhoc/plaintext_decode.c:224 *)
Record split := {
  sp_c_r : bytes;
  sp_id_cred : option bytes;
  sp_sig : bytes;
  sp_ead : bytes
}.
(** src/edhoc/plaintext_decode.c:81-157 plaintext2_split, with the capacities of
    c_r, id_cred_r and ead *)
Definition plaintext2_split (l : bytes) (c_cap id_cap ead_cap : N) : res split :=
  let* p := ext (cbor_decode_ptxt2 l) in
  let* c_r := match pt_c_r p with
              | Some (UStr b) => copy_null c_cap b
              | Some (UInt z) => encode_int z c_cap
              | None => UB Uninit
              end in
  let* id := id_cred_split (pt_id_cred p) id_cap in
  let* sg := copy_null SIG_OR_MAC_SIZE (pt_sgn_or_mac p) in
  let* ead := match pt_ead p with Some e => copy_null ead_cap e | None => Ok [] end in
  Ok {| sp_c_r := c_r; sp_id_cred := id; sp_sig := sg; sp_ead := ead |}.
(** src/edhoc/plaintext_decode.c:159-222 plaintext3_split *)
Definition plaintext3_split (l : bytes) (id_cap ead_cap : N) : res split :=
  let* p := ext (cbor_decode_ptxt3 l) in
  let* id := id_cred_split (pt_id_cred p) id_cap in
  let* sg := copy_null SIG_OR_MAC_SIZE (pt_sgn_or_mac p) in
  let* ead := match pt_ead p with Some e => copy_null ead_cap e | None => Ok [] end in
  Ok {| sp_c_r := []; sp_id_cred := id; sp_sig := sg; sp_ead := ead |}.

(** src/edhoc/plaintext_encode.c:26-48 id_cred2kid: the encoded kid, or nothing *)
Definition id_cred2kid (id_cred : bytes) : res bytes :=
  let* (m, _) := ext (dec_id_cred_map id_cred) in
  match ic_kid m with
  | Some (UInt z) => cbor_put KID_SIZE (enc_int z)
  | Some (UStr _) => UB Uninit
  | None => Ok []
  end.

(** src/edhoc/ciphertext.c:35-46 xor_arrays, for arrays of equal length; the caller
    ignores the error for different lengths, which does not occur because the key
    stream is generated with the length of the input. *)
Fixpoint xor_bytes (a b : bytes) : bytes :=
  match a, b with
  | x :: a', y :: b' => N.lxor x y :: xor_bytes a' b'
  | _, _ => []
  end.

Section Msg.
Variable cr : crypto.
Variable cf : cfg.

(** src/edhoc/ciphertext.c:88-117 key_gen *)
Definition key_gen_2 (prk th : bytes) (len : N) : res bytes := edhoc_kdf cr cf prk KEYSTREAM_2 th len.
(** src/edhoc/ciphertext.c:88-117 *)
Definition key_gen_3 (st : suite) (prk th : bytes) : res (bytes * bytes) :=
  let* k := edhoc_kdf cr cf prk K_3 th (get_aead_key_len (edhoc_aead st)) in
  let* iv := edhoc_kdf cr cf prk IV_3 th (get_aead_iv_len (edhoc_aead st)) in
  Ok (k, iv).

(** src/edhoc/ciphertext.c:119-182 ciphertext_decrypt_split for CIPHERTEXT2; result:
    the plaintext and its parts *)
Definition ciphertext2_decrypt_split (st : suite) (prk th ct : bytes) (c_cap id_cap ead_cap : N)
    : res (bytes * split) :=
  let* _ := byte_array_new (CIPHERTEXT2_SIZE cf) (lenN ct) in
  let* key := key_gen_2 prk th (lenN ct) in
  let* _ := associated_data_encode th in
  let pt := xor_bytes ct key in
  let* s := plaintext2_split pt c_cap id_cap ead_cap in
  Ok (pt, s).
(** the same for CIPHERTEXT3; the plaintext array has the length of the ciphertext
    when the function is called *)
(** src/edhoc/ciphertext.c:119-182 *)
Definition ciphertext3_decrypt_split (st : suite) (prk th ct : bytes) (id_cap ead_cap : N)
    : res (bytes * split) :=
  let* _ := byte_array_new (CIPHERTEXT2_SIZE cf) (get_aead_key_len (edhoc_aead st)) in
  let* (key, iv) := key_gen_3 st prk th in
  let* aad := associated_data_encode th in
  let tag_len := get_aead_mac_len (edhoc_aead st) in
  if lenN ct <? tag_len then Err error_message_received
  else
    let* pt := ext (cr_aead_dec cr key iv aad tag_len ct) in
    let* s := plaintext3_split pt id_cap ead_cap in
    Ok (pt, s).

(** src/edhoc/ciphertext.c:184-237 ciphertext_gen, the plaintext: [c_r = None] for
    CIPHERTEXT3; [cap] is the length of the plaintext array *)
Definition plaintext_gen (c_r : option bytes) (id_cred sig ead : bytes) (cap : N) : res bytes :=
  let* _ := byte_array_new (as_bstr_size SIG_OR_MAC_SIZE) (as_bstr_size (lenN sig)) in
  let* sig_enc := encode_bstr sig (as_bstr_size (lenN sig)) in
  let* p := match c_r with
            | None => Ok []
            | Some c =>
                if c_x_is_encoded_int c then append cap [] c
                else
                  let* _ := byte_array_new (as_bstr_size (C_I_SIZE cf)) (as_bstr_size (lenN c)) in
                  let* e := encode_bstr c (as_bstr_size (lenN c)) in
                  append cap [] e
            end in
  let* kid := id_cred2kid id_cred in
  let* p := append cap p (if lenN kid =? 0 then id_cred else kid) in
  let* p := append cap p sig_enc in
  if 0 <? lenN ead then append cap p ead else Ok p.
(** src/edhoc/ciphertext.c:184-271 ciphertext_gen for CIPHERTEXT2; [cap] and [bufsz]
    are the length of the plaintext array and the size of the ciphertext buffer.
    Result: plaintext and ciphertext. *)
Definition ciphertext2_gen (c_r id_cred sig ead prk th : bytes) (cap bufsz : N)
    : res (bytes * bytes) :=
  let* p := plaintext_gen (Some c_r) id_cred sig ead cap in
  let* _ := byte_array_new (CIPHERTEXT2_SIZE cf) (lenN p) in
  let* key := key_gen_2 prk th (lenN p) in
  if bufsz <? lenN p then UB OobWrite
  else Ok (p, xor_bytes p key).
(** the same for CIPHERTEXT3 *)
(** src/edhoc/ciphertext.c:184-271 *)
Definition ciphertext3_gen (st : suite) (id_cred sig ead prk th : bytes) (cap bufsz : N)
    : res (bytes * bytes) :=
  let* p := plaintext_gen None id_cred sig ead cap in
  let* _ := byte_array_new (CIPHERTEXT2_SIZE cf) (get_aead_key_len (edhoc_aead st)) in
  let* (key, iv) := key_gen_3 st prk th in
  let* aad := associated_data_encode th in
  let tag_len := get_aead_mac_len (edhoc_aead st) in
  if bufsz <? lenN p + tag_len then UB OobWrite
  else
    let* c := ext (cr_aead_enc cr key iv aad tag_len p) in
    Ok (p, c).

(** src/edhoc/signature_or_mac_msg.c:47-96 mac. For a one-byte C_R up to 23 the code
    reads a 32-bit integer from the one-byte array. *)
Definition mac (prk c_r th id_cred cred ead : bytes) (label : N) (static_dh : bool) (st : suite)
    : res bytes :=
  let* _ := byte_array_new (as_bstr_size HASH_SIZE) (as_bstr_size (lenN th)) in
  let* th_enc := encode_bstr th (as_bstr_size (lenN th)) in
  let cap := as_bstr_size (lenN c_r) + lenN id_cred + lenN cred + lenN ead + lenN th_enc in
  let* _ := byte_array_new (CONTEXT_MAC_SIZE cf) cap in
  let* ctx := (if lenN c_r =? 0 then Ok []
               else
                 let* _ := byte_array_new (as_bstr_size (C_R_SIZE cf)) (as_bstr_size (lenN c_r)) in
                 if c_r_is_raw_int c_r then UB OobRead
                 else
                   let* e := encode_bstr c_r (as_bstr_size (lenN c_r)) in
                   append cap [] e) in
  let* ctx := append cap ctx id_cred in
  let* ctx := append cap ctx th_enc in
  let* ctx := append cap ctx cred in
  let* ctx := (if 0 <? lenN ead then append cap ctx ead else Ok ctx) in
  edhoc_kdf cr cf prk label ctx (if static_dh then edhoc_mac_len_static_dh st else get_hash_len).

(** src/edhoc/signature_or_mac_msg.c:109-138 signature_struct_gen *)
Definition signature_struct_gen (th id_cred cred ead mac : bytes) (cap : N) : res bytes :=
  let* th_enc := encode_bstr th (as_bstr_size HASH_SIZE) in
  let* _ := byte_array_new (CRED_MAX_SIZE cf + as_bstr_size HASH_SIZE + EAD_SIZE cf)
              (lenN th_enc + lenN cred + lenN ead) in
  cose_sig_structure_encode str_signature1 id_cred (th_enc ++ cred ++ ead) mac cap.
(** src/edhoc/signature_or_mac_msg.c:158-168 and 196-205, the structure to be signed *)
Definition to_be_signed (th id_cred cred ead m : bytes) : res bytes :=
  let size := sig_struct_size_calc COSE_SIGN1_STR_LEN (lenN id_cred)
                (as_bstr_size (lenN th) + lenN cred + lenN ead) (lenN m) in
  let* _ := byte_array_new (SIG_STRUCT_SIZE cf) size in
  signature_struct_gen th id_cred cred ead m size.

(** src/edhoc/signature_or_mac_msg.c:148-178 signature_or_mac, GENERATE *)
Definition sig_or_mac_generate (static_dh : bool) (st : suite) (sk pk prk c_r th id_cred cred ead : bytes)
    (label : N) : res bytes :=
  let* m := mac prk c_r th id_cred cred ead label static_dh st in
  if static_dh then Ok m
  else
    let* tbs := to_be_signed th id_cred cred ead m in
    sign cr (edhoc_sign st) sk pk tbs.

(** src/edhoc/signature_or_mac_msg.c:179-225 signature_or_mac, VERIFY: the memcmp
    runs over the received length; behind the MAC the 32-byte buffer is not
    written, and behind its end lies something else. *)
Definition sig_or_mac_verify (static_dh : bool) (st : suite) (pk prk c_r th id_cred cred ead : bytes)
    (label : N) (received : bytes) : res unit :=
  let* m := mac prk c_r th id_cred cred ead label static_dh st in
  if static_dh then
    if HASH_SIZE <? lenN received then UB OobRead
    else if lenN received <=? lenN m
    then (if beqb (takeN (lenN received) m) received then Ok tt else Err mac_authentication_failed)
    else if beqb m (takeN (lenN m) received) then UB Uninit else Err mac_authentication_failed
  else
    let* tbs := to_be_signed th id_cred cred ead m in
    let* v := verify cr (edhoc_sign st) pk tbs received in
    if v then Ok tt else Err signature_authentication_failed.
End Msg.
