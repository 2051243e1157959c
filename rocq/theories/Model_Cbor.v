(** Model of the zcbor primitives used by the generated files in src/cbor.
    zcbor itself is not part of /repo (externals/zcbor is empty): encoders are
    the shortest-form definite-length encoders obtained with ZCBOR_CANONICAL
    (test/CMakeLists.txt:42, samples/*/Makefile), decoders accept any definite
    head width and refuse indefinite lengths. An encoder fails exactly when the
    result does not fit the output buffer. *)
From Verif Require Import Base.

(** [be_enc k v]: [v] on [k] bytes, big endian (arithmetic for the heads that zcbor writes
    for src/cbor/*.c). *)
Fixpoint be_enc (k : nat) (v : N) : bytes :=
  match k with
  | O => []
  | S k' => be_enc k' (v / 256) ++ [v mod 256]
  end.

(** value of a big-endian byte string (for the heads that zcbor reads for src/cbor/*.c) *)
Definition be_val (l : bytes) : N := fold_left (fun a b => a * 256 + b) l 0.

(** CBOR head: major type [mt], argument [v]; written by every zcbor_*_encode, e.g. for
    src/cbor/edhoc_encode_bstr_type.c:27. *)
Definition enc_head (mt v : N) : bytes :=
  if v <? 24 then [mt * 32 + v]
  else if v <? 2 ^ 8 then (mt * 32 + 24) :: be_enc 1 v
  else if v <? 2 ^ 16 then (mt * 32 + 25) :: be_enc 2 v
  else if v <? 2 ^ 32 then (mt * 32 + 26) :: be_enc 4 v
  else (mt * 32 + 27) :: be_enc 8 v.

(** zcbor_uint32_encode / zcbor_uint32_put, e.g. src/cbor/edhoc_encode_info.c:27 *)
Definition enc_uint (v : N) : bytes := enc_head 0 v.
(** zcbor_int32_encode, e.g. src/cbor/edhoc_encode_data_2.c:28 *)
Definition enc_int (z : Z) : bytes :=
  if (0 <=? z)%Z then enc_head 0 (Z.to_N z) else enc_head 1 (Z.to_N (-1 - z)).
(** zcbor_bstr_encode, e.g. src/cbor/edhoc_encode_bstr_type.c:27 *)
Definition enc_bstr (b : bytes) : bytes := enc_head 2 (lenN b) ++ b.
(** zcbor_tstr_encode, e.g. src/cbor/edhoc_encode_enc_structure.c:27 *)
Definition enc_tstr (b : bytes) : bytes := enc_head 3 (lenN b) ++ b.
(** zcbor_list_start_encode .. zcbor_list_end_encode with [n] elements,
    e.g. src/cbor/edhoc_encode_enc_structure.c:27-29 *)
Definition enc_list (n : N) : bytes := enc_head 4 n.
(** zcbor_map_start_encode .. zcbor_map_end_encode with [n] pairs,
    e.g. src/cbor/edhoc_encode_id_cred_x.c:206-214 *)
Definition enc_map (n : N) : bytes := enc_head 5 n.
(** zcbor_nil_put, src/cbor/oscore_info.c:29 *)
Definition enc_nil : bytes := [246].

(** zcbor_entry_function on an output buffer of [cap] bytes, with the caller's
    TRY_EXPECT(.., 0) (inc/common/oscore_edhoc_error.h:97-104). *)
Definition cbor_put (cap : N) (b : bytes) : res bytes :=
  if lenN b <=? cap then Ok b else Err unexpected_result_from_ext_lib.

(** Decoder of a head: major type, argument, rest; read by every zcbor_*_decode, e.g. for
    src/cbor/edhoc_decode_bstr_type.c:27. First the argument on [k] bytes. *)
Definition dec_arg (k : N) (l : bytes) : option (N * bytes) :=
  if k <=? lenN l then Some (be_val (takeN k l), dropN k l) else None.
(** the whole head, the same calls, e.g. src/cbor/edhoc_decode_bstr_type.c:27 *)
Definition dec_head (l : bytes) : option (N * N * bytes) :=
  match l with
  | [] => None
  | b :: r =>
      let mt := b / 32 in
      let ai := b mod 32 in
      if ai <? 24 then Some (mt, ai, r)
      else
        let w := match ai with 24 => 1 | 25 => 2 | 26 => 4 | 27 => 8 | _ => 0 end in
        if w =? 0 then None
        else match dec_arg w r with
             | Some (v, r') => Some (mt, v, r')
             | None => None
             end
  end.

(** zcbor_bstr_decode, e.g. src/cbor/edhoc_decode_bstr_type.c:27 *)
Definition dec_bstr (l : bytes) : option (bytes * bytes) :=
  match dec_head l with
  | Some (2, v, r) => if v <=? lenN r then Some (takeN v r, dropN v r) else None
  | _ => None
  end.

(** zcbor_tstr_decode (UTF-8 is not checked), e.g. src/cbor/edhoc_decode_cert.c:29 *)
Definition dec_tstr (l : bytes) : option (bytes * bytes) :=
  match dec_head l with
  | Some (3, v, r) => if v <=? lenN r then Some (takeN v r, dropN v r) else None
  | _ => None
  end.

(** zcbor_uint32_decode (and zcbor_uint32_expect, e.g.
    src/cbor/edhoc_decode_id_cred_x.c:113): arguments on 8 bytes do not fit and are refused. *)
Definition dec_uint (l : bytes) : option (N * bytes) :=
  match dec_head l with
  | Some (0, v, r) => if v <? 2 ^ 32 then Some (v, r) else None
  | _ => None
  end.

(** zcbor_int32_decode, e.g. src/cbor/edhoc_decode_cert.c:27 *)
Definition dec_int (l : bytes) : option (Z * bytes) :=
  match dec_head l with
  | Some (0, v, r) => if v <? 2 ^ 31 then Some (Z.of_N v, r) else None
  | Some (1, v, r) => if v <? 2 ^ 31 then Some ((-1 - Z.of_N v)%Z, r) else None
  | _ => None
  end.

(** zcbor_list_start_decode, definite length only; e.g. src/cbor/edhoc_decode_id_cred_x.c:169-171 *)
Definition dec_list (l : bytes) : option (N * bytes) :=
  match dec_head l with Some (4, v, r) => Some (v, r) | _ => None end.
(** zcbor_map_start_decode, definite length only; src/cbor/edhoc_decode_id_cred_x.c:206-214 *)
Definition dec_map (l : bytes) : option (N * bytes) :=
  match dec_head l with Some (5, v, r) => Some (v, r) | _ => None end.
