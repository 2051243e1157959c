(** Model of the generated EDHOC codecs in src/cbor/edhoc_*.c and of
    src/edhoc/bstr_encode_decode.c, int_encode_decode.c, edhoc_cose.c,
    associated_data_encode.c. The generated files with a single member
    (edhoc_{encode,decode}_{bstr,int}_type.c, _message_2.c, _message_3.c,
    edhoc_encode_enc_structure.c, edhoc_encode_sig_structure.c) have no definition of
    their own: their content is [enc_bstr], [dec_bstr], ... at the place of use.
    edhoc_encode_data_2.c and edhoc_encode_message_error.c are not called. *)
From Verif Require Import Base Model_Common Model_Cbor Model_Crypto Model_EdhocCfg.

(** a C union of an integer and a string with its choice member *)
Inductive int_or_str := UInt (z : Z) | UStr (b : bytes).   (* the generated unions, e.g. src/cbor/edhoc_decode_message_1.c:32-33 *)

(** src/edhoc/bstr_encode_decode.c:16-27 encode_bstr into a buffer of [cap] bytes *)
Definition encode_bstr (b : bytes) (cap : N) : res bytes := cbor_put cap (enc_bstr b).
(** src/edhoc/bstr_encode_decode.c:29-42 decode_bstr; bytes after the string are
    ignored. *)
Definition decode_bstr (l : bytes) (cap : N) : res bytes :=
  let* (b, _) := ext (dec_bstr l) in
  let* _ := check_buffer_size cap (lenN b) in
  Ok b.

(** src/edhoc/int_encode_decode.c:13-21 c_x_is_encoded_int *)
Definition c_x_is_encoded_int (c : bytes) : bool :=
  match c with [b] => (b <? 24) || ((31 <? b) && (b <=? 55)) | _ => false end.
(** src/edhoc/int_encode_decode.c:24-31 c_r_is_raw_int ([ptr[0]] is unsigned, so
    the test against -24 always holds) *)
Definition c_r_is_raw_int (c : bytes) : bool :=
  match c with [b] => b <=? 23 | _ => false end.
(** src/edhoc/int_encode_decode.c:34-42 encode_int *)
Definition encode_int (z : Z) (cap : N) : res bytes := cbor_put cap (enc_int z).
(** src/edhoc/int_encode_decode.c:44-53 decode_int *)
Definition decode_int (l : bytes) : res Z :=
  let* (z, r) := ext (dec_int l) in
  if lenN l - lenN r =? 1 then Ok z else Err cbor_decoding_error.

(** inc/cbor/edhoc_encode_message_1_types.h struct message_1 *)
Inductive suites_choice := SInt (z : Z) | SList (l : list Z).
(** inc/cbor/edhoc_encode_message_1_types.h struct message_1 *)
Record message_1 := {
  m1_method : Z;
  m1_suites : suites_choice;
  m1_g_x : bytes;
  m1_c_i : int_or_str;
  m1_ead_1 : option bytes
}.
(** src/cbor/edhoc_encode_message_1.c:22-40, member C_I *)
Definition enc_int_or_bstr (u : int_or_str) : bytes :=
  match u with UInt z => enc_int z | UStr b => enc_bstr b end.
(** src/cbor/edhoc_encode_message_1.c:22-45; a list must have 2 to 10 elements *)
Definition enc_message_1 (m : message_1) : option bytes :=
  let tail := enc_bstr (m1_g_x m) ++ enc_int_or_bstr (m1_c_i m) ++
              match m1_ead_1 m with Some e => enc_bstr e | None => [] end in
  match m1_suites m with
  | SInt z => Some (enc_int (m1_method m) ++ enc_int z ++ tail)
  | SList l =>
      if (2 <=? lenN l) && (lenN l <=? 10)
      then Some (enc_int (m1_method m) ++ (enc_list (lenN l) ++ flat_map enc_int l) ++ tail)
      else None
  end.
(** src/cbor/edhoc_encode_message_1.c:49-58 with the caller's TRY_EXPECT *)
Definition cbor_encode_message_1 (cap : N) (m : message_1) : res bytes :=
  let* b := ext (enc_message_1 m) in cbor_put cap b.

(** zcbor_multi_decode of exactly [n] integers *)
(** src/cbor/edhoc_decode_message_1.c:29 *)
Fixpoint dec_ints (n : nat) (l : bytes) : option (list Z * bytes) :=
  match n with
  | O => Some ([], l)
  | S n' => match dec_int l with
            | Some (z, r) => match dec_ints n' r with
                             | Some (zs, r') => Some (z :: zs, r')
                             | None => None
                             end
            | None => None
            end
  end.
(** src/cbor/edhoc_decode_message_1.c:29-30 *)
Definition dec_suites (l : bytes) : option (suites_choice * bytes) :=
  match dec_list l with
  | Some (n, r) =>
      if (2 <=? n) && (n <=? 10)
      then match dec_ints (N.to_nat n) r with Some (zs, r') => Some (SList zs, r') | None => None end
      else None
  | None => match dec_int l with Some (z, r) => Some (SInt z, r) | None => None end
  end.
(** union of int and bstr, the integer is tried first *)
(** src/cbor/edhoc_decode_message_1.c:32-33 *)
Definition dec_int_or_bstr (l : bytes) : option (int_or_str * bytes) :=
  match dec_int l with
  | Some (z, r) => Some (UInt z, r)
  | None => match dec_bstr l with Some (b, r) => Some (UStr b, r) | None => None end
  end.
(** optional trailing bstr *)
(** src/cbor/edhoc_decode_message_1.c:34, EAD_1; the same in plaintext2 and plaintext3 *)
Definition dec_opt_bstr (l : bytes) : option bytes :=
  match dec_bstr l with Some (b, _) => Some b | None => None end.
(** src/cbor/edhoc_decode_message_1.c:22-57; trailing bytes are ignored *)
Definition cbor_decode_message_1 (l : bytes) : option message_1 :=
  match dec_int l with None => None | Some (me, l1) =>
  match dec_suites l1 with None => None | Some (su, l2) =>
  match dec_bstr l2 with None => None | Some (gx, l3) =>
  match dec_int_or_bstr l3 with None => None | Some (ci, l4) =>
  Some {| m1_method := me; m1_suites := su; m1_g_x := gx; m1_c_i := ci; m1_ead_1 := dec_opt_bstr l4 |}
  end end end end.

(** inc/cbor/edhoc_decode_id_cred_x_types.h struct id_cred_x_map (and the same
    map2, map3 of the plaintexts); an absent entry is [None]. *)
Record id_cred_map := {
  ic_kid : option int_or_str;
  ic_x5bag : option bytes;
  ic_x5chain : option bytes;
  ic_x5t : option (int_or_str * bytes);
  ic_x5u : option bytes;
  ic_c5b : option bytes;
  ic_c5c : option bytes;
  ic_c5t : option (int_or_str * bytes);
  ic_c5u : option bytes
}.
(** src/cbor/edhoc_decode_id_cred_x.c:201-222, no member present *)
Definition empty_map : id_cred_map := {|
  ic_kid := None; ic_x5bag := None; ic_x5chain := None; ic_x5t := None; ic_x5u := None;
  ic_c5b := None; ic_c5c := None; ic_c5t := None; ic_c5u := None |}.

(** src/cbor/edhoc_encode_id_cred_x.c:31-199, one entry *)
Definition enc_entry {A} (key : N) (enc : A -> bytes) (o : option A) : bytes :=
  match o with Some a => enc_uint key ++ enc a | None => [] end.
(** src/cbor/edhoc_encode_id_cred_x.c:201-222, the *_present members *)
Definition present {A} (o : option A) : N := match o with Some _ => 1 | None => 0 end.
(** [alg, hash], src/cbor/edhoc_encode_id_cred_x.c:87-106 *)
Definition enc_hash_pair (p : int_or_str * bytes) : bytes :=
  enc_list 2 ++ match fst p with UInt z => enc_int z | UStr b => enc_tstr b end ++ enc_bstr (snd p).
(** src/cbor/edhoc_encode_id_cred_x.c:201-226 encode_id_cred_x_map *)
Definition enc_id_cred_map (m : id_cred_map) : bytes :=
  enc_map (present (ic_kid m) + present (ic_x5bag m) + present (ic_x5chain m) + present (ic_x5t m)
           + present (ic_x5u m) + present (ic_c5b m) + present (ic_c5c m) + present (ic_c5t m)
           + present (ic_c5u m))
  ++ enc_entry 4 enc_int_or_bstr (ic_kid m)
  ++ enc_entry 32 enc_bstr (ic_x5bag m)
  ++ enc_entry 33 enc_bstr (ic_x5chain m)
  ++ enc_entry 34 enc_hash_pair (ic_x5t m)
  ++ enc_entry 35 enc_bstr (ic_x5u m)
  ++ enc_entry 52 enc_bstr (ic_c5b m)
  ++ enc_entry 53 enc_bstr (ic_c5c m)
  ++ enc_entry 54 enc_hash_pair (ic_c5t m)
  ++ enc_entry 55 enc_bstr (ic_c5u m).

(** zcbor_present_decode of one map entry with key [key]: the decoder state is
    the number of pairs left in the map and the remaining bytes; on failure the
    state is restored and the entry is absent. *)
(** src/cbor/edhoc_decode_id_cred_x.c:206-214 *)
Definition dec_entry {A} (key : N) (dec : bytes -> option (A * bytes)) (s : N * bytes)
    : option A * (N * bytes) :=
  let '(n, l) := s in
  if n =? 0 then (None, s)
  else match dec_uint l with
       | Some (k, r) =>
           if k =? key
           then match dec r with Some (a, r') => (Some a, (n - 1, r')) | None => (None, s) end
           else (None, s)
       | None => (None, s)
       end.
(** src/cbor/edhoc_decode_id_cred_x.c:87-106 and 162-181 *)
Definition dec_hash_pair (l : bytes) : option ((int_or_str * bytes) * bytes) :=
  match dec_list l with
  | Some (2, r) =>
      match (match dec_int r with
             | Some (z, r1) => Some (UInt z, r1)
             | None => match dec_tstr r with Some (b, r1) => Some (UStr b, r1) | None => None end
             end) with
      | Some (a, r1) => match dec_bstr r1 with Some (h, r2) => Some ((a, h), r2) | None => None end
      | None => None
      end
  | _ => None
  end.
(** src/cbor/edhoc_decode_id_cred_x.c:31-226 (and decode_map2, decode_map3): the
    entries in increasing key order, nothing else *)
Definition dec_id_cred_map (l : bytes) : option (id_cred_map * bytes) :=
  match dec_map l with
  | None => None
  | Some (n, r) =>
      let '(a1, s1) := dec_entry 4 dec_int_or_bstr (n, r) in
      let '(a2, s2) := dec_entry 32 dec_bstr s1 in
      let '(a3, s3) := dec_entry 33 dec_bstr s2 in
      let '(a4, s4) := dec_entry 34 dec_hash_pair s3 in
      let '(a5, s5) := dec_entry 35 dec_bstr s4 in
      let '(a6, s6) := dec_entry 52 dec_bstr s5 in
      let '(a7, s7) := dec_entry 53 dec_bstr s6 in
      let '(a8, s8) := dec_entry 54 dec_hash_pair s7 in
      let '(a9, s9) := dec_entry 55 dec_bstr s8 in
      if fst s9 =? 0 then
        Some ({| ic_kid := a1; ic_x5bag := a2; ic_x5chain := a3; ic_x5t := a4; ic_x5u := a5;
                 ic_c5b := a6; ic_c5c := a7; ic_c5t := a8; ic_c5u := a9 |}, snd s9)
      else None
  end.

(** inc/cbor/edhoc_decode_plaintext2_types.h, ..3_types.h: ID_CRED_x member *)
Inductive id_cred_choice := IdMap (m : id_cred_map) | IdBstr (b : bytes) | IdInt (z : Z).
(** src/cbor/edhoc_decode_plaintext2.c:235-237, edhoc_decode_plaintext3.c:233-235 *)
Definition dec_id_cred_choice (l : bytes) : option (id_cred_choice * bytes) :=
  match dec_id_cred_map l with
  | Some (m, r) => Some (IdMap m, r)
  | None => match dec_bstr l with
            | Some (b, r) => Some (IdBstr b, r)
            | None => match dec_int l with Some (z, r) => Some (IdInt z, r) | None => None end
            end
  end.
(** inc/cbor/edhoc_decode_plaintext2_types.h, edhoc_decode_plaintext3_types.h *)
Record ptxt := {
  pt_c_r : option int_or_str;    (* plaintext_2 only *)
  pt_id_cred : id_cred_choice;
  pt_sgn_or_mac : bytes;
  pt_ead : option bytes
}.
(** src/cbor/edhoc_decode_plaintext3.c:227-252 decode_ptxt3 *)
Definition cbor_decode_ptxt3 (l : bytes) : option ptxt :=
  match dec_id_cred_choice l with None => None | Some (i, l1) =>
  match dec_bstr l1 with None => None | Some (s, l2) =>
  Some {| pt_c_r := None; pt_id_cred := i; pt_sgn_or_mac := s; pt_ead := dec_opt_bstr l2 |}
  end end.
(** src/cbor/edhoc_decode_plaintext2.c:227-254 decode_ptxt2 *)
Definition cbor_decode_ptxt2 (l : bytes) : option ptxt :=
  match dec_int_or_bstr l with None => None | Some (c, l1) =>
  match cbor_decode_ptxt3 l1 with None => None | Some p =>
  Some {| pt_c_r := Some c; pt_id_cred := pt_id_cred p; pt_sgn_or_mac := pt_sgn_or_mac p;
          pt_ead := pt_ead p |}
  end end.

(** src/cbor/edhoc_encode_info.c:22-40 *)
Definition enc_edhoc_info (label : N) (context : bytes) (len : N) : bytes :=
  enc_uint label ++ enc_bstr context ++ enc_uint len.
(** src/cbor/edhoc_encode_th2.c:22-38 *)
Definition enc_th2 (g_y hash_msg1 : bytes) : bytes := enc_bstr g_y ++ enc_bstr hash_msg1.

(** "Encrypt0" and "Signature1" *)
(** src/edhoc/associated_data_encode.c:24 *)
Definition str_encrypt0 : bytes := [69; 110; 99; 114; 121; 112; 116; 48].
(** src/edhoc/signature_or_mac_msg.c:131 *)
Definition str_signature1 : bytes := [83; 105; 103; 110; 97; 116; 117; 114; 101; 49].
(** src/edhoc/edhoc_cose.c:21-64 cose_enc_structure_encode *)
Definition cose_enc_structure_encode (context prot external_aad : bytes) (cap : N) : res bytes :=
  cbor_put cap (enc_list 3 ++ enc_tstr context ++ enc_bstr prot ++ enc_bstr external_aad).
(** src/edhoc/edhoc_cose.c:66-90 cose_sig_structure_encode *)
Definition cose_sig_structure_encode (context prot external_aad payload : bytes) (cap : N) : res bytes :=
  cbor_put cap (enc_list 4 ++ enc_tstr context ++ enc_bstr prot ++ enc_bstr external_aad
                ++ enc_bstr payload).
(** src/edhoc/associated_data_encode.c:22-29 associated_data_encode *)
Definition associated_data_encode (th : bytes) : res bytes :=
  cose_enc_structure_encode str_encrypt0 [] th AAD_SIZE.

(** inc/cbor/edhoc_decode_cert_types.h struct cert (the members that are used); the
    issuer is a pointer into the certificate, [c5_issuer_rest] is what follows there *)
Record c509 := {
  c5_issuer : bytes;
  c5_issuer_rest : bytes;
  c5_subject : bytes;
  c5_pk : bytes;
  c5_sig_alg : Z;
  c5_signature : bytes
}.
(** src/cbor/edhoc_decode_cert.c:22-48 *)
Definition cbor_decode_cert (l : bytes) : option c509 :=
  match dec_int l with None => None | Some (_, l) =>
  match dec_int l with None => None | Some (_, l) =>
  match dec_tstr l with None => None | Some (issuer, rest) =>
  match dec_int rest with None => None | Some (_, l) =>
  match dec_int l with None => None | Some (_, l) =>
  match dec_bstr l with None => None | Some (subject, l) =>
  match dec_int l with None => None | Some (_, l) =>
  match dec_bstr l with None => None | Some (pk, l) =>
  match dec_int l with None => None | Some (_, l) =>
  match dec_int l with None => None | Some (alg, l) =>
  match dec_bstr l with None => None | Some (sg, l) =>
  Some {| c5_issuer := issuer; c5_issuer_rest := rest; c5_subject := subject; c5_pk := pk; c5_sig_alg := alg;
          c5_signature := sg |}
  end end end end end end end end end end end.
