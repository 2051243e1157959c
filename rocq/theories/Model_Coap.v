(** Model of the CoAP codec: src/oscore/oscore_coap.c and src/oscore/option.c. *)
From Verif Require Import Base Model_Common.

(** inc/oscore/oscore_coap.h, struct o_coap_option: delta, option_number, value.
    [o_val] are the [len] bytes at [value]; the field [len] is [lenN o_val].
    [o_tail] is what follows the value in the object it points into (a received
    packet), because oscore_option_parser can run past the value. *)
Record copt := { o_delta : N; o_num : N; o_val : bytes; o_tail : bytes }.

(** inc/oscore/oscore_coap.h, struct o_coap_header and struct o_coap_packet. The
    token pointer is modelled by the bytes it refers to. *)
Record chdr := { h_ver : N; h_type : N; h_tkl : N; h_code : N; h_mid : N }.
(** inc/oscore/oscore_coap.h struct o_coap_packet *)
Record cpkt := { k_hdr : chdr; k_token : bytes; k_opts : list copt; k_payload : bytes }.

(** inc/oscore/oscore_coap_defines.h, inc/oscore/option.h *)
Definition HEADER_LEN : N := 4.
Definition MAX_TOKEN_LEN : N := 8.   (* inc/oscore/oscore_coap_defines.h:15 *)
Definition MAX_OPTION_COUNT : N := 20.   (* inc/oscore/oscore_coap_defines.h:71 *)
Definition MAX_E_OPTION_COUNT : N := 10.   (* inc/oscore/oscore_coap_defines.h:72 *)
(** inc/oscore.h:51-62 *)
Definition MAX_COAP_OPTIONS_LEN : N := 100.   (* E_/I_OPTIONS_BUFF_MAX_LEN *)
Definition OPT_SERIAL_OVERHEAD : N := 5.   (* inc/oscore/option.h:22 *)
Definition OPTION_PAYLOAD_MARKER : N := 255.   (* inc/oscore/oscore_coap_defines.h:69 *)
Definition OPT_URI_HOST : N := 3.   (* inc/oscore/option.h:26 *)
Definition OPT_OBSERVE : N := 6.   (* inc/oscore/option.h:29 *)
Definition OPT_URI_PORT : N := 7.   (* inc/oscore/option.h:30 *)
Definition OPT_OSCORE : N := 9.   (* inc/oscore/option.h:32 *)
Definition OPT_URI_PATH : N := 11.   (* inc/oscore/option.h:33 *)
Definition OPT_EDHOC : N := 21.   (* inc/oscore/option.h:39 *)
Definition OPT_PROXY_URI : N := 35.   (* inc/oscore/option.h:43 *)
Definition OPT_PROXY_SCHEME : N := 39.   (* inc/oscore/option.h:44 *)
Definition OPT_ECHO : N := 252.   (* inc/oscore/option.h:46 *)

(** src/oscore/oscore_coap.c:29-40 opt_extra_bytes. *)
Definition opt_extra_bytes (x : N) : N :=
  if x <? 13 then 0 else if x <? 269 then 1 else 2.

(** src/oscore/oscore_coap.c:64-79 and 81-96: nibble and extra bytes written for
    a delta or a length. *)
Definition opt_nibble (x : N) : N := if x <? 13 then x else if x <? 269 then 13 else 14.
(** src/oscore/oscore_coap.c:64-96, the extra bytes *)
Definition opt_ext (x : N) : bytes :=
  if x <? 13 then []
  else if x <? 269 then [u8 (x - 13)]
  else [u16 (x - 269) / 256; u16 (x - 269) mod 256].

(** src/oscore/oscore_coap.c:55-99, header of one option. The nibbles do not
    overlap, so [|] is written as an addition. *)
Definition opt_header (delta len : N) : bytes :=
  (opt_nibble delta * 16 + opt_nibble len) :: opt_ext delta ++ opt_ext len.

(** src/oscore/oscore_coap.c:42-113 options_serialize. [obj] is the size of the
    object behind out->ptr, [cap] is out->len on entry, [acc] what was already
    written. The header bytes are written without any check; only the copy of
    the value is checked. *)
Fixpoint options_serialize_loop (obj cap : N) (opts : list copt) (acc : bytes) : res bytes :=
  match opts with
  | [] => Ok acc
  | o :: rest =>
      let len := lenN (o_val o) in
      let acc1 := acc ++ opt_header (o_delta o) len in
      if obj <? lenN acc1 then UB OobWrite
      else if len =? 0 then options_serialize_loop obj cap rest acc1
      else
        let* _ := check_buffer_size (sub32 cap (lenN acc1)) len in
        if obj <? lenN acc1 + len then UB OobWrite
        else options_serialize_loop obj cap rest (acc1 ++ o_val o)
  end.
(** src/oscore/oscore_coap.c:42-113 *)
Definition options_serialize (obj cap : N) (opts : list copt) : res bytes :=
  options_serialize_loop obj cap opts [].

(** src/oscore/oscore_coap.c:150-176, extended delta at offset [p] of [d]:
    value and new offset. The one-byte form is truncated to [uint8_t]. *)
Definition parse_delta (d : bytes) (p nib : N) : res (N * N) :=
  if nib =? 13 then let* b := rd d p in Ok (u8 (b + 13), p + 1)
  else if nib =? 14 then
    let* hi := rd d p in let* lo := rd d (p + 1) in Ok (u16 (hi * 256 + lo + 269), p + 2)
  else if nib =? 15 then Err oscore_inpkt_invalid_option_delta
  else Ok (nib, p).

(** src/oscore/oscore_coap.c:178-200, extended length. The one-byte form is
    truncated to [uint8_t]; in the two-byte form 269 is added to the low byte
    before the [|]. *)
Definition parse_len (d : bytes) (p nib : N) : res (N * N) :=
  if nib =? 13 then let* b := rd d p in Ok (u8 (b + 13), p + 1)
  else if nib =? 14 then
    let* hi := rd d p in let* lo := rd d (p + 1) in Ok (u16 (N.lor (hi * 256) (lo + 269)), p + 2)
  else if nib =? 15 then Err oscore_inpkt_invalid_optionlen
  else Ok (nib, p).

(** src/oscore/oscore_coap.c:133-221, the loop of options_deserialize. [d] is
    in_data; reading or forming a pointer outside in_data is undefined
    behaviour. [slots] is the number of elements of the caller's array [opt],
    [room] is MAX_OPTION_COUNT minus the options already parsed, [i] the 16-bit
    index, [p] the offset of temp_options_ptr, [num] temp_option_number. The
    payload is left as initialised by the callers (empty) if there is no
    payload marker. *)
Fixpoint options_deserialize_loop (d : bytes) (slots : N) (room : nat) (i p num : N)
    (acc : list copt) : res (list copt * bytes) :=
  if i <? lenN d then
    let* m := rd d i in
    if m =? OPTION_PAYLOAD_MARKER then
      if lenN d - i <? 2 then Err not_valid_input_packet
      else Ok (acc, dropN (u16 (i + 1)) d)
    else
      let* b := rd d p in
      let* (delta, p1) := parse_delta d (p + 1) (b / 16) in
      let* (len, p2) := parse_len d p1 (b mod 16) in
      let num' := u16 (num + delta) in
      if slots <=? lenN acc then UB OobWrite
      else
        let* v := slice d p2 len in
        let o := {| o_delta := delta; o_num := num'; o_val := v; o_tail := dropN (p2 + len) d |} in
        match room with
        | S (S _ as room') =>
            options_deserialize_loop d slots room' (u16 (i + (p2 - p) + len)) (p2 + len) num' (acc ++ [o])
        | _ => Err too_many_options
        end
  else Ok (acc, []).

(** src/oscore/oscore_coap.c:115-223 options_deserialize. *)
Definition options_deserialize (d : bytes) (slots : N) : res (list copt * bytes) :=
  match d with
  | [] => Ok ([], [])
  | _ => options_deserialize_loop d slots (N.to_nat MAX_OPTION_COUNT) 0 0 0 []
  end.

(** src/oscore/oscore_coap.c:225-271 coap_deserialize. Masks and shifts are
    written as divisions. *)
Definition coap_deserialize (d : bytes) : res cpkt :=
  if lenN d <? HEADER_LEN then Err not_valid_input_packet
  else
    let* b0 := rd d 0 in
    let* code := rd d 1 in
    let* mid_h := rd d 2 in
    let* mid_l := rd d 3 in
    let hdr := {| h_ver := b0 / 64; h_type := b0 / 16 mod 4; h_tkl := b0 mod 16;
                  h_code := code; h_mid := mid_h * 256 + mid_l |} in
    let rest := dropN 4 d in
    let tkl := b0 mod 16 in
    if 8 <? tkl then Err oscore_inpkt_invalid_tkl
    else if lenN rest <? tkl then Err oscore_inpkt_invalid_tkl
    else
      let* (opts, payload) := options_deserialize (dropN tkl rest) MAX_OPTION_COUNT in
      Ok {| k_hdr := hdr; k_token := takeN tkl rest; k_opts := opts; k_payload := payload |}.

(** src/oscore/oscore_coap.c:297-300, the sum of maximal option lengths. *)
Definition opt_bytes_len (opts : list copt) : N :=
  fold_left (fun a o => u32 (a + (OPT_SERIAL_OVERHEAD + lenN (o_val o)))) opts 0.

(** src/oscore/oscore_coap.c:278-285, the four header bytes. *)
Definition header_bytes (h : chdr) : bytes :=
  [u8 (h_ver h * 64 + h_type h * 16 + h_tkl h); u8 (h_code h); h_mid h / 256 mod 256; h_mid h mod 256].

(** src/oscore/oscore_coap.c:273-338 coap_serialize. [cap] is
    *out_byte_string_len on entry and also the size of the caller's buffer.
    The first component is what has been written to the buffer (from its
    beginning), also when the function fails; on success it is the whole
    message. *)
Definition coap_serialize (k : cpkt) (cap : N) : bytes * res unit :=
  let h := header_bytes (k_hdr k) in
  let tkl := h_tkl (k_hdr k) in
  if cap <? 4 then (h, UB OobWrite)
  else
    let tok := if tkl =? 0 then Ok [] else
      let* _ := check_buffer_size (sub32 cap 4) tkl in
      if lenN (k_token k) <? tkl then UB OobRead
      else if cap <? 4 + tkl then UB OobWrite
      else Ok (takeN tkl (k_token k)) in
    match tok with
    | Err e => (h, Err e)
    | UB u => (h, UB u)
    | Ok t =>
      let w1 := h ++ t in
      let opts :=
        let n := opt_bytes_len (k_opts k) in
        let* _ := byte_array_new MAX_COAP_OPTIONS_LEN n in
        let* s := options_serialize MAX_COAP_OPTIONS_LEN n (k_opts k) in
        if lenN s =? 0 then Ok s else
        let* _ := check_buffer_size (sub32 cap (lenN w1)) (lenN s) in
        if cap <? lenN w1 + lenN s then UB OobWrite else Ok s in
      match opts with
      | Err e => (w1, Err e)
      | UB u => (w1, UB u)
      | Ok s =>
        let w2 := w1 ++ s in
        if lenN (k_payload k) =? 0 then (w2, Ok tt)
        else if cap <? lenN w2 + 1 then (w2, UB OobWrite)
        else
          let w3 := w2 ++ [OPTION_PAYLOAD_MARKER] in
          match check_buffer_size (sub32 cap (lenN w3)) (lenN (k_payload k)) with
          | Err e => (w3, Err e)
          | UB u => (w3, UB u)
          | Ok _ => (w3 ++ k_payload k, Ok tt)
          end
      end
    end.

(** src/oscore/oscore_coap.c:340-347 is_request:
    (CODE_CLASS_MASK & code) == REQUEST_CLASS, i.e. the upper three bits are 0. *)
Definition is_request (k : cpkt) : bool := h_code (k_hdr k) / 32 =? 0.

(** src/oscore/option.c:43-49 is_class_e. *)
Definition is_class_e (n : N) : bool :=
  negb ((n =? OPT_URI_HOST) || (n =? OPT_URI_PORT) || (n =? OPT_OSCORE) ||
        (n =? OPT_PROXY_URI) || (n =? OPT_PROXY_SCHEME) || (n =? OPT_EDHOC)).

(** src/oscore/option.c:51-59 is_observe. *)
Definition is_observe (opts : list copt) : bool :=
  existsb (fun o => o_num o =? OPT_OBSERVE) opts.

(** src/oscore/option.c:61-79 get_observe_value. *)
Definition get_observe_value (opts : list copt) : option bytes :=
  match find (fun o => o_num o =? OPT_OBSERVE) opts with
  | Some o => Some (o_val o)
  | None => None
  end.

(** inc/oscore/oscore_coap_defines.h, enum o_coap_msg *)
Inductive msg_type := MREQUEST | MREGISTRATION | MCANCELLATION | MRESPONSE | MNOTIFICATION.

(** src/oscore/oscore_coap.c:349-386 coap_get_message_type. *)
Definition coap_get_message_type (k : cpkt) : msg_type :=
  let ob := get_observe_value (k_opts k) in
  if is_request k then
    match ob with
    | Some [] => MREGISTRATION
    | Some [v] => if v =? 0 then MREGISTRATION else if v =? 1 then MCANCELLATION else MREQUEST
    | _ => MREQUEST
    end
  else match ob with Some _ => MNOTIFICATION | None => MRESPONSE end.

(** src/oscore/option.c:96-115 oscore_decrypted_payload_parser. An empty
    plaintext is the NULL array (BYTE_ARRAY_NEW of size 0) and is dereferenced. *)
Definition oscore_decrypted_payload_parser (pt : bytes) (slots : N) : res (N * list copt * bytes) :=
  match pt with
  | [] => UB NullDeref
  | code :: rest =>
      let* (opts, payload) := options_deserialize rest slots in
      Ok (code, opts, payload)
  end.

(** src/oscore/option.c:81-94 cache_echo_val. [buf] is the object behind
    dest->ptr, [blen] is dest->len. Result: both after the call. *)
Definition cache_echo_val (buf : bytes) (blen : N) (opts : list copt) : res (bytes * N) :=
  match find (fun o => o_num o =? OPT_ECHO) opts with
  | None => Err no_echo_option
  | Some o =>
      let* d := memcpy_s (Some buf) blen (if lenN (o_val o) =? 0 then None else Some (o_val o)) (lenN (o_val o)) in
      match d with Some d' => Ok (d', lenN (o_val o)) | None => UB NullDeref end
  end.

(** src/oscore/option.c:117-144 echo_val_is_fresh; the local array has 10
    elements. *)
Definition echo_val_is_fresh (cache : bytes) (pt : bytes) : res unit :=
  let* (_, opts, _) := oscore_decrypted_payload_parser pt 10 in
  match find (fun o => o_num o =? OPT_ECHO) opts with
  | None => Err no_echo_option
  | Some o =>
      if (lenN cache =? lenN (o_val o)) && beqb (o_val o) cache then Ok tt else Err echo_val_mismatch
  end.

(** src/oscore/option.c:29-41 buffer_append on a buffer of [max_size] bytes of
    which [lenN cur] are used. *)
Definition buffer_append (cur : bytes) (max_size : N) (sub : bytes) : res bytes :=
  if lenN sub =? 0 then Ok cur
  else
    let* _ := check_buffer_size (sub32 max_size (lenN cur)) (lenN sub) in
    if max_size <? lenN cur + lenN sub then UB OobWrite else Ok (cur ++ sub).

(** src/oscore/option.c:161-176, the loop of uri_path_create. *)
Fixpoint uri_path_loop (opts : list copt) (max_size : N) (cur : bytes) : res bytes :=
  match opts with
  | [] => Ok cur
  | o :: rest =>
      if o_num o =? OPT_URI_PATH then
        let* c1 := buffer_append cur max_size (o_val o) in
        let* c2 := buffer_append c1 max_size [47] in
        uri_path_loop rest max_size c2
      else uri_path_loop rest max_size cur
  end.

(** src/oscore/option.c:147-188 uri_path_create. The caller's buffer has
    [max_size] bytes. Line 180 writes a 0 after the last '/'. *)
Definition uri_path_create (opts : list copt) (max_size : N) : res bytes :=
  let* cur := uri_path_loop opts max_size [] in
  match cur with
  | [] => if max_size =? 0 then UB OobWrite else Ok [47]
  | _ => if max_size <=? lenN cur then UB OobWrite else Ok (takeN (lenN cur - 1) cur)
  end.
