(** Model of src/oscore/coap2oscore.c. *)
From Verif Require Import Base Model_Common Model_Crypto Model_OscorePrims Model_Coap
  Model_Interactions Model_Context.

(** src/oscore/coap2oscore.c:43-190 inner_outer_option_split, the loop. [req] is
    is_request(in_o_coap); [nr] temp_option_nr, [esum]/[usum] the delta sums,
    [elen] *e_options_len. Result: E options, U options, e_options_len. *)
Fixpoint split_loop (req : bool) (opts : list copt) (nr esum usum elen : N)
    : list copt * list copt * N :=
  match opts with
  | [] => ([], [], elen)
  | o :: rest =>
      let extra := opt_extra_bytes (o_delta o) + opt_extra_bytes (lenN (o_val o)) in
      let nr' := u16 (nr + o_delta o) in
      let full := u16 (elen + 1 + extra + lenN (o_val o)) in
      let edelta := u16 (nr' + 2 ^ 16 - esum) in
      let udelta := u16 (nr' + 2 ^ 16 - usum) in
      let mk d v := {| o_delta := d; o_num := nr'; o_val := v; o_tail := [] |} in
      if nr' =? OPT_OBSERVE then
        let v := if req then o_val o else [] in
        let elen' := if req then full else u16 (elen + 1) in
        let '(e, u, l) := split_loop req rest nr' (u16 (esum + edelta)) (u16 (usum + udelta)) elen' in
        (mk edelta v :: e, mk udelta (o_val o) :: u, l)
      else if is_class_e nr' then
        let '(e, u, l) := split_loop req rest nr' (u16 (esum + edelta)) usum full in
        (mk edelta (o_val o) :: e, u, l)
      else
        let '(e, u, l) := split_loop req rest nr' esum (u16 (usum + udelta)) elen in
        (e, mk udelta (o_val o) :: u, l)
  end.

(** src/oscore/coap2oscore.c:43-190 inner_outer_option_split; the output arrays
    have MAX_OPTION_COUNT elements each, like the input. *)
Definition inner_outer_option_split (k : cpkt) : res (list copt * list copt * N) :=
  if MAX_OPTION_COUNT <? lenN (k_opts k) then Err too_many_options
  else Ok (split_loop (is_request k) (k_opts k) 0 0 0 0).

(** src/oscore/coap2oscore.c, inc/oscore_edhoc... buffer sizes *)
Definition MAX_PLAINTEXT_LEN : N := 1024.
Definition MAX_CIPHERTEXT_LEN : N := 1032.   (* inc/oscore.h:50 *)
Definition E_OPTIONS_BUFF_MAX_LEN : N := 100.   (* inc/oscore.h:52 *)

(** src/oscore/coap2oscore.c:201-244 plaintext_setup. The plaintext buffer has
    MAX_PLAINTEXT_LEN bytes, [plen] is plaintext->len. Result: the first [plen]
    bytes of the buffer; if fewer were written the rest is uninitialised. The
    unused local e_opt_serial_len is left out. *)
Definition plaintext_setup (code : N) (eopts : list copt) (payload : bytes) (plen : N) : res bytes :=
  let* s := options_serialize E_OPTIONS_BUFF_MAX_LEN E_OPTIONS_BUFF_MAX_LEN eopts in
  let* _ := if lenN s =? 0 then Ok tt else check_buffer_size (sub32 plen 1) (lenN s) in
  let w := code :: s in
  let* w' :=
    (if lenN payload =? 0 then Ok w
     else if MAX_PLAINTEXT_LEN <=? lenN w then UB OobWrite
     else
       let* _ := check_buffer_size (sub32 plen (lenN w + 1)) (lenN payload) in
       if MAX_PLAINTEXT_LEN <? lenN w + 1 + lenN payload then UB OobWrite
       else Ok (w ++ [255] ++ payload)) in
  if lenN w' <? plen then UB Uninit else Ok (takeN plen w').

(** src/oscore/coap2oscore.c:253-267 get_oscore_opt_val_len *)
Definition get_oscore_opt_val_len (piv_len kid_len kid_context_len : N) : N :=
  let l := u32 (piv_len + kid_len + kid_context_len) in
  let l := if l =? 0 then l else u32 (l + 1) in
  if kid_context_len =? 0 then l else u32 (l + 1).

Definition OSCORE_OPT_VALUE_LEN : N := 23.   (* inc/oscore/oscore_coap_defines.h:50-51 *)

(** src/oscore/coap2oscore.c:279-351 oscore_option_generate. The value is
    written into buf[OSCORE_OPT_VALUE_LEN], first the flag byte (PIV length,
    KID context flag 0x10, KID flag 0x08; the bits are disjoint for PIVs of at
    most 7 bytes), then PIV, KID context length and value, KID. *)
Definition oscore_option_generate (piv kid kid_context : bytes) : res bytes :=
  let len := u8 (get_oscore_opt_val_len (lenN piv) (lenN kid) (lenN kid_context)) in
  let* _ := check_buffer_size OSCORE_OPT_VALUE_LEN len in
  if len =? 0 then Ok []
  else
    let flags := N.lor (N.lor (u8 (lenN piv)) (if lenN kid_context =? 0 then 0 else 16)) 8 in
    let w0 := [flags] in
    let* w1 := if lenN piv =? 0 then Ok w0 else
      let* _ := check_buffer_size (sub32 len 1) (lenN piv) in
      if OSCORE_OPT_VALUE_LEN <? 1 + lenN piv then UB OobWrite else Ok (w0 ++ piv) in
    let* w2 := if lenN kid_context =? 0 then Ok w1 else
      if OSCORE_OPT_VALUE_LEN <? lenN w1 + 1 then UB OobWrite else
      let* _ := check_buffer_size (sub32 len (lenN w1 + 1)) (lenN kid_context) in
      if OSCORE_OPT_VALUE_LEN <? lenN w1 + 1 + lenN kid_context then UB OobWrite
      else Ok (w1 ++ [u8 (lenN kid_context)] ++ kid_context) in
    let* w3 := if lenN kid =? 0 then Ok w2 else
      let* _ := check_buffer_size (sub32 len (lenN w2)) (lenN kid) in
      if OSCORE_OPT_VALUE_LEN <? lenN w2 + lenN kid then UB OobWrite else Ok (w2 ++ kid) in
    Ok (takeN len w3).

(** src/oscore/coap2oscore.c:404-436: position of the OSCORE option and output
    options. [sum] is temp_opt_number_sum, a uint8_t. *)
Fixpoint insert_oscore (u : list copt) (placed : bool) (val : bytes) (sum : N) : list copt :=
  let osc := {| o_delta := u16 (OPT_OSCORE + 2 ^ 16 - sum); o_num := OPT_OSCORE; o_val := val; o_tail := [] |} in
  let mk (s : N) o := {| o_delta := u16 (o_num o + 2 ^ 16 - s); o_num := o_num o; o_val := o_val o; o_tail := o_tail o |} in
  match u with
  | [] => if placed then [] else [osc]
  | o :: rest =>
      if negb placed && (OPT_OSCORE <? o_num o) then
        let s1 := u8 (sum + o_delta osc) in
        osc :: mk s1 o :: insert_oscore rest true val (u8 (s1 + o_delta (mk s1 o)))
      else mk sum o :: insert_oscore rest placed val (u8 (sum + o_delta (mk sum o)))
  end.

(** src/oscore/coap2oscore.c:364-445 oscore_pkg_generate. The output array has
    MAX_OPTION_COUNT elements. *)
Definition CODE_REQ_POST : N := 0x02.
Definition CODE_REQ_FETCH : N := 0x05.   (* inc/oscore/oscore_coap_defines.h:63 *)
Definition CODE_RESP_CHANGED : N := 0x44.   (* inc/oscore/oscore_coap_defines.h:64 *)
Definition CODE_RESP_CONTENT : N := 0x45.   (* inc/oscore/oscore_coap_defines.h:65 *)
(** src/oscore/coap2oscore.c:364-445 *)
Definition oscore_pkg_generate (k : cpkt) (u : list copt) (ct oscore_val : bytes) : res cpkt :=
  let observe := is_observe u in
  let code := if is_request k then (if observe then CODE_REQ_FETCH else CODE_REQ_POST)
              else (if observe then CODE_RESP_CONTENT else CODE_RESP_CHANGED) in
  if MAX_OPTION_COUNT <? lenN u + 1 then UB OobWrite
  else Ok {| k_hdr := {| h_ver := h_ver (k_hdr k); h_type := h_type (k_hdr k); h_tkl := h_tkl (k_hdr k);
                         h_code := code; h_mid := h_mid (k_hdr k) |};
             k_token := k_token k;
             k_opts := insert_oscore u false oscore_val 0;
             k_payload := ct |}.

(** src/oscore/coap2oscore.c:482-492 needs_new_piv *)
Definition needs_new_piv (ty : msg_type) (e : echo_state) : bool :=
  match ty, e with
  | MRESPONSE, ECHO_VERIFY => true
  | MRESPONSE, _ => false
  | _, _ => true
  end.

(** What a call of coap2oscore did besides its result: the call of the user's
    nvm_write_ssn, and the AEAD encryptions under the sender key (nonce, AAD,
    plaintext), which are what reaches the network. *)
(** bookkeeping for src/oscore/coap2oscore.c *)
Record sstate := { s_ctx : ctx; s_nvm : option N; s_enc : option (bytes * bytes * bytes) }.
(** bookkeeping for src/oscore/coap2oscore.c *)
Definition s0 (c : ctx) : sstate := {| s_ctx := c; s_nvm := None; s_enc := None |}.
(** bookkeeping for src/oscore/coap2oscore.c *)
Definition s_set (s : sstate) (c : ctx) : sstate := {| s_ctx := c; s_nvm := s_nvm s; s_enc := s_enc s |}.

Section Send.
Variable cr : crypto.
(** result of the user's nvm_write_ssn, if it is called *)
Variable nvm_write : N -> res unit.

(** src/oscore/coap2oscore.c:453-474 generate_new_ssn *)
Definition generate_new_ssn (s : sstate) : sstate * res unit :=
  let c := s_ctx s in
  let c1 := set_ssn c (u64 (c_ssn c + 1)) in
  if c_fresh c then (s_set s c1, Ok tt)
  else
    let w := ssn_store_in_nvm (c_ssn c1)
               (match c_echo c with ECHO_SYNCHRONIZED => false | _ => true end) in
    let s1 := {| s_ctx := c1; s_nvm := w; s_enc := s_enc s |} in
    match w with
    | None => (s1, Ok tt)
    | Some v => (s1, nvm_write v)
    end.

(** src/oscore/coap2oscore.c:506-575 encrypt_wrapper. Result: ciphertext and the
    value of the OSCORE option. *)
Definition encrypt_wrapper (s : sstate) (pt : bytes) (k : cpkt) : sstate * res (bytes * bytes) :=
  let ty := coap_get_message_type k in
  let token := k_token k in
  let use_new := needs_new_piv ty (c_echo (s_ctx s)) in
  call s1, x :=
    (if use_new then
       try s let piv := ssn2piv (c_ssn (s_ctx s)) in
       call s1, _ := generate_new_ssn s in
       try s1 let nonce := create_nonce (c_sid (s_ctx s1)) piv (c_iv (s_ctx s1)) in
       (s1, Ok (nonce, piv, c_sid (s_ctx s1), c_id_context (s_ctx s1)))
     else (s, Ok (c_nonce (s_ctx s), [], [], []))) in
  let '(nonce, piv, kid, kid_context) := x in
  try s1 let opt := oscore_option_generate piv kid kid_context in
  try s1 let (rpiv, rkid) := read_wrapper ty token (c_inter (s_ctx s1)) (Some (piv, kid)) in
  try s1 let aad := create_aad (c_alg (s_ctx s1)) rkid rpiv MAX_AAD_LEN in
  try s1 let ct := oscore_cose_encrypt cr pt nonce aad (c_skey (s_ctx s1)) in
  let s2 := {| s_ctx := if use_new then set_nonce (s_ctx s1) nonce else s_ctx s1;
               s_nvm := s_nvm s1; s_enc := Some (nonce, aad, pt) |} in
  try s2 let uri := uri_path_create (k_opts k) OSCORE_MAX_URI_PATH_LEN in
  try s2 let t := update_wrapper ty token uri (c_inter (s_ctx s2)) rpiv rkid in
  (s_set s2 (set_inter (s_ctx s2) t), Ok (ct, opt)).

(** src/oscore/coap2oscore.c:590-669, everything before the final
    coap_serialize; [inr w] is the message-layer shortcut of lines 612-619. *)
Definition coap2oscore_core (c : ctx) (input : bytes) : sstate * res (cpkt + bytes) :=
  let s := s0 c in
  try s let _ := check_context_freshness c in
  try s let k := coap_deserialize input in
  if (h_type (k_hdr k) =? 2) && (h_code (k_hdr k) =? 0) then (s, Ok (inr input))
  else
    try s let (eopts, uopts, elen) := inner_outer_option_split k in
    let plen := if lenN (k_payload k) =? 0 then 1 + elen else u32 (1 + elen + 1 + lenN (k_payload k)) in
    try s let _ := byte_array_new MAX_PLAINTEXT_LEN plen in
    try s let pt := plaintext_setup (h_code (k_hdr k)) eopts (k_payload k) plen in
    try s let _ := byte_array_new MAX_CIPHERTEXT_LEN (u32 (plen + AUTH_TAG_LEN)) in
    call s1, _ :=
      (match c_echo c with
       | ECHO_VERIFY =>
           try s let (b, n) := cache_echo_val (c_echo_buf c) (c_echo_len c) eopts in
           (s_set s (set_echo_val c b n), Ok tt)
       | _ => (s, Ok tt)
       end) in
    call s2, (ct, opt) := encrypt_wrapper s1 pt k in
    try s2 let out := oscore_pkg_generate k uopts ct opt in
    (s2, Ok (inl out)).

(** src/oscore/coap2oscore.c:590-669 coap2oscore. [buf] is the caller's output
    buffer, whose size is *buf_oscore_len. Result: state, buffer after the call,
    length of the message. The message-layer shortcut copies the input without
    looking at the size of the output buffer. *)
Definition coap2oscore (c : ctx) (input buf : bytes) : sstate * bytes * res N :=
  match coap2oscore_core c input with
  | (s, Ok (inr w)) =>
      if lenN buf <? lenN w then (s, buf, UB OobWrite) else (s, written w buf, Ok (lenN w))
  | (s, Ok (inl out)) =>
      match coap_serialize out (lenN buf) with
      | (w, Ok _) => (s, written w buf, Ok (lenN w))
      | (w, Err e) => (s, written w buf, Err e)
      | (w, UB u) => (s, buf, UB u)
      end
  | (s, Err e) => (s, buf, Err e)
  | (s, UB u) => (s, buf, UB u)
  end.
End Send.
