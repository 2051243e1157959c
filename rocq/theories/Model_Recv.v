(** Model of src/oscore/oscore2coap.c and of the notification part of
    src/oscore/replay_protection.c. *)
From Verif Require Import Base Model_Common Model_Crypto Model_OscorePrims Model_Coap
  Model_Interactions Model_Replay Model_Context Model_Send.

(** inc/oscore/oscore_coap.h struct compressed_oscore_option. The KID is a view:
    its length field and the memory from its pointer to the end of the packet,
    because a malformed option can give a length that leaves the packet. *)
Record coscore := { co_piv : bytes; co_kid_context : bytes; co_kid_len : N; co_kid_mem : bytes }.

(** The bytes of the KID; reading outside the packet is undefined behaviour. *)
(** the uses of kid in src/oscore/oscore2coap.c *)
Definition kid_view (o : coscore) : res bytes := slice (co_kid_mem o) 0 (co_kid_len o).

(** src/oscore/oscore2coap.c:58-126, one OSCORE option. [m] is the memory from
    the option value to the end of the packet, [len] the length of the value.
    temp_kid_len is a uint16_t cut to 8 bits where the source does. *)
Definition oscore_value_parse (m : bytes) (len : N) : res coscore :=
  if len =? 0 then Ok {| co_piv := []; co_kid_context := []; co_kid_len := 0; co_kid_mem := [] |}
  else
    let* flags := rd m 0 in
    let h := flags / 16 mod 2 in
    let k := flags / 8 mod 2 in
    let n := flags mod 8 in
    let left0 := len - 1 in
    if (n =? 6) || (n =? 7) then Err oscore_inpkt_invalid_piv
    else
      let* piv := slice m 1 n in
      let left1 := if n =? 0 then left0 else u8 (left0 + 2 ^ 32 - n) in
      let p1 := 1 + n in
      let* (ctx, p2, left2) :=
        (if h =? 0 then Ok ([], p1, left1)
         else
           let* s := rd m p1 in
           let* c := slice m (p1 + 1) s in
           Ok (c, p1 + 1 + s, u8 (left1 + 2 ^ 32 - (s + 1)))) in
      Ok {| co_piv := piv; co_kid_context := ctx;
            co_kid_len := if k =? 0 then 0 else left2;
            co_kid_mem := if k =? 0 then [] else dropN p2 m |}.

(** src/oscore/oscore2coap.c:43-133 oscore_option_parser; the last OSCORE option
    wins. [cur] is [out] together with [r]. *)
Fixpoint oscore_option_parser_loop (opts : list copt) (cur : res coscore) : res coscore :=
  match opts with
  | [] => cur
  | o :: rest =>
      if o_num o =? OPT_OSCORE then
        let* x := oscore_value_parse (o_val o ++ o_tail o) (lenN (o_val o)) in
        oscore_option_parser_loop rest (Ok x)
      else oscore_option_parser_loop rest cur
  end.
(** src/oscore/oscore2coap.c, oscore_option_parser, the whole function *)
Definition oscore_option_parser (opts : list copt) : res coscore :=
  oscore_option_parser_loop opts (Err not_oscore_pkt).

(** src/oscore/oscore2coap.c:171-184, the inner loop for one [i]: [c] is
    out_options[i], [rest] the elements after it. *)
Fixpoint exchange_pass (c : copt) (rest : list copt) : copt * list copt :=
  match rest with
  | [] => (c, [])
  | x :: t =>
      if o_num x <? o_num c then let (m, t') := exchange_pass x t in (m, c :: t')
      else let (m, t') := exchange_pass c t in (m, x :: t')
  end.

(** src/oscore/oscore2coap.c:169-188, the outer loop; [n] is the number of
    elements. The delta of an element is set when its position is final. *)
Fixpoint exchange_sort (n : nat) (l : list copt) (delta : N) : list copt :=
  match n, l with
  | S n', c :: rest =>
      let (m, r) := exchange_pass c rest in
      {| o_delta := u16 (o_num m + 2 ^ 16 - delta); o_num := o_num m; o_val := o_val m; o_tail := o_tail m |}
        :: exchange_sort n' r (o_num m)
  | _, _ => []
  end.

(** src/oscore/oscore2coap.c:144-191 options_reorder; out_options has
    MAX_OPTION_COUNT elements. *)
Definition options_reorder (u e : list copt) : res (list copt) :=
  let max_cnt := u8 (lenN u + lenN e + 2 ^ 8 - 1) in
  let* _ := check_buffer_size MAX_OPTION_COUNT max_cnt in
  let l := filter (fun o => negb (o_num o =? OPT_OSCORE) && negb (o_num o =? OPT_OBSERVE)) u ++ e in
  if MAX_OPTION_COUNT <? lenN l then UB OobWrite
  else Ok (exchange_sort (length l) l 0).

(** src/oscore/oscore2coap.c:200-236 o_coap_pkg_generate *)
Definition o_coap_pkg_generate (pt : bytes) (k : cpkt) : res cpkt :=
  let* (code, eopts, payload) := oscore_decrypted_payload_parser pt MAX_E_OPTION_COUNT in
  let* opts := options_reorder (k_opts k) eopts in
  let h := k_hdr k in
  Ok {| k_hdr := {| h_ver := h_ver h; h_type := h_type h; h_tkl := h_tkl h; h_code := code; h_mid := h_mid h |};
        k_token := k_token k; k_opts := opts; k_payload := payload |}.

(** src/oscore/replay_protection.c:126-141 replay_protection_check_notification *)
Definition check_notification (num : N) (initialized : bool) (piv : bytes) : res unit :=
  let* ssn := piv2ssn piv in
  if initialized && (ssn <=? num) then Err oscore_replay_notification_protection_error else Ok tt.

Section Recv.
Variable cr : crypto.

(** src/oscore/oscore2coap.c:253-325 decrypt_wrapper. [nn] is
    new_nonce_oscore_option. Result: plaintext and decrypted packet. *)
Definition decrypt_wrapper (c : ctx) (nn : option coscore) (k : cpkt) : ctx * res (bytes * cpkt) :=
  let ty := coap_get_message_type k in
  let token := k_token k in
  try c let (rpiv, rkid) := read_wrapper ty token (c_inter c)
      (match nn with Some o => Some (co_piv o, takeN (co_kid_len o) (co_kid_mem o)) | None => None end) in
  try c let nonce := (match nn with
      | Some o => let* kid := kid_view o in create_nonce kid (co_piv o) (c_iv c)
      | None => Ok (c_nonce c) end) in
  try c let aad := create_aad (c_alg c) rkid rpiv MAX_AAD_LEN in
  try c let pt := oscore_cose_decrypt cr (k_payload k) nonce aad (c_rkey c) in
  let c1 := match nn with Some _ => set_nonce c nonce | None => c end in
  try c1 let out := o_coap_pkg_generate pt k in
  try c1 let uri := uri_path_create (k_opts out) OSCORE_MAX_URI_PATH_LEN in
  try c1 let t := update_wrapper (coap_get_message_type out) token uri (c_inter c1) rpiv rkid in
  (set_inter c1 t, Ok (pt, out)).

(** src/oscore/oscore2coap.c:366-423, the request branch. *)
Definition recv_request (c : ctx) (o : coscore) (k : cpkt) : ctx * res cpkt :=
  if negb (lenN (c_rid c) =? co_kid_len o) then (c, Err oscore_kid_recipient_id_mismatch)
  else
    try c let kid := kid_view o in
    if negb (array_equals (c_rid c) kid) then (c, Err oscore_kid_recipient_id_mismatch)
    else
      try c let ssn := piv2ssn (co_piv o) in
      if (match c_echo c with ECHO_SYNCHRONIZED => negb (rw_valid ssn (c_win c)) | _ => false end)
      then (c, Err oscore_replay_window_protection_error)
      else
        call c1, (pt, out) := decrypt_wrapper c (Some o) k in
        match c_echo c1 with
        | ECHO_REBOOT => (set_echo c1 ECHO_VERIFY, Err first_request_after_reboot)
        | ECHO_VERIFY =>
            match echo_val_is_fresh (takeN (c_echo_len c1) (c_echo_buf c1)) pt with
            | Ok _ => (set_echo (set_win c1 (rw_reinit ssn)) ECHO_SYNCHRONIZED, Ok out)
            | Err _ => (c1, Err echo_validation_failed)
            | UB u => (c1, UB u)
            end
        | ECHO_SYNCHRONIZED =>
            match co_piv o with
            | [] => (c1, UB NullDeref)
            | b :: _ => (set_win c1 (snd (rw_update b (c_win c1))), Ok out)
            end
        end.

(** src/oscore/oscore2coap.c:423-467, the response branch. *)
Definition recv_response (c : ctx) (o : coscore) (k : cpkt) : ctx * res cpkt :=
  if is_observe (k_opts k) then
    match co_piv o with
    | [] => (c, Err not_supported_feature)
    | _ =>
        try c let _ := check_notification (c_notif c) (c_notif_init c) (co_piv o) in
        call c1, (pt, out) := decrypt_wrapper c (Some o) k in
        try c1 let ssn := piv2ssn (co_piv o) in
        (set_notif c1 ssn, Ok out)
    end
  else
    call c1, (pt, out) :=
      decrypt_wrapper c (match co_piv o with [] => None | _ => Some o end) k in
    (c1, Ok out).

(** src/oscore/oscore2coap.c:327-471, everything before the final
    coap_serialize. *)
Definition oscore2coap_core (c : ctx) (input : bytes) : ctx * res cpkt :=
  try c let _ := check_context_freshness c in
  try c let k := coap_deserialize input in
  try c let o := oscore_option_parser (k_opts k) in
  try c let _ := byte_array_new MAX_PLAINTEXT_LEN (sub32 (lenN (k_payload k)) AUTH_TAG_LEN) in
  if is_request k then recv_request c o k else recv_response c o k.

(** src/oscore/oscore2coap.c:327-471 oscore2coap. [buf] is the caller's output
    buffer, whose size is *buf_out_len. Result: context, buffer after the call,
    length of the message. *)
Definition oscore2coap (c : ctx) (input buf : bytes) : ctx * bytes * res N :=
  match oscore2coap_core c input with
  | (c1, Ok out) =>
      match coap_serialize out (lenN buf) with
      | (w, Ok _) => (c1, written w buf, Ok (lenN w))
      | (w, Err e) => (c1, written w buf, Err e)
      | (w, UB u) => (c1, buf, UB u)
      end
  | (c1, Err e) => (c1, buf, Err e)
  | (c1, UB u) => (c1, buf, UB u)
  end.
End Recv.
