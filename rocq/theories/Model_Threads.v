(** ssn2piv keeps its digits in an array with static storage duration
    (src/oscore/security_context.c:191): calls that run at the same time, on whatever
    contexts, share it. This file models such calls step by step. Every access to the
    array is one step, in the order of the program; the C standard promises even less
    for unsynchronised accesses. Nothing else in coap2oscore is shared by calls on
    different contexts, as long as the user's callbacks and buffers are not. *)
From Verif Require Import Base Model_Common Model_Crypto Model_OscorePrims Model_Coap Model_Interactions
  Model_Context Model_Send.

(** src/oscore/security_context.c:191 tmp_piv, MAX_PIV_LEN bytes *)
Definition tmp_array := nat -> N.
(** src/oscore/security_context.c:194 the assignment to tmp_piv[len] *)
Definition tmp_set (m : tmp_array) (i : nat) (b : N) : tmp_array := fun j => if (j =? i)%nat then b else m j.

(** Where a call of ssn2piv is: before the test of the loop of lines 193-197, before
    the test of the loop of lines 205-207 (with piv->ptr[0..pos-1] as written so far),
    or back in its caller (src/oscore/security_context.c:192-210). *)
Inductive at_step :=
| Digits (rest : N) (len : nat)
| Copy (len pos : nat) (out : bytes)
| Done (r : res bytes).

(** src/oscore/security_context.c:186-192 *)
Definition at_start (ssn : N) : at_step :=
  if MAX_PIV_FIELD_VALUE <? ssn then Done (Err wrong_parameter) else Digits ssn 0.

(** src/oscore/security_context.c:193-210, one round of a loop, or the way from the
    first loop to the second, or the return. *)
Definition one_step (m : tmp_array) (st : at_step) : tmp_array * at_step :=
  match st with
  | Digits rest len =>
      if 0 <? rest then
        if (len <? N.to_nat MAX_PIV_LEN)%nat then (tmp_set m len (u8 rest), Digits (rest / 256) (S len))
        else (m, Done (UB OobWrite))
      else if (len =? 0)%nat then (m, Done (Ok [0]))
      else (m, Copy len 0 [])
  | Copy len pos out =>
      if (pos <? len)%nat then (m, Copy len (S pos) (out ++ [m (len - 1 - pos)%nat])) else (m, Done (Ok out))
  | Done r => (m, Done r)
  end.

(** Any number of calls of ssn2piv (src/oscore/security_context.c:184-211); the schedule
    says whose turn it is. Calls of one thread after another are calls with a schedule
    that lets one finish before the next begins. *)
Fixpoint turns (sched : list nat) (m : tmp_array) (sts : list at_step) : tmp_array * list at_step :=
  match sched with
  | [] => (m, sts)
  | i :: r =>
      match nth_error sts i with
      | None => turns r m sts
      | Some st => let '(m', st') := one_step m st in turns r m' (set_nth sts i st')
      end
  end.
(** What call [i] of ssn2piv returned, if it has (src/oscore/security_context.c:184-211). *)
Definition returned (tmp : tmp_array) (numbers : list N) (sched : list nat) (i : nat) : option (res bytes) :=
  match nth_error (snd (turns sched tmp (map at_start numbers))) i with
  | Some (Done r) => Some r
  | _ => None
  end.

Section With.
Variable cr : crypto.
Variable nvm_write : N -> res unit.
(** what the call of ssn2piv returned *)
Variable piv_result : res bytes.

(** src/oscore/coap2oscore.c:506-575 encrypt_wrapper, with a result of ssn2piv that
    depends on the other threads; otherwise as in Model_Send.v *)
Definition encrypt_wrapper_with (s : sstate) (pt : bytes) (k : cpkt) : sstate * res (bytes * bytes) :=
  let ty := coap_get_message_type k in
  let token := k_token k in
  let use_new := needs_new_piv ty (c_echo (s_ctx s)) in
  call s1, x :=
    (if use_new then
       try s let piv := piv_result in
       call s1, _ := generate_new_ssn nvm_write s in
       try s1 let nonce := create_nonce (c_sid (s_ctx s1)) piv (c_iv (s_ctx s1)) in
       (s1, Ok (nonce, piv, c_sid (s_ctx s1), c_id_context (s_ctx s1)))
     else (s, Ok (c_nonce (s_ctx s), [], [], []))) in
  let '(nonce, piv, kid, kid_context) := x in
  try s1 let opt := oscore_option_generate piv kid kid_context in
  try s1 let (rpiv, rkid) := read_wrapper ty token (c_inter (s_ctx s1)) (Some (piv, kid)) in
  try s1 let aad := create_aad (c_alg (s_ctx s1)) rkid rpiv MAX_AAD_LEN in
  try s1 let ct := oscore_cose_encrypt cr pt nonce aad (c_skey (s_ctx s1)) in
  let s2 := {| s_ctx := if use_new then set_nonce (s_ctx s1) nonce else s_ctx s1;
               s_nvm := s_nvm s1; s_enc := Some (nonce, aad, pt) |} in
  try s2 let uri := uri_path_create (k_opts k) OSCORE_MAX_URI_PATH_LEN in
  try s2 let t := update_wrapper ty token uri (c_inter (s_ctx s2)) rpiv rkid in
  (s_set s2 (set_inter (s_ctx s2) t), Ok (ct, opt)).

(** src/oscore/coap2oscore.c:590-669, everything before coap_serialize *)
Definition coap2oscore_core_with (c : ctx) (input : bytes) : sstate * res (cpkt + bytes) :=
  let s := s0 c in
  try s let _ := check_context_freshness c in
  try s let k := coap_deserialize input in
  if (h_type (k_hdr k) =? 2) && (h_code (k_hdr k) =? 0) then (s, Ok (inr input))
  else
    try s let (eopts, uopts, elen) := inner_outer_option_split k in
    let plen := if lenN (k_payload k) =? 0 then 1 + elen else u32 (1 + elen + 1 + lenN (k_payload k)) in
    try s let _ := byte_array_new MAX_PLAINTEXT_LEN plen in
    try s let pt := plaintext_setup (h_code (k_hdr k)) eopts (k_payload k) plen in
    try s let _ := byte_array_new MAX_CIPHERTEXT_LEN (u32 (plen + AUTH_TAG_LEN)) in
    call s1, _ :=
      (match c_echo c with
       | ECHO_VERIFY =>
           try s let (b, n) := cache_echo_val (c_echo_buf c) (c_echo_len c) eopts in
           (s_set s (set_echo_val c b n), Ok tt)
       | _ => (s, Ok tt)
       end) in
    call s2, (ct, opt) := encrypt_wrapper_with s1 pt k in
    try s2 let out := oscore_pkg_generate k uopts ct opt in
    (s2, Ok (inl out)).

(** src/oscore/coap2oscore.c:590-669 coap2oscore *)
Definition coap2oscore_with (c : ctx) (input buf : bytes) : sstate * bytes * res N :=
  match coap2oscore_core_with c input with
  | (s, Ok (inr w)) =>
      if lenN buf <? lenN w then (s, buf, UB OobWrite) else (s, written w buf, Ok (lenN w))
  | (s, Ok (inl out)) =>
      match coap_serialize out (lenN buf) with
      | (w, Ok _) => (s, written w buf, Ok (lenN w))
      | (w, Err e) => (s, written w buf, Err e)
      | (w, UB u) => (s, buf, UB u)
      end
  | (s, Err e) => (s, buf, Err e)
  | (s, UB u) => (s, buf, UB u)
  end.
End With.
