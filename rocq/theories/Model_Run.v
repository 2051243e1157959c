(** How an application uses the OSCORE API: sequences of calls on one context
    within one boot. The functions called are coap2oscore
    (src/oscore/coap2oscore.c:590-669) and oscore2coap
    (src/oscore/oscore2coap.c:327-471); the application chooses the arguments and
    the environment the results of nvm_write_ssn. *)
From Verif Require Import Base Model_Common Model_Crypto Model_Coap Model_Context Model_Send Model_Recv.

(** One call; [buf] is the caller's output buffer. *)
(** the API of inc/oscore.h: coap2oscore, oscore2coap *)
Inductive api_call :=
| ASend (nvm_write : N -> res unit) (input buf : bytes)
| ARecv (input buf : bytes).

(** What a call shows to the outside: the AEAD encryption under the sender key
    (nonce, AAD, plaintext), the value given to nvm_write_ssn, the output buffer
    afterwards and the result (on success the length of the message in it). *)
(** what a caller of inc/oscore.h sees *)
Record obs := { ob_enc : option (bytes * bytes * bytes); ob_nvm : option N; ob_buf : bytes; ob_res : res N }.

Section Run.
Variable cr : crypto.

(** one call of src/oscore/coap2oscore.c or oscore2coap.c *)
Definition exec (c : ctx) (a : api_call) : ctx * obs :=
  match a with
  | ASend nw input buf =>
      let '(s, b, r) := coap2oscore cr nw c input buf in
      (s_ctx s, {| ob_enc := s_enc s; ob_nvm := s_nvm s; ob_buf := b; ob_res := r |})
  | ARecv input buf =>
      let '(c', b, r) := oscore2coap cr c input buf in
      (c', {| ob_enc := None; ob_nvm := None; ob_buf := b; ob_res := r |})
  end.

(** A call that runs into undefined behaviour ends the modelled execution. *)
(** a history of calls of the API of inc/oscore.h; models the caller *)
Fixpoint run (c : ctx) (l : list api_call) : ctx * list obs :=
  match l with
  | [] => (c, [])
  | a :: rest =>
      let (c1, o) := exec c a in
      if is_ub (ob_res o) then (c1, [o])
      else let (c2, os) := run c1 rest in (c2, o :: os)
  end.

(** Contexts that exist in some execution: created by oscore_context_init
    (src/oscore/security_context.c:104-165), then used. *)
Definition reachable (c : ctx) : Prop :=
  exists p nvm g_nonce g_echo g_notif c0 calls,
    oscore_context_init cr p nvm g_nonce g_echo g_notif = Ok c0 /\ fst (run c0 calls) = c.
End Run.
