(** Model of src/oscore/security_context.c (context) and src/oscore/nvm.c. *)
From Verif Require Import Base Model_Common Model_Crypto Model_OscorePrims Model_Coap
  Model_Interactions Model_Replay.

(** inc/oscore/security_context.h:36-40 enum echo_state *)
Inductive echo_state := ECHO_REBOOT | ECHO_VERIFY | ECHO_SYNCHRONIZED.

(** inc/oscore/security_context.h:46-101 struct context. master_secret,
    master_salt and kdf are used only by oscore_context_init and are not kept.
    [c_echo_buf] is echo_opt_val_buf, [c_echo_len] is echo_opt_val.len. *)
Record ctx := {
  c_nonce : bytes;
  c_inter : itable;
  c_echo_buf : bytes;
  c_echo_len : N;
  c_echo : echo_state;
  c_alg : Z;
  c_id_context : bytes;
  c_iv : bytes;
  c_fresh : bool;
  c_sid : bytes;
  c_skey : bytes;
  c_ssn : N;
  c_rid : bytes;
  c_rkey : bytes;
  c_win : rwin;
  c_notif : N;
  c_notif_init : bool
}.

(** Field updates. *)
(** a member update of struct context, inc/oscore/security_context.h *)
Definition set_nonce c v := {| c_nonce := v; c_inter := c_inter c; c_echo_buf := c_echo_buf c;
  c_echo_len := c_echo_len c; c_echo := c_echo c; c_alg := c_alg c; c_id_context := c_id_context c;
  c_iv := c_iv c; c_fresh := c_fresh c; c_sid := c_sid c; c_skey := c_skey c; c_ssn := c_ssn c;
  c_rid := c_rid c; c_rkey := c_rkey c; c_win := c_win c; c_notif := c_notif c;
  c_notif_init := c_notif_init c |}.
(** a member update of struct context, inc/oscore/security_context.h *)
Definition set_inter c v := {| c_nonce := c_nonce c; c_inter := v; c_echo_buf := c_echo_buf c;
  c_echo_len := c_echo_len c; c_echo := c_echo c; c_alg := c_alg c; c_id_context := c_id_context c;
  c_iv := c_iv c; c_fresh := c_fresh c; c_sid := c_sid c; c_skey := c_skey c; c_ssn := c_ssn c;
  c_rid := c_rid c; c_rkey := c_rkey c; c_win := c_win c; c_notif := c_notif c;
  c_notif_init := c_notif_init c |}.
(** a member update of struct context, inc/oscore/security_context.h *)
Definition set_echo_val c b n := {| c_nonce := c_nonce c; c_inter := c_inter c; c_echo_buf := b;
  c_echo_len := n; c_echo := c_echo c; c_alg := c_alg c; c_id_context := c_id_context c;
  c_iv := c_iv c; c_fresh := c_fresh c; c_sid := c_sid c; c_skey := c_skey c; c_ssn := c_ssn c;
  c_rid := c_rid c; c_rkey := c_rkey c; c_win := c_win c; c_notif := c_notif c;
  c_notif_init := c_notif_init c |}.
(** a member update of struct context, inc/oscore/security_context.h *)
Definition set_echo c v := {| c_nonce := c_nonce c; c_inter := c_inter c; c_echo_buf := c_echo_buf c;
  c_echo_len := c_echo_len c; c_echo := v; c_alg := c_alg c; c_id_context := c_id_context c;
  c_iv := c_iv c; c_fresh := c_fresh c; c_sid := c_sid c; c_skey := c_skey c; c_ssn := c_ssn c;
  c_rid := c_rid c; c_rkey := c_rkey c; c_win := c_win c; c_notif := c_notif c;
  c_notif_init := c_notif_init c |}.
(** a member update of struct context, inc/oscore/security_context.h *)
Definition set_ssn c v := {| c_nonce := c_nonce c; c_inter := c_inter c; c_echo_buf := c_echo_buf c;
  c_echo_len := c_echo_len c; c_echo := c_echo c; c_alg := c_alg c; c_id_context := c_id_context c;
  c_iv := c_iv c; c_fresh := c_fresh c; c_sid := c_sid c; c_skey := c_skey c; c_ssn := v;
  c_rid := c_rid c; c_rkey := c_rkey c; c_win := c_win c; c_notif := c_notif c;
  c_notif_init := c_notif_init c |}.
(** a member update of struct context, inc/oscore/security_context.h *)
Definition set_win c v := {| c_nonce := c_nonce c; c_inter := c_inter c; c_echo_buf := c_echo_buf c;
  c_echo_len := c_echo_len c; c_echo := c_echo c; c_alg := c_alg c; c_id_context := c_id_context c;
  c_iv := c_iv c; c_fresh := c_fresh c; c_sid := c_sid c; c_skey := c_skey c; c_ssn := c_ssn c;
  c_rid := c_rid c; c_rkey := c_rkey c; c_win := v; c_notif := c_notif c;
  c_notif_init := c_notif_init c |}.
(** a member update of struct context, inc/oscore/security_context.h *)
Definition set_notif c v := {| c_nonce := c_nonce c; c_inter := c_inter c; c_echo_buf := c_echo_buf c;
  c_echo_len := c_echo_len c; c_echo := c_echo c; c_alg := c_alg c; c_id_context := c_id_context c;
  c_iv := c_iv c; c_fresh := c_fresh c; c_sid := c_sid c; c_skey := c_skey c; c_ssn := c_ssn c;
  c_rid := c_rid c; c_rkey := c_rkey c; c_win := c_win c; c_notif := v;
  c_notif_init := true |}.

(** [TRY] inside a function that has already modified the context: on failure
    the context keeps the modifications made so far. *)
(** inc/common/oscore_edhoc_error.h:86-93 *)
Definition tryc {A B C} (c : C) (r : res A) (k : A -> C * res B) : C * res B :=
  match r with Ok a => k a | Err e => (c, Err e) | UB u => (c, UB u) end.
Notation "'try' c 'let' x ':=' r 'in' k" := (tryc c r (fun x => k))
  (at level 200, c at level 0, x pattern, right associativity).
(** A call of a function that itself returns the (possibly modified) context. *)
(** inc/common/oscore_edhoc_error.h:86-93, applied to a call that modifies the context *)
Definition callc {A B C} (r : C * res A) (k : C -> A -> C * res B) : C * res B :=
  match r with
  | (c, Ok a) => k c a
  | (c, Err e) => (c, Err e)
  | (c, UB u) => (c, UB u)
  end.
Notation "'call' c ',' x ':=' r 'in' k" := (callc r (fun c x => k))
  (at level 200, c name, x pattern, right associativity).

(** inc/oscore.h struct oscore_init_params *)
Record init_params := {
  ip_secret : bytes; ip_sender_id : bytes; ip_recipient_id : bytes; ip_id_context : bytes;
  ip_salt : bytes; ip_aead : Z; ip_hkdf : Z; ip_fresh : bool
}.

(** src/oscore/nvm.c constants *)
Definition K_SSN_NVM_STORE_INTERVAL : N := 10.
Definition F_NVM_MAX_WRITE_FAILURE : N := 10.   (* inc/oscore.h:38 *)
(** inc/oscore/supported_algorithm.h *)
Definition COMMON_IV_LEN : N := 13.
Definition KEY_LEN : N := 16.   (* inc/oscore/supported_algorithm.h:28-31 *)
Definition RECIPIENT_ID_BUFF_LEN : N := 8.   (* inc/oscore/supported_algorithm.h:29 *)
Definition ECHO_OPT_VALUE_LEN : N := 12.   (* inc/oscore/oscore_coap_defines.h:49 *)

(** src/oscore/nvm.c:51-74 ssn_init; [nvm] is what the user's nvm_read_ssn
    returns. *)
Definition ssn_init (nvm : res N) (fresh : bool) : res N :=
  if fresh then Ok 0
  else let* s := nvm in Ok (u64 (s + (K_SSN_NVM_STORE_INTERVAL + F_NVM_MAX_WRITE_FAILURE))).

(** src/oscore/security_context.c:104-165 oscore_context_init. [g_nonce],
    [g_echo], [g_notif] are the previous contents of nonce_buf, echo_opt_val_buf
    and notification_num, which the function does not set. *)
Definition oscore_context_init (cr : crypto) (p : init_params) (nvm : res N)
    (g_nonce g_echo : bytes) (g_notif : N) : res ctx :=
  if negb (ip_aead p =? OSCORE_AES_CCM_16_64_128)%Z then Err oscore_invalid_algorithm_aead
  else if negb (ip_hkdf p =? OSCORE_SHA_256)%Z then Err oscore_invalid_algorithm_hkdf
  else
    let d := derive cr (ip_secret p) (ip_salt p) (ip_id_context p) (ip_aead p) (ip_hkdf p) in
    let* iv := d [] IV COMMON_IV_LEN in
    if RECIPIENT_ID_BUFF_LEN <? lenN (ip_recipient_id p) then UB OobWrite
    else
      let* rkey := d (ip_recipient_id p) KEY KEY_LEN in
      let* ssn := ssn_init nvm (ip_fresh p) in
      let* skey := d (ip_sender_id p) KEY KEY_LEN in
      Ok {| c_nonce := g_nonce; c_inter := interactions_init; c_echo_buf := g_echo;
            c_echo_len := ECHO_OPT_VALUE_LEN;
            c_echo := if ip_fresh p then ECHO_SYNCHRONIZED else ECHO_REBOOT;
            c_alg := ip_aead p; c_id_context := ip_id_context p; c_iv := iv;
            c_fresh := ip_fresh p; c_sid := ip_sender_id p; c_skey := skey; c_ssn := ssn;
            c_rid := ip_recipient_id p; c_rkey := rkey; c_win := rw_init;
            c_notif := g_notif; c_notif_init := false |}.

(** src/oscore/security_context.c:167-182 check_context_freshness *)
Definition check_context_freshness (c : ctx) : res unit :=
  if OSCORE_SSN_OVERFLOW_VALUE <=? c_ssn c then Err oscore_ssn_overflow else Ok tt.

(** src/oscore/nvm.c:37-48 ssn_store_in_nvm: the value handed to the user's
    nvm_write_ssn, if it is called. *)
Definition ssn_store_in_nvm (ssn : N) (echo_sync_in_progress : bool) : option N :=
  if (ssn mod K_SSN_NVM_STORE_INTERVAL =? 0) || echo_sync_in_progress then Some ssn else None.

(** Output buffer after [w] has been written at its beginning. *)
(** the effect of memcpy, src/common/memcpy_s.c *)
Definition written (w buf : bytes) : bytes := w ++ dropN (lenN w) buf.
