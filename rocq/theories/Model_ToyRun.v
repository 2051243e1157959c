(** Concrete contexts and messages for the examples and counterexamples about the
    OSCORE API. They run the modelled code with [toy_crypto]; no code of /repo is
    modelled here. *)
From Verif Require Import Base Model_Common Model_Crypto Model_Coap Model_OscorePrims Model_Context
  Model_Send Model_Recv Model_Run Model_Toy.

Definition toy_params (sid rid : bytes) (fresh : bool) : init_params :=
  {| ip_secret := repeat 1 16; ip_sender_id := sid; ip_recipient_id := rid; ip_id_context := [];
     ip_salt := [9; 9]; ip_aead := 10; ip_hkdf := 0; ip_fresh := fresh |}.
Definition toy_ctx0 : ctx :=
  {| c_nonce := []; c_inter := []; c_echo_buf := []; c_echo_len := 0; c_echo := ECHO_REBOOT; c_alg := 0;
     c_id_context := []; c_iv := []; c_fresh := false; c_sid := []; c_skey := []; c_ssn := 0; c_rid := [];
     c_rkey := []; c_win := Model_Replay.rw_init; c_notif := 0; c_notif_init := false |}.
Definition toy_init (sid rid : bytes) (fresh : bool) (nvm : N) : ctx :=
  match oscore_context_init toy_crypto (toy_params sid rid fresh) (Ok nvm) (repeat 0 13) (repeat 0 12) 0 with
  | Ok c => c
  | _ => toy_ctx0
  end.

(** Client with ID 1 and server with ID 2. *)
Definition toy_client : ctx := toy_init [1] [2] true 0.
Definition toy_server : ctx := toy_init [2] [1] true 0.

Definition toy_out : bytes := repeat 0 256.
Definition toy_nw (_ : N) : res unit := Ok tt.
Definition toy_send (c : ctx) (m : bytes) : ctx * bytes :=
  let '(s, b, r) := coap2oscore toy_crypto toy_nw c m toy_out in
  (s_ctx s, match r with Ok n => takeN n b | _ => [] end).
Definition toy_recv (c : ctx) (m : bytes) : ctx * res bytes :=
  let '(c', b, r) := oscore2coap toy_crypto c m toy_out in
  (c', let* n := r in Ok (takeN n b)).

(** GET /a with token [t], its piggybacked 2.05 response, and the same pair with
    Observe. *)
Definition toy_get (t : N) : bytes := [0x41; 1; 0; t; t; 0xb1; 97].
Definition toy_content (t : N) : bytes := [0x61; 0x45; 0; t; t; 255; 104; 105].
Definition toy_observe (t : N) : bytes := [0x41; 1; 0; t; t; 0x60; 0x51; 97].
Definition toy_notify (t v : N) : bytes := [0x51; 0x45; 0; t; t; 0x61; v; 255; 104; 105].

