(** Lifetimes of a device that keeps a security context over reboots. *)
From Verif Require Import Base Model_Common Model_Crypto Model_Context Model_Send Model_Recv Model_Run Spec_Session.

(** The AEAD nonces used by a call in messages with a Partial IV of their own, that is
    nonces made from a sender sequence number. *)
Definition numbered (c : ctx) (input : bytes) (o : obs) (ns : list bytes) : Prop :=
  (plain_response c input /\ ns = []) \/ (~ plain_response c input /\ ns = nonce_of o).

(** [lives cr p v0 v c w f used]: a device initialised with the parameters [p], whose
    memory held [v0] at first, has memory content [v] now. [c] is its context ([None]: it
    is off). [w] tells whether a write to the memory was completed in this boot, [f]
    counts the writes that failed since then. [used] are the nonces used so far. The
    device can be switched off at any moment.
    - After the first completed write of a boot, at most one write fails until the next
      succeeds; a failed write may or may not have changed the memory.
    - A request that completes the Echo exchange is accepted only after a write was
      completed in this boot: the Echo value was sent in a message protected by this
      library (every such message involves a write). *)
Inductive lives (cr : crypto) (p : init_params) (v0 : N) : N -> option ctx -> bool -> N -> list bytes -> Prop :=
| lives_start : lives cr p v0 v0 None false 0 []
| lives_boot v c w f used gn ge gf c' :
    lives cr p v0 v c w f used -> oscore_context_init cr p (Ok v) gn ge gf = Ok c' ->
    lives cr p v0 v (Some c') false 0 used
| lives_send v c w f used nw input buf c' o ns :
    lives cr p v0 v (Some c) w f used -> exec cr c (ASend nw input buf) = (c', o) -> numbered c input o ns -> ob_nvm o = None ->
    lives cr p v0 v (Some c') w f (ns ++ used)
| lives_send_write v c w f used nw input buf c' o ns x :
    lives cr p v0 v (Some c) w f used -> exec cr c (ASend nw input buf) = (c', o) -> numbered c input o ns -> ob_nvm o = Some x -> nw x = Ok tt ->
    lives cr p v0 x (Some c') true 0 (ns ++ used)
| lives_send_fail v c w f used nw input buf c' o ns x v' :
    lives cr p v0 v (Some c) w f used -> (w = true -> f = 0) -> exec cr c (ASend nw input buf) = (c', o) -> numbered c input o ns -> ob_nvm o = Some x -> nw x <> Ok tt ->
    v' = v \/ v' = x ->
    lives cr p v0 v' (Some c') w (if w then 1 else 0) (ns ++ used)
| lives_send_crash v c w f used nw input buf c' o x :
    (* power fails inside the call, after the write *)
    lives cr p v0 v (Some c) w f used -> exec cr c (ASend nw input buf) = (c', o) -> ob_nvm o = Some x ->
    lives cr p v0 x None false 0 used
| lives_recv v c w f used input buf c' o :
    lives cr p v0 v (Some c) w f used -> exec cr c (ARecv input buf) = (c', o) ->
    (c_echo c <> ECHO_SYNCHRONIZED -> c_echo c' = ECHO_SYNCHRONIZED -> w = true) ->
    lives cr p v0 v (Some c') w f used.
