(** Vocabulary for the theorems about requests that are delivered again. *)
From Verif Require Import Base Model_Crypto Model_Context Model_Recv Model_Run.

(** The packet [input] is delivered [m] times in a row, always as the message [out]. *)
Fixpoint delivered (cr : crypto) (m : nat) (c : ctx) (input buf out : bytes) (n : N) (c' : ctx) : Prop :=
  match m with
  | O => c' = c
  | S m' => exists c1, oscore2coap cr c input buf = (c1, out, Ok n) /\ delivered cr m' c1 input buf out n c'
  end.

(** The arguments of a call are byte strings. *)
Definition call_ok (a : api_call) : Prop :=
  match a with ASend _ input _ | ARecv input _ => is_bytes input /\ lenN input < 2 ^ 32 end.
