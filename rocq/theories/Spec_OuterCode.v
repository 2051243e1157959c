(** Vocabulary for the theorems about changes of the outer code. *)
From Verif Require Import Base.

(** The packet with another code; the code is the second byte and not protected. *)
Definition recode (code : N) (packet : bytes) : bytes :=
  match packet with a :: _ :: rest => a :: code :: rest | _ => packet end.

(** The message has a request code. *)
Definition is_request_message (msg : bytes) : Prop := exists b, nth_error msg 1 = Some b /\ 0 < b < 32.
