(** Space that options take at most when written (RFC 7252, section 3.1): a byte for the two
    nibbles, two for either extension, and the value. *)
From Verif Require Import Base.

Fixpoint options_room (l : list (N * bytes)) : N :=
  match l with [] => 0 | (_, v) :: rest => 5 + lenN v + options_room rest end.
