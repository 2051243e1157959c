(** Bytes of numbers, for C75. *)
From Verif Require Import Base.

(** The byte of weight 256^j, and whether the number needs it. *)
Definition byte_of (n : N) (j : nat) : N := n / 256 ^ N.of_nat j mod 256.
Definition has_byte (n : N) (j : nat) : Prop := 256 ^ N.of_nat j <= n.
(** The same number of bytes. *)
Definition same_width (a b : N) : Prop := forall j, has_byte a j <-> has_byte b j.

(** All turns of [i] are next to each other. *)
Definition undisturbed (sched : list nat) (i : nat) : Prop :=
  exists before k after, sched = before ++ repeat i k ++ after /\ ~ In i before /\ ~ In i after.
(** How many turns [i] has. *)
Definition turns_of (sched : list nat) (i : nat) : nat := count_occ Nat.eq_dec sched i.
