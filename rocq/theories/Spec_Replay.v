(** Specification of a sliding replay window of size [W] over the whole
    history: a number is accepted iff it was never accepted and fewer than [W]
    larger numbers were accepted. *)
From Verif Require Import Base.

Definition larger_accepted (H : list N) (n : N) : nat :=
  length (filter (fun m => n <? m) H).

Definition spec_accepts (W : nat) (H : list N) (n : N) : bool :=
  negb (existsb (N.eqb n) H) && Nat.ltb (larger_accepted H n) W.

(** Decisions of the specification on a list of presented numbers, starting
    with history [H]. *)
Fixpoint spec_run (W : nat) (H : list N) (ns : list N) : list bool :=
  match ns with
  | [] => []
  | n :: t =>
      if spec_accepts W H n then true :: spec_run W (n :: H) t
      else false :: spec_run W H t
  end.

(** The presented numbers that were accepted. *)
Fixpoint accepted (ns : list N) (ds : list bool) : list N :=
  match ns, ds with
  | n :: t, true :: d => n :: accepted t d
  | _ :: t, false :: d => accepted t d
  | _, _ => []
  end.

(** All numbers from 0 up to and including [c]. *)
Definition upto (c : N) : list N := map N.of_nat (seq 0 (S (N.to_nat c))).
