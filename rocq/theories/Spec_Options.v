(** Classes of CoAP options for OSCORE (RFC 8613, section 4.1, figure 5; EDHOC
    option: RFC 9668, section 3.1) and what splitting and merging option lists
    has to preserve. Options are pairs (number, value). *)
From Verif Require Import Base.

Definition class_u_numbers : list N := [3; 7; 9; 21; 35; 39].
(** Observe has an inner and an outer instance. *)
Definition goes_inside (n : N) : Prop := ~ In n class_u_numbers.
Definition goes_outside (n : N) : Prop := n = 6 \/ In n class_u_numbers.

(** Sublists selected by a predicate, in order. *)
Inductive selects {A} (P : A -> Prop) : list A -> list A -> Prop :=
| sel_nil : selects P [] []
| sel_take x l r : P x -> selects P l r -> selects P (x :: l) (x :: r)
| sel_skip x l r : ~ P x -> selects P l r -> selects P (x :: l) r.

(** [l] is an order-preserving interleaving of [a] and [b]. *)
Inductive shuffle {A} : list A -> list A -> list A -> Prop :=
| sh_nil : shuffle [] [] []
| sh_left x a b l : shuffle a b l -> shuffle (x :: a) b (x :: l)
| sh_right x a b l : shuffle a b l -> shuffle a (x :: b) (x :: l).

(** Ascending numbers. *)
Inductive asc : N -> list (N * bytes) -> Prop :=
| asc_nil' p : asc p []
| asc_cons' p n v l : p <= n -> asc n l -> asc p ((n, v) :: l).

(** RFC 8613, 4.1.3.5.2: the inner Observe of a response is empty. *)
Definition inner_value (request : bool) (p : N * bytes) : N * bytes :=
  if (fst p =? 6) && negb request then (fst p, []) else p.
