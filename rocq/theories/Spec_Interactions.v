(** What the interaction table is for: a set of at most three outstanding
    exchanges, no two with the same token and no two with the same request type
    and resource. *)
From Verif Require Import Base Model_Coap Model_Interactions.

(** [r] is one of the occupied records of the table. *)
Definition held (t : itable) (r : inter) : Prop := In (Some r) t.
Definition same_resource (a b : inter) : Prop := i_type a = i_type b /\ i_uri a = i_uri b.
Definition full (t : itable) : Prop := ~ In None t.

(** The array sizes of struct oscore_interaction_t. *)
Definition inter_sizes (r : inter) : Prop :=
  lenN (i_token r) <= 8 /\ lenN (i_uri r) <= 30 /\ lenN (i_piv r) <= 5 /\ lenN (i_kid r) <= 8.

(** Three slots; two occupied slots never share a token or a resource. *)
Definition table_ok (t : itable) : Prop :=
  length t = 3%nat /\
  (forall r, held t r -> inter_sizes r) /\
  forall i j r s, nth_error t i = Some (Some r) -> nth_error t j = Some (Some s) ->
    i_token r = i_token s \/ same_resource r s -> i = j.
