(** Value of the OSCORE option, RFC 8613 section 6.1. *)
From Verif Require Import Base.

(** Absent and empty KID are different on the wire (bit k). *)
Record oscore_opt := { oo_piv : bytes; oo_ctx : option bytes; oo_kid : option bytes }.

Definition oo_empty : oscore_opt := {| oo_piv := []; oo_ctx := None; oo_kid := None |}.

Definition flag_bit (b : option bytes) (w : N) : N := match b with Some _ => w | None => 0 end.

(** First byte 0 0 0 h k n, Partial IV, length and value of the KID context,
    KID. *)
Definition rfc_oscore_bytes (o : oscore_opt) : bytes :=
  (flag_bit (oo_ctx o) 16 + flag_bit (oo_kid o) 8 + lenN (oo_piv o)) :: oo_piv o
  ++ match oo_ctx o with Some c => lenN c :: c | None => [] end
  ++ match oo_kid o with Some k => k | None => [] end.

(** If everything is absent the value is empty. *)
Inductive rfc_oscore_value : oscore_opt -> bytes -> Prop :=
| oov_empty : rfc_oscore_value oo_empty []
| oov_bytes o : lenN (oo_piv o) <= 5 -> (forall c, oo_ctx o = Some c -> lenN c < 256) ->
    o <> oo_empty -> rfc_oscore_value o (rfc_oscore_bytes o).
