(** Packets that end inside an option: the header of an option announces bytes that are
    not there. Written from RFC 7252, section 3.1. *)
From Verif Require Import Base Spec_Coap Spec_Safe.

(** A 4-bit field whose extension bytes are not all there. *)
Definition field_cut (nib : N) (r : bytes) : Prop := nib = 13 /\ lenN r < 1 \/ nib = 14 /\ lenN r < 2.

(** [cut n d]: after [n] complete options, [d] ends inside of the next one. *)
Inductive cut : N -> bytes -> Prop :=
| cut_delta dn ln r : field_cut dn r -> ln < 16 -> cut 0 ((dn * 16 + ln) :: r)
| cut_len dn dx x ln r : rfc_field dn dx x -> field_cut ln r -> cut 0 ((dn * 16 + ln) :: dx ++ r)
| cut_value dn dx x ln lx len r : rfc_field dn dx x -> rfc_field ln lx len -> plain_len len -> lenN r < len ->
    cut 0 ((dn * 16 + ln) :: dx ++ lx ++ r)
| cut_later n dn dx x ln lx v r : rfc_field dn dx x -> rfc_field ln lx (lenN v) -> plain_len (lenN v) -> cut n r ->
    cut (n + 1) ((dn * 16 + ln) :: dx ++ lx ++ v ++ r).

(** Everything that [d] announces is there, up to the end, a payload marker, or a field
    with the reserved value 15, where a receiver has to stop. *)
Inductive complete : bytes -> Prop :=
| complete_end : complete []
| complete_payload p : complete (255 :: p)
| complete_delta b r : b / 16 = 15 -> b <> 255 -> complete (b :: r)
| complete_len dn dx x r : rfc_field dn dx x -> complete ((dn * 16 + 15) :: dx ++ r)
| complete_option dn dx x ln lx v r : rfc_field dn dx x -> rfc_field ln lx (lenN v) -> plain_len (lenN v) -> complete r ->
    complete ((dn * 16 + ln) :: dx ++ lx ++ v ++ r).
