(** Vocabulary for the theorem about notifications without their outer Observe option. *)
From Verif Require Import Base.

(** A packet whose first two options are Observe (number 6) with value [v] and OSCORE
    (number 9): header, token, the options, and what follows the first byte of the OSCORE option,
    whose length nibble is [l]. *)
Definition with_observe (hdr tok v : bytes) (l : N) (rest : bytes) : bytes :=
  hdr ++ tok ++ (6 * 16 + lenN v) :: v ++ (3 * 16 + l) :: rest.
(** The same packet without the Observe option; the delta of the OSCORE option is now 9. *)
Definition without_observe (hdr tok : bytes) (l : N) (rest : bytes) : bytes :=
  hdr ++ tok ++ (9 * 16 + l) :: rest.
(** The header announces a token of that length. *)
Definition header_for (hdr tok : bytes) : Prop := lenN hdr = 4 /\ exists b, nth_error hdr 0 = Some b /\ lenN tok = b mod 16.
(** The message has a response code. *)
Definition has_response_code (msg : bytes) : Prop := exists b, nth_error msg 1 = Some b /\ 32 <= b.
