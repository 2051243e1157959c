(** RFC 5869 HKDF-Expand. *)
From Verif Require Import Base.

Section Spec.
Variable hmac : bytes -> bytes -> bytes.
Variables prk info : bytes.

(** T(0) = "", T(i) = HMAC(PRK, T(i-1) | info | i) *)
Fixpoint hkdf_T (i : nat) : bytes :=
  match i with
  | O => []
  | S j => hmac prk (hkdf_T j ++ info ++ [N.of_nat (S j) mod 256])
  end.

(** T(1) | T(2) | ... | T(n) *)
Definition hkdf_stream (n : nat) : bytes := concat (map hkdf_T (seq 1 n)).

(** OKM: the first [L] bytes of T(1) | ... | T(ceil(L/32)). *)
Definition hkdf_okm (L : N) : bytes :=
  takeN L (hkdf_stream (N.to_nat ((L + 31) / 32))).
End Spec.
