(** The curve secp256r1 (P-256) of SEC 2, section 2.4.2. *)
From Coq Require Import ZArith.
Local Open Scope Z_scope.
Definition P256p : Z := 2 ^ 256 - 2 ^ 224 + 2 ^ 192 + 2 ^ 96 - 1.
Definition P256b : Z := 0x5AC635D8AA3A93E7B3EBBD55769886BC651D06B0CC53B0F63BCE3C3E27D2604B.
(** the affine points: y^2 = x^3 - 3 x + b modulo p *)
Definition on_p256 (x y : Z) : Prop :=
  0 <= x < P256p /\ 0 <= y < P256p /\ (y ^ 2) mod P256p = (x ^ 3 - 3 * x + P256b) mod P256p.

(** The group of the curve (SEC 1, section 2.2.1) and the Diffie-Hellman secret (SEC 1,
    section 3.3.1): the x-coordinate of the scalar multiple of the peer's point. *)
From Coq Require Import Zpow_facts.
Inductive point := Inf | Aff (x y : Z).
Definition inv_p (a : Z) : Z := Zpow_mod a (P256p - 2) P256p.
Definition chord (l x1 y1 x2 : Z) : point :=
  let x3 := (l * l - x1 - x2) mod P256p in Aff x3 ((l * (x1 - x3) - y1) mod P256p).
Definition pt_add (p q : point) : point :=
  match p, q with
  | Inf, _ => q
  | _, Inf => p
  | Aff x1 y1, Aff x2 y2 =>
      if x1 =? x2 then
        if (y1 + y2) mod P256p =? 0 then Inf
        else chord ((3 * x1 * x1 - 3) * inv_p (2 * y1)) x1 y1 x2
      else chord ((y2 - y1) * inv_p (x2 - x1)) x1 y1 x2
  end.
Fixpoint pt_mul (k : nat) (p : point) : point := match k with O => Inf | S k' => pt_add p (pt_mul k' p) end.
Definition pt_x (p : point) : option Z := match p with Inf => None | Aff x _ => Some x end.
