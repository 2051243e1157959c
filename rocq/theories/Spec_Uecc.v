(** What a library function for P-256 Diffie-Hellman computes when it multiplies the
    point it is given without asking whether that point is on the curve (TinyCrypt's
    uECC_shared_secret; asking is the task of uECC_valid_public_key). The formulas of
    the group do not use b, so [pt_mul] is defined for every pair of coordinates.
    [scalar] is the multiple that the library takes for a private key; it may be the key
    itself or the key plus a multiple of the order of the group. *)
From Coq Require Import ZArith.
From Verif Require Import Base Model_Cbor Spec_P256.
Definition secret_of (k : nat) (x y : Z) : option bytes :=
  option_map (fun z => be_enc 32 (Z.to_N z)) (pt_x (pt_mul k (Aff x y))).
Definition multiplies (scalar : bytes -> nat) (umul : bytes -> bytes -> option bytes) : Prop :=
  forall x y sk, (0 <= x < P256p)%Z -> (0 <= y < P256p)%Z ->
    umul (be_enc 32 (Z.to_N x) ++ be_enc 32 (Z.to_N y)) sk = secret_of (scalar sk) x y.
