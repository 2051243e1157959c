(** RFC 8613 definitions the OSCORE building blocks are compared with. *)
From Verif Require Import Base Model_Cbor.

(** [p] is the minimal big-endian representation of [n] (0 is one zero byte). *)
Definition minimal_be (n : N) (p : bytes) : Prop :=
  is_bytes p /\ be_val p = n /\ (1 <= lenN p) /\ (nth 0 p 0 = 0 -> p = [0]).

(** Section 5.2: S || ID_PIV padded to 7 || PIV padded to 5, XOR Common IV. *)
Definition pad_left (n : nat) (b : bytes) : bytes := repeat 0 (n - length b)%nat ++ b.
Fixpoint xor_bytes (a b : bytes) : bytes :=
  match a, b with
  | x :: a', y :: b' => N.lxor x y :: xor_bytes a' b'
  | _, _ => []
  end.
Definition rfc_nonce (id piv iv : bytes) : bytes :=
  xor_bytes (lenN id :: pad_left 7 id ++ pad_left 5 piv) iv.
