(** A concrete (insecure) instance of the abstract cryptography, used only to
    show that the hypotheses of the theorems can be met and to run examples. It
    models no code of /repo. *)
From Verif Require Import Base Model_Cbor Model_Crypto.

Definition toy_mix (l : bytes) : N :=
  fold_left (fun a b => N.land (33 * a + b + 7) 0xFFFFFF) l 5381.
(** 32 bytes, each 4 of them depending on the input *)
Definition toy_digest (l : bytes) : bytes := let d := be_enc 4 (toy_mix l) in concat (repeat d 8).
Definition toy_tag (k n a p : bytes) (t : N) : bytes :=
  be_enc (N.to_nat t) (toy_mix (k ++ [300] ++ n ++ [300] ++ a ++ [300] ++ p)).
Definition toy_enc (k n a : bytes) (t : N) (p : bytes) : option bytes :=
  if forallb (fun b => b <? 256) p then Some (p ++ toy_tag k n a p t) else None.
Definition toy_dec (k n a : bytes) (t : N) (c : bytes) : option bytes :=
  if lenN c <? t then None
  else
    let p := takeN (lenN c - t) c in
    if beqb (dropN (lenN c - t) c) (toy_tag k n a p t) then Some p else None.
Definition toy_sig (g : N) (k m : bytes) : bytes := be_enc 64 (toy_mix (g :: k ++ [300] ++ m)).

Definition toy_crypto : crypto := {|
  cr_hmac := fun k m => toy_digest (k ++ [300] ++ m);
  cr_hash := toy_digest;
  cr_aead_enc := toy_enc;
  cr_aead_dec := toy_dec;
  cr_dh := fun _ a b => Some (be_enc 32 (be_val a + be_val b));
  cr_pub := fun _ a => a;
  cr_sign := fun g sk _ m => Some (toy_sig g sk m);
  cr_verify := fun g pk m s => Some (beqb s (toy_sig g pk m))
|}.
