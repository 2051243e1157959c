(** What the libraries of the build with TinyCrypt compute, and the operations that the rest
    of the model takes as given (Model_Crypto.v) in that build. *)
From Coq Require Import ZArith.
From Verif Require Import Base Model_Cbor Model_Crypto Model_EdhocCfg Model_Uecc Spec_P256 Spec_Uecc Model_Wrapper Spec_Wrapper Model_Tiny.

(** The P-256 functions of TinyCrypt are the same mathematics as those of the other library
    ([prims]). A signature is of the hash of the message; two signatures of one message
    need not be equal. Verification takes 64 bytes. *)
Record tiny_ok (pr : prims) (scalar : bytes -> nat) (ty : tiny) : Prop := {
  tok_pub : forall sk, ec_sk pr sk = true -> pr_ec_pub pr sk = 4 :: ty_pub ty sk;
  tok_mul : multiplies scalar (ty_mul ty);
  tok_mul_len : forall sk pk s, ty_mul ty pk sk = Some s -> lenN s = 32 /\ is_bytes s;
  tok_sign : forall sk m s, ty_sign ty sk (pr_hash pr m) = Some s ->
    lenN s = 64 /\ is_bytes s /\ (ec_sk pr sk = true -> pr_ec_verify pr (pr_ec_pub pr sk) m s = true);
  tok_verify : forall x y m s, on_p256 x y -> lenN s = 64 ->
    ty_verify ty (be_enc 32 (Z.to_N x) ++ be_enc 32 (Z.to_N y)) (pr_hash pr m) s = pr_ec_verify pr (sec1 x y) m s
}.
(** the lengths that CCM with TinyCrypt is made for *)
Definition ccm_lengths (key nonce aad : bytes) (t : N) (ciphertext_len : N) : bool :=
  (lenN key =? 16) && (lenN nonce =? 13) && existsb (N.eqb t) [4; 6; 8; 10; 12; 14; 16] && (lenN aad <? 65280) && (ciphertext_len <? 65536).
(** The operations in this build. Those with P-256 are given for private keys in the range
    of private keys; a signature that is not valid is an error. *)
Definition tiny_crypto (pr : prims) (ty : tiny) : crypto := {|
  cr_hmac := pr_hmac pr;
  cr_hash := pr_hash pr;
  cr_aead_enc := fun k n a t p => if ccm_lengths k n a t (lenN p + t) then pr_ccm_enc pr k n a t p else None;
  cr_aead_dec := fun k n a t c => if ccm_lengths k n a t (lenN c) then pr_ccm_dec pr k n a t c else None;
  cr_dh := fun g sk pk =>
    if g =? 1 then if ec_sk pr sk && (lenN pk =? 32) then ty_mul ty (decompress pk) sk else None
    else if g =? 4 then Some (pr_x_mult pr sk pk) else None;
  cr_pub := cr_pub (mbed_crypto pr);
  cr_sign := fun g sk pk m =>
    if g =? 7 then if ec_sk pr sk then ty_sign ty sk (pr_hash pr m) else None
    else if g =? 8 then Some (pr_ed_sign pr pk sk m) else None;
  cr_verify := fun g pk m s =>
    if g =? 7 then
      if (lenN pk =? 65) && (nth 0 pk 0 =? 4) && (lenN s =? 64) && ty_verify ty (dropN 1 pk) (pr_hash pr m) s then Some true else None
    else if g =? 8 then Some (pr_ed_verify pr s pk m) else None
|}.
