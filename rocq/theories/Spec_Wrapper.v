(** What the crypto wrapper owes to the key store of the library, and what its results
    have to be. *)
From Coq Require Import ZArith.
From Verif Require Import Base Model_Cbor Model_Crypto Model_EdhocCfg Model_P256 Spec_P256 Spec_Uecc Model_Wrapper.

(** Identifiers are never 0 and never given twice. *)
Definition store_ok (s : psa) : Prop := 1 <= next s /\ Forall (fun e => fst e < next s) (keys s).
(** A call of one of the functions of crypto_wrapper.c, with all its arguments *)
Inductive call :=
| CallEncrypt (inp key nonce aad : bytes) (tag_len : N)
| CallDecrypt (inp key nonce aad : bytes) (tag_len out_len : N)
| CallSign (c25519 : bool) (alg : sign_alg) (sk pk msg : bytes)
| CallVerify (c25519 : bool) (alg : sign_alg) (pk msg sgn : bytes)
| CallExtract (salt ikm : bytes)
| CallExpand (cap : N) (prk info : bytes) (outl : N)
| CallDerive (c25519 : bool) (mi : muladd) (j1 j2 j3 : list N) (alg : ecdh_alg) (sk pk : bytes)
| CallKeygen (c25519 : bool) (junk : bytes) (alg : ecdh_alg) (seed sk_len pk_len : N)
| CallHash (msg : bytes).
(** Whether the call ran into undefined behaviour, and the state after it *)
Definition outcome {A} (p : res A * psa) : bool * psa := (is_ub (fst p), snd p).
Definition run_call (pr : prims) (c : call) (s : psa) : bool * psa :=
  match c with
  | CallEncrypt i k n a t => outcome (w_encrypt pr i k n a t s)
  | CallDecrypt i k n a t o => outcome (w_decrypt pr i k n a t o s)
  | CallSign b g sk pk m => outcome (w_sign pr b g sk pk m s)
  | CallVerify b g pk m x => outcome (w_verify pr b g pk m x s)
  | CallExtract salt ikm => outcome (w_hkdf_extract pr salt ikm s)
  | CallExpand cap prk info l => outcome (w_hkdf_expand pr cap prk info l s)
  | CallDerive b mi j1 j2 j3 g sk pk => outcome (w_derive pr b mi j1 j2 j3 g sk pk s)
  | CallKeygen b j g seed a p => outcome (w_keygen pr b j g seed a p s)
  | CallHash m => outcome (w_hash pr m s)
  end.
(** Any number of calls, one after the other *)
Fixpoint run_calls (pr : prims) (cs : list call) (s : psa) : bool * psa :=
  match cs with
  | [] => (false, s)
  | c :: cs' => let (u, s) := run_call pr c s in if u then (true, s) else run_calls pr cs' s
  end.

(** ** What the primitives compute *)
(** keys that the library accepts *)
Definition aes_len (k : bytes) : bool := (lenN k =? 16) || (lenN k =? 24) || (lenN k =? 32).
Definition ec_sk (pr : prims) (sk : bytes) : bool := (lenN sk =? 32) && pr_ec_sk_ok pr sk.
Definition ec_pk (pr : prims) (pk : bytes) : bool := (lenN pk =? 65) && pr_ec_pk_ok pr pk.
(** the uncompressed encoding of a point (SEC 1, section 2.3.3) *)
Definition sec1 (x y : Z) : bytes := 4 :: be_enc 32 (Z.to_N x) ++ be_enc 32 (Z.to_N y).
(** The primitives of the libraries are correct. [scalar] is the multiple of a point that
    belongs to a private key. *)
Record prims_ok (pr : prims) (scalar : bytes -> nat) : Prop := {
  pok_hmac_len : forall k m, lenN (pr_hmac pr k m) = 32;
  pok_hmac_bytes : forall k m, is_bytes (pr_hmac pr k m);
  pok_hash_len : forall m, lenN (pr_hash pr m) = 32;
  pok_hash_bytes : forall m, is_bytes (pr_hash pr m);
  pok_ccm : forall k n a t p c, pr_ccm_enc pr k n a t p = Some c ->
    pr_ccm_dec pr k n a t c = Some p /\ lenN c = lenN p + t /\ is_bytes c;
  pok_ccm_dec : forall k n a t p c, pr_ccm_dec pr k n a t c = Some p ->
    lenN c = lenN p + t /\ (is_bytes c -> is_bytes p);
  (* a public key is the encoding of a point of the curve, and such encodings are accepted *)
  pok_ec_pub : forall sk, ec_sk pr sk = true -> exists x y, on_p256 x y /\ pr_ec_pub pr sk = sec1 x y;
  pok_ec_pk : forall x y, on_p256 x y -> pr_ec_pk_ok pr (sec1 x y) = true;
  (* the secret is the x-coordinate of a multiple, and both sides get the same *)
  pok_ec_agree : forall sk x y, on_p256 x y -> pr_ec_agree pr sk (sec1 x y) = secret_of (scalar sk) x y;
  pok_ec_agree_len : forall sk pk s, pr_ec_agree pr sk pk = Some s -> lenN s = 32 /\ is_bytes s;
  pok_ec_comm : forall a b, ec_sk pr a = true -> ec_sk pr b = true ->
    pr_ec_agree pr a (pr_ec_pub pr b) = pr_ec_agree pr b (pr_ec_pub pr a);
  pok_ec_sign : forall sk m s, pr_ec_sign pr sk m = Some s ->
    lenN s = 64 /\ is_bytes s /\ (ec_sk pr sk = true -> pr_ec_verify pr (pr_ec_pub pr sk) m s = true);
  pok_x_comm : forall a b, pr_x_mult pr a (pr_x_pub pr b) = pr_x_mult pr b (pr_x_pub pr a);
  pok_x_len : forall a b, lenN (pr_x_mult pr a b) = 32 /\ is_bytes (pr_x_mult pr a b) /\ lenN (pr_x_pub pr a) = 32;
  pok_ed_sign : forall pk sk m, lenN (pr_ed_sign pr pk sk m) = 64 /\ is_bytes (pr_ed_sign pr pk sk m);
  pok_ed_verify : forall sk m, pr_ed_verify pr (pr_ed_sign pr (pr_ed_pub pr sk) sk m) (pr_ed_pub pr sk) m = true
}.
(** the point with a given x-coordinate (C50) *)
Definition point_of (x : bytes) : option bytes := let z := repeat 0 8 in uncompress_point MulC z z z x 65.
(** The operations that the rest of the model takes as given (Model_Crypto.v), in terms of
    the primitives. 1 and 4 are the key agreements P256 and X25519, 7 and 8 the signatures
    ES256 and EdDSA. *)
Definition mbed_crypto (pr : prims) : crypto := {|
  cr_hmac := pr_hmac pr;
  cr_hash := pr_hash pr;
  cr_aead_enc := fun k n a t p => if aes_len k then pr_ccm_enc pr k n a t p else None;
  cr_aead_dec := fun k n a t c => if aes_len k then pr_ccm_dec pr k n a t c else None;
  cr_dh := fun g sk pk =>
    if g =? 1 then
      if ec_sk pr sk then match point_of pk with Some pt => if pr_ec_pk_ok pr pt then pr_ec_agree pr sk pt else None | None => None end else None
    else if g =? 4 then Some (pr_x_mult pr sk pk) else None;
  cr_pub := fun g sk =>
    if g =? 1 then if ec_sk pr sk then takeN 32 (dropN 1 (pr_ec_pub pr sk)) else []
    else if g =? 4 then pr_x_pub pr sk
    else if g =? 7 then pr_ec_pub pr sk
    else pr_ed_pub pr sk;
  cr_sign := fun g sk pk m =>
    if g =? 7 then if ec_sk pr sk then pr_ec_sign pr sk m else None
    else if g =? 8 then Some (pr_ed_sign pr pk sk m) else None;
  cr_verify := fun g pk m s =>
    if g =? 7 then if ec_pk pr pk then Some (pr_ec_verify pr pk m s) else None
    else if g =? 8 then Some (pr_ed_verify pr s pk m) else None
|}.
(** A result of the wrapper is right if it is the expected one, or if a call of the library
    has failed for reasons of its own and an error is reported. *)
Definition right {A} (s : psa) (r expected : res A) : Prop :=
  r = expected \/ (In true (faults s) /\ r = Err unexpected_result_from_ext_lib).
