(** src/common/crypto_wrapper.c:77-149: decompression of P-256 points in the build with
    TinyCrypt, and the P-256 branch of shared_secret_derive that uses it. A 256-bit
    number is the list of its eight 32-bit words, least significant first
    (uECC_word_t is uint32_t in TinyCrypt).

    The functions that crypto_wrapper.c calls but does not define are part of
    TinyCrypt's ecc.c; they appear below by what they compute and are marked
    "library". *)
From Verif Require Import Base Model_Cbor Model_Crypto.

(** The number that an array of words stands for, and back
    (crypto_wrapper.c:84-148 keeps numbers in uECC_word_t arrays). *)
Fixpoint wval (l : list N) : N := match l with [] => 0 | a :: l' => a + 2 ^ 32 * wval l' end.
(** crypto_wrapper.c:84-148: the [n] low words of a number *)
Fixpoint wenc (n : nat) (v : N) : list N :=
  match n with O => [] | S n' => u32 v :: wenc n' (v / 2 ^ 32) end.

(** library (declared at crypto_wrapper.c:79-80): cond_set *)
Definition cond_set (p_true p_false : N) (cond : bool) : N := if cond then p_true else p_false.
(** crypto_wrapper.c:84-96 uECC_vli_add: the loop from a given carry on; result: the
    words and the carry. The arrays result and right may be the same. *)
Fixpoint vli_add_from (carry : N) (left right : list N) : list N * N :=
  match left, right with
  | a :: left', b :: right' =>
      let sum := u32 (u32 (a + b) + carry) in
      let val := if sum <? a then 1 else 0 in
      let carry := cond_set val carry (negb (sum =? a)) in
      let (result, c) := vli_add_from carry left' right' in (sum :: result, c)
  | _, _ => ([], carry)
  end.
(** crypto_wrapper.c:84-96 uECC_vli_add *)
Definition vli_add (left right : list N) : list N * N := vli_add_from 0 left right.

(** library: curve->p and curve->b of uECC_secp256r1(), called at crypto_wrapper.c:601 *)
Definition tc_p : list N :=
  [0xFFFFFFFF; 0xFFFFFFFF; 0xFFFFFFFF; 0x00000000; 0x00000000; 0x00000000; 0x00000001; 0xFFFFFFFF].
(** library: curve->b *)
Definition tc_b : list N :=
  [0x27D2604B; 0x3BCE3C3E; 0xCC53B0F6; 0x651D06B0; 0x769886BC; 0xB3EBBD55; 0xAA3A93E7; 0x5AC635D8].
(** library, called at crypto_wrapper.c:111 and 113: uECC_vli_modMult_fast *)
Definition modMult (a b : list N) : list N := wenc 8 ((wval a * wval b) mod wval tc_p).
(** library, called at crypto_wrapper.c:142: uECC_vli_sub; it wraps *)
Definition vli_sub (a b : list N) : list N := wenc 8 (wval a + 2 ^ 256 - wval b).
(** library, called at crypto_wrapper.c:138: curve->x_side, x^3 - 3 x + b *)
Definition x_side (x : list N) : list N :=
  let p := wval tc_p in
  wenc 8 ((((wval x * wval x) mod p + (p - 3)) * wval x + wval tc_b) mod p).
(** library, called at crypto_wrapper.c:110: uECC_vli_numBits *)
Definition numBits (a : list N) : N := N.size (wval a).
(** library, called at crypto_wrapper.c:112: uECC_vli_testBit *)
Definition testBit (a : list N) (i : nat) : bool := N.testbit (wval a) (N.of_nat i).

(** crypto_wrapper.c:110-115: the loop, i counting down to 2 *)
Fixpoint sqrt_loop (p1 a : list N) (i : nat) (l_result : list N) : list N :=
  match i with
  | S (S _ as i') =>
      let l_result := modMult l_result l_result in
      let l_result := if testBit p1 i then modMult l_result a else l_result in
      sqrt_loop p1 a i' l_result
  | _ => l_result
  end.
(** crypto_wrapper.c:100-117 mod_sqrt_default; result: the array a *)
Definition mod_sqrt_default (a : list N) : list N :=
  let one := 1 :: repeat 0 7 in
  let (p1, _) := vli_add tc_p one in
  sqrt_loop p1 a (N.to_nat (numBits p1) - 1)%nat one.

(** crypto_wrapper.c:129-148 uECC_decompress; result: the 64 bytes of public_key.
    uECC_vli_bytesToNative and uECC_vli_nativeToBytes (library) convert between big
    endian bytes and words. *)
Definition decompress (compressed : bytes) : bytes :=
  let x := wenc 8 (be_val (takeN 32 compressed)) in
  let y := mod_sqrt_default (x_side x) in
  let y := if xorb (N.odd (nth 0 y 0)) (nth 0 compressed 0 =? 3) then vli_sub tc_p y else y in
  be_enc 32 (wval x) ++ be_enc 32 (wval y).

Section Derive.
(** library, called at crypto_wrapper.c:609: uECC_shared_secret (public key of 64
    bytes, private key); None when it reports failure *)
Variable umul : bytes -> bytes -> option bytes.
(** crypto_wrapper.c:600-613: shared_secret_derive with P256 and TINYCRYPT. Both keys are
    read as 32 bytes whatever their lengths are. *)
Definition tc_p256_derive (sk pk : bytes) : res bytes :=
  if (lenN pk <? 32) || (lenN sk <? 32) then UB OobRead
  else ext (umul (decompress pk) sk).
End Derive.
