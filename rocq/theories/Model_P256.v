(** src/common/crypto_p256.c: decompression of points of the curve P-256, the build
    with Mbed TLS. A 256-bit number is the list of its eight 32-bit limbs, least
    significant first, as in the C code. *)
From Verif Require Import Base Model_Cbor.

(** crypto_p256.c:33-39 u256_set32 *)
Definition u256_set32 (x : N) : list N := x :: repeat 0 7.
(** crypto_p256.c:51-63 u256_add: the loop from a given carry on *)
Fixpoint u256_add_from (carry : N) (x y : list N) : list N * N :=
  match x, y with
  | a :: x', b :: y' =>
      let sum := u64 (carry + a + b) in
      let (z, c) := u256_add_from (u32 (sum / 2 ^ 32)) x' y' in (u32 sum :: z, c)
  | _, _ => ([], carry)
  end.
(** crypto_p256.c:51-63 u256_add; result: z and the carry *)
Definition u256_add (x y : list N) : list N * N := u256_add_from 0 x y.
(** crypto_p256.c:75-87 u256_sub: the loop from a given carry on; 64-bit arithmetic
    wraps *)
Fixpoint u256_sub_from (carry : N) (x y : list N) : list N * N :=
  match x, y with
  | a :: x', b :: y' =>
      let diff := u64 (u64 (a + 2 ^ 64 - b) + 2 ^ 64 - carry) in
      let (z, c) := u256_sub_from (sub32 0 (u32 (diff / 2 ^ 32))) x' y' in (u32 diff :: z, c)
  | _, _ => ([], carry)
  end.
(** crypto_p256.c:75-87 u256_sub *)
Definition u256_sub (x y : list N) : list N * N := u256_sub_from 0 x y.
(** crypto_p256.c:98-104 u256_cmov: z, when it holds [z] before *)
Fixpoint u256_cmov (z x : list N) (c : N) : list N :=
  match z, x with
  | a :: z', b :: x' => N.lor (N.ldiff a (sub32 0 c)) (N.land b (sub32 0 c)) :: u256_cmov z' x' c
  | _, _ => []
  end.
(** crypto_p256.c:113-120 u256_diff *)
Fixpoint u256_diff (x y : list N) : N :=
  match x, y with
  | a :: x', b :: y' => N.lor (N.lxor a b) (u256_diff x' y')
  | _, _ => 0
  end.

(** crypto_p256.c:149-283: the four versions of u32_muladd64 between which the
    preprocessor chooses *)
Inductive muladd := MulC | MulC64 | MulUmaal | MulThumb.
(** crypto_p256.c:259-281: 16-bit multiplications in C *)
Definition muladd_c (x y z t : N) : N :=
  let xl := u16 x in let yl := u16 y in let xh := u16 (x / 2 ^ 16) in let yh := u16 (y / 2 ^ 16) in
  let lo := u32 (xl * yl) in let m1 := u32 (xh * yl) in let m2 := u32 (xl * yh) in let hi := u32 (xh * yh) in
  let acc := u64 (lo + u64 (u32 (u32 (hi + m1 / 2 ^ 16) + m2 / 2 ^ 16) * 2 ^ 32)) in
  let acc := u64 (acc + u32 (m1 * 2 ^ 16)) in
  let acc := u64 (acc + u32 (m2 * 2 ^ 16)) in
  let acc := u64 (acc + z) in
  u64 (acc + t).
(** crypto_p256.c:191-244: the assembly for cores without DSP extension; [adds] gives
    the sum and the carry flag, [adcs] adds the flag *)
Definition adds (a b : N) : N * N := (u32 (a + b), (a + b) / 2 ^ 32).
(** crypto_p256.c:191-244 *)
Definition muladd_thumb (x y z t : N) : N :=
  let u := x / 2 ^ 16 in let v := y / 2 ^ 16 in let x := u16 x in let y := u16 y in
  let w := v in let w := u32 (w * u) in let v := u32 (v * x) in let x := u32 (x * y) in let y := u32 (y * u) in
  let u := u32 (y * 2 ^ 16) in let y := y / 2 ^ 16 in let (x, c) := adds x u in let y := u32 (y + w + c) in
  let u := u32 (v * 2 ^ 16) in let v := v / 2 ^ 16 in let (x, c) := adds x u in let y := u32 (y + v + c) in
  let u := 0 in let (x, c) := adds x z in let y := u32 (y + u + c) in
  let (x, c) := adds x t in let y := u32 (y + u + c) in
  N.lor (y * 2 ^ 32) x.
(** crypto_p256.c:166-175 (the instruction UMAAL computes x * y + z + t), 253-256 *)
Definition u32_muladd64 (m : muladd) (x y z t : N) : N :=
  match m with
  | MulC => muladd_c x y z t
  | MulThumb => muladd_thumb x y z t
  | MulC64 => u64 (u64 (u64 (x * y) + z) + t)
  | MulUmaal => x * y + z + t
  end.

Section Mul.
Variable mi : muladd.
(** crypto_p256.c:299-330 u288_muladd: the steps U288_MULADD_STEP(i), then the last limb *)
Fixpoint u288_muladd_from (carry x : N) (z y : list N) : list N * N :=
  match z, y with
  | a :: z', b :: y' =>
      let prod := u32_muladd64 mi x b a carry in
      let (r, c) := u288_muladd_from (u32 (prod / 2 ^ 32)) x z' y' in (u32 prod :: r, c)
  | a :: z', [] => let sum := u64 (a + carry) in (u32 sum :: z', u32 (sum / 2 ^ 32))
  | [], _ => ([], carry)
  end.
(** crypto_p256.c:299-330 u288_muladd; z has nine limbs *)
Definition u288_muladd (z : list N) (x : N) (y : list N) : list N * N := u288_muladd_from 0 x z y.
(** crypto_p256.c:342-348 u288_rshift32 *)
Definition u288_rshift32 (z : list N) (c : N) : list N := tl z ++ [c].

(** crypto_p256.c:356-365 u256_from_bytes *)
Definition u256_from_bytes (p : bytes) : list N :=
  map (fun i : nat =>
    let j := (4 * (7 - i))%nat in
    N.lor (N.lor (N.lor (nth j p 0 * 2 ^ 24) (nth (j + 1) p 0 * 2 ^ 16)) (nth (j + 2) p 0 * 2 ^ 8)) (nth (j + 3) p 0))
    (seq 0 8).
(** crypto_p256.c:374-383 u256_to_bytes *)
Definition u256_to_bytes (z : list N) : bytes :=
  flat_map (fun w => [u8 (w / 2 ^ 24); u8 (w / 2 ^ 16); u8 (w / 2 ^ 8); u8 w]) (rev z).

(** crypto_p256.c:414-419 *)
Record m256_mod := { mod_m : list N; mod_R2 : list N; mod_ni : N }.
(** crypto_p256.c:424-434 *)
Definition p256_p : m256_mod := {|
  mod_m := [0xFFFFFFFF; 0xFFFFFFFF; 0xFFFFFFFF; 0x00000000; 0x00000000; 0x00000000; 0x00000001; 0xFFFFFFFF];
  mod_R2 := [0x00000003; 0x00000000; 0xffffffff; 0xfffffffb; 0xfffffffe; 0xffffffff; 0xfffffffd; 0x00000004];
  mod_ni := 1 |}.
(** crypto_p256.c:445-457 m256_add *)
Definition m256_add (x y : list N) (mod_ : m256_mod) : list N :=
  let (z, carry_add) := u256_add x y in
  let (r, carry_sub) := u256_sub z (mod_m mod_) in
  u256_cmov z r (N.lor carry_add (sub32 1 carry_sub)).
(** crypto_p256.c:482-493 m256_sub *)
Definition m256_sub (x y : list N) (mod_ : m256_mod) : list N :=
  let (z, carry) := u256_sub x y in
  let (r, _) := u256_add z (mod_m mod_) in
  u256_cmov z r carry.
(** crypto_p256.c:533-541: one round of the multiplication *)
Definition m256_mul_step (y : list N) (mod_ : m256_mod) (a : list N) (xi : N) : list N :=
  let u := u32 (u32 (nth 0 a 0 + u32 (xi * nth 0 y 0)) * mod_ni mod_) in
  let (a, c) := u288_muladd a xi y in
  let (a, c') := u288_muladd a u (mod_m mod_) in
  u288_rshift32 a (u32 (c + c')).
(** crypto_p256.c:518-548 m256_mul *)
Definition m256_mul (x y : list N) (mod_ : m256_mod) : list N :=
  let a := fold_left (m256_mul_step y mod_) x (repeat 0 9) in
  let carry_add := nth 8 a 0 in
  let (z, carry_sub) := u256_sub (firstn 8 a) (mod_m mod_) in
  let use_sub := N.lor carry_add (sub32 1 carry_sub) in
  u256_cmov z (firstn 8 a) (sub32 1 use_sub).
(** crypto_p256.c:571-574 m256_prep *)
Definition m256_prep (z : list N) (mod_ : m256_mod) : list N := m256_mul z (mod_R2 mod_) mod_.
(** crypto_p256.c:584-589 m256_done *)
Definition m256_done (z : list N) (mod_ : m256_mod) : list N := m256_mul z (u256_set32 1) mod_.
(** crypto_p256.c:599-603 m256_set32 *)
Definition m256_set32 (x : N) (mod_ : m256_mod) : list N := m256_prep (u256_set32 x) mod_.
(** crypto_p256.c:614-626 m256_from_bytes; None for the return value -1 *)
Definition m256_from_bytes (p : bytes) (mod_ : m256_mod) : option (list N) :=
  let z := u256_from_bytes p in
  let (_, lt_m) := u256_sub z (mod_m mod_) in
  if lt_m =? 1 then Some (m256_prep z mod_) else None.
(** crypto_p256.c:636-644 m256_to_bytes; [junk] is what the uninitialised array holds *)
Definition m256_to_bytes (junk z : list N) (mod_ : m256_mod) : bytes :=
  u256_to_bytes (m256_done (u256_cmov junk z 1) mod_).

(** crypto_p256.c:683-686 *)
Definition p256_b : list N :=
  [0x29c4bddf; 0xd89cdf62; 0x78843090; 0xacf005cd; 0xf7212ed6; 0xe5a220ab; 0x04874834; 0xdc30061d].
(** crypto_p256.c:703-707 and 761-765: x^3 - 3x + b *)
Definition curve_rhs (x : list N) : list N :=
  let r := m256_mul x x p256_p in
  let r := m256_mul r x p256_p in
  let r := m256_sub r x p256_p in
  let r := m256_sub r x p256_p in
  let r := m256_sub r x p256_p in
  m256_add r p256_b p256_p.
(** crypto_p256.c:695-710 point_check *)
Definition point_check (x y : list N) : N := u256_diff (m256_mul y y p256_p) (curve_rhs x).
(** crypto_p256.c:722-735 point_from_bytes; [true] for the return value 0 *)
Definition point_from_bytes (p : bytes) : bool :=
  match m256_from_bytes (firstn 32 p) p256_p, m256_from_bytes (skipn 32 p) p256_p with
  | Some x, Some y => point_check x y =? 0
  | _, _ => false
  end.
(** crypto_p256.c:778-785: the loop over the bits of one limb of the exponent *)
Fixpoint exp_bits (n : nat) (exp_limb : N) (r y2 : list N) : list N * list N :=
  match n with
  | O => (r, y2)
  | S n' =>
      let r := if N.land exp_limb 1 =? 0 then r else m256_mul r y2 p256_p in
      exp_bits n' (exp_limb / 2) r (m256_mul y2 y2 p256_p)
  end.
(** crypto_p256.c:770-773 *)
Definition p256_exp : list N :=
  [0x00000000; 0x00000000; 0x40000000; 0x00000000; 0x00000000; 0x40000000; 0xC0000000; 0x3FFFFFFF].
(** crypto_p256.c:777-786 *)
Definition exp_loop (r y2 : list N) : list N * list N :=
  fold_left (fun s limb => exp_bits 32 limb (fst s) (snd s)) p256_exp (r, y2).
(** crypto_p256.c:737-808 crypto_p256_uncompress_point; [osize] is the size of the
    output and [junk1 junk2 junk3] what the arrays y2, y and zi hold before. Both
    error returns are PSA_ERROR_INVALID_ARGUMENT, None here. *)
Definition uncompress_point (junk1 junk2 junk3 : list N) (input : bytes) (osize : N) : option bytes :=
  if negb (lenN input =? 32) then None
  else if osize <? 65 then None
  else
    match m256_from_bytes input p256_p with
    | None => None
    | Some x =>
        let y2 := u256_cmov junk1 (curve_rhs x) 1 in
        let (r, _) := exp_loop (m256_set32 1 p256_p) y2 in
        let y := u256_cmov junk2 r 1 in
        let y_raw := m256_to_bytes junk3 y p256_p in
        if point_from_bytes (input ++ y_raw) then Some ([4] ++ input ++ y_raw) else None
    end.
End Mul.
