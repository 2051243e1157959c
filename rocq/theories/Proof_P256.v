(** The arithmetic of Model_P256.v computes modulo p; the point decompression. *)
From Coq Require Import ZArith Znumtheory Zpow_facts.
From Verif Require Import Base Proof_Base Model_Cbor Proof_Cbor Model_P256 Spec_P256 Proof_Prime.

Definition limb (x : N) : Prop := x < 2 ^ 32.
Definition limbs (l : list N) : Prop := Forall limb l.
(** the number that limbs stand for *)
Fixpoint val (l : list N) : N := match l with [] => 0 | a :: l' => a + 2 ^ 32 * val l' end.
Definition Bn (n : nat) : N := 2 ^ (32 * N.of_nat n).
Lemma Bn_0 : Bn 0 = 1. Proof. reflexivity. Qed.
Lemma Bn_S n : Bn (S n) = 2 ^ 32 * Bn n.
Proof. unfold Bn. rewrite <- N.pow_add_r. f_equal. lia. Qed.
Lemma val_bound l : limbs l -> val l < Bn (length l).
Proof.
  induction 1 as [|a l Ha Hl IH]; [reflexivity|]. cbn [val length]. rewrite Bn_S. unfold limb in Ha.
  set (B := 2 ^ 32) in *. clearbody B. nia.
Qed.
Lemma val_app a b : val (a ++ b) = val a + Bn (length a) * val b.
Proof. induction a as [|x a IH]; cbn [app val length]; [rewrite Bn_0; lia|]. rewrite IH, Bn_S. ring. Qed.
Lemma u32_limb x : limb (u32 x). Proof. apply N.mod_lt. discriminate. Qed.
Lemma split32 s : s = u32 s + 2 ^ 32 * (s / 2 ^ 32).
Proof. unfold u32. pose proof (N.div_mod s (2 ^ 32) ltac:(discriminate)). lia. Qed.
Lemma u32_small x : x < 2 ^ 32 -> u32 x = x. Proof. apply N.mod_small. Qed.
Lemma u64_small x : x < 2 ^ 64 -> u64 x = x. Proof. apply N.mod_small. Qed.

Lemma add_from_ok x : forall y c z c', length y = length x -> limbs x -> limbs y -> c <= 1 ->
  u256_add_from c x y = (z, c') ->
  length z = length x /\ limbs z /\ c' <= 1 /\ val z + Bn (length x) * c' = val x + val y + c.
Proof.
  induction x as [|a x IH]; intros [|b y] c z c' HL Hx Hy Hc E; try discriminate HL.
  - injection E as <- <-. cbn [length val]. rewrite Bn_0. repeat split; [constructor|lia|lia].
  - cbn [u256_add_from] in E. inversion_clear Hx as [|? ? Ha Hx']. inversion_clear Hy as [|? ? Hb Hy']. unfold limb in Ha, Hb.
    change (2 ^ 32) with 4294967296 in *. rewrite u64_small in E by (change (2 ^ 64) with 18446744073709551616; lia).
    set (s := c + a + b) in *. assert (HS : s / 4294967296 <= 1) by (enough (s / 4294967296 < 2) by lia; apply N.div_lt_upper_bound; lia).
    rewrite (u32_small (s / _)) in E by (change (2 ^ 32) with 4294967296; lia).
    destruct (u256_add_from (s / 4294967296) x y) as [z1 c1] eqn:E1. injection E as <- <-.
    destruct (IH y _ z1 c1 ltac:(cbn in HL; lia) Hx' Hy' HS E1) as (L & Hz & Hc1 & V).
    cbn [length val]. rewrite Bn_S. pose proof (split32 s) as S. change (2 ^ 32) with 4294967296 in *.
    split; [lia|]. split; [constructor; [apply u32_limb|exact Hz]|]. split; [exact Hc1|].
    set (q := s / 4294967296) in *. set (u := u32 s) in *. clearbody u q. unfold s in S. nia.
Qed.
Lemma sub_from_ok x : forall y c z c', length y = length x -> limbs x -> limbs y -> c <= 1 ->
  u256_sub_from c x y = (z, c') ->
  length z = length x /\ limbs z /\ c' <= 1 /\ val z + val y + c = val x + Bn (length x) * c'.
Proof.
  induction x as [|a x IH]; intros [|b y] c z c' HL Hx Hy Hc E; try discriminate HL.
  - injection E as <- <-. cbn [length val]. rewrite Bn_0. repeat split; [constructor|lia|lia].
  - cbn [u256_sub_from] in E. inversion_clear Hx as [|? ? Ha Hx']. inversion_clear Hy as [|? ? Hb Hy']. unfold limb in Ha, Hb.
    assert (D : exists d c1, u32 (u64 (u64 (a + 2 ^ 64 - b) + 2 ^ 64 - c)) = d /\
       sub32 0 (u32 (u64 (u64 (a + 2 ^ 64 - b) + 2 ^ 64 - c) / 2 ^ 32)) = c1 /\ d < 2 ^ 32 /\ c1 <= 1 /\ d + b + c = a + 2 ^ 32 * c1).
    { unfold u32, u64, sub32. change (2 ^ 64) with 18446744073709551616. change (2 ^ 32) with 4294967296 in *.
      destruct (N.le_gt_cases (b + c) a) as [Q|Q].
      - exists (a - b - c), 0.
        replace ((a + 18446744073709551616 - b) mod 18446744073709551616) with (a - b).
        2:{ replace (a + 18446744073709551616 - b) with (a - b + 1 * 18446744073709551616) by lia.
            rewrite N.mod_add by discriminate. symmetry. apply N.mod_small. lia. }
        replace ((a - b + 18446744073709551616 - c) mod 18446744073709551616) with (a - b - c).
        2:{ replace (a - b + 18446744073709551616 - c) with (a - b - c + 1 * 18446744073709551616) by lia.
            rewrite N.mod_add by discriminate. symmetry. apply N.mod_small. lia. }
        rewrite N.mod_small by lia. rewrite (N.div_small (a - b - c)) by lia. repeat split; try reflexivity; lia.
      - exists (a + 4294967296 - b - c), 1.
        replace (((a + 18446744073709551616 - b) mod 18446744073709551616 + 18446744073709551616 - c) mod 18446744073709551616)
          with (a + 4294967296 - b - c + 4294967295 * 4294967296).
        2:{ destruct (N.le_gt_cases b a) as [Q'|Q'].
            - replace (a + 18446744073709551616 - b) with (a - b + 1 * 18446744073709551616) by lia.
              rewrite N.mod_add by discriminate. rewrite (N.mod_small (a - b)) by lia.
              rewrite N.mod_small by lia. lia.
            - rewrite (N.mod_small (a + _ - b)) by lia.
              replace (a + 18446744073709551616 - b + 18446744073709551616 - c) with (a + 18446744073709551616 - b - c + 1 * 18446744073709551616) by lia.
              rewrite N.mod_add by discriminate. rewrite N.mod_small by lia. lia. }
        rewrite N.mod_add by discriminate. rewrite N.mod_small by lia. rewrite N.div_add by discriminate.
        rewrite (N.div_small (a + _ - b - c)) by lia. repeat split; try reflexivity; lia. }
    destruct D as (d & c1 & E1 & E2 & Hd & Hc1 & V1). cbv zeta in E. rewrite E1, E2 in E.
    destruct (u256_sub_from c1 x y) as [z1 c2] eqn:E3. injection E as <- <-.
    destruct (IH y _ z1 c2 ltac:(cbn in HL; lia) Hx' Hy' Hc1 E3) as (L & Hz & Hc2 & V).
    cbn [length val]. rewrite Bn_S. split; [lia|]. split; [constructor; [exact Hd|exact Hz]|]. split; [exact Hc2|].
    change (2 ^ 32) with 4294967296 in *. nia.
Qed.

Lemma cmov_1 : forall z x, length z = length x -> limbs z -> limbs x -> u256_cmov z x 1 = x.
Proof.
  induction z as [|a z IH]; intros [|b x] L Hz Hx; try discriminate L; [reflexivity|]. cbn [u256_cmov].
  inversion_clear Hx as [|? ? Hb Hx']. inversion_clear Hz as [|? ? Ha Hz']. rewrite IH by (auto; cbn in L; lia). f_equal.
  change (sub32 0 1) with (N.ones 32). rewrite N.land_ones, N.ldiff_ones_r_low, N.mod_small; [reflexivity|exact Hb|].
  destruct (N.eq_dec a 0) as [->|NZ]; [reflexivity|]. apply N.log2_lt_pow2; [lia|exact Ha].
Qed.
Lemma cmov_0 : forall z x, length z = length x -> u256_cmov z x 0 = z.
Proof.
  induction z as [|a z IH]; intros [|b x] L; try discriminate L; [reflexivity|]. cbn [u256_cmov].
  rewrite IH by (cbn in L; lia). f_equal. change (sub32 0 0) with 0. now rewrite N.ldiff_0_r, N.land_0_r, N.lor_0_r.
Qed.
Lemma cmov_sel z x c : length z = length x -> limbs z -> limbs x -> c <= 1 -> u256_cmov z x c = if c =? 1 then x else z.
Proof.
  intros L Hz Hx Hc. destruct (N.eqb_spec c 1) as [->|NE]; [now apply cmov_1|]. replace c with 0 by lia. now apply cmov_0.
Qed.
Lemma diff_0 : forall x y, length x = length y -> u256_diff x y = 0 -> x = y.
Proof.
  induction x as [|a x IH]; intros [|b y] L H; try discriminate L; [reflexivity|]. cbn [u256_diff] in H.
  apply N.lor_eq_0_iff in H as [H1 H2]. apply N.lxor_eq in H1. subst. f_equal. apply IH; [cbn in L; lia|exact H2].
Qed.
Lemma diff_refl x : u256_diff x x = 0.
Proof. induction x as [|a x IH]; [reflexivity|]. cbn. now rewrite IH, N.lxor_nilpotent. Qed.
Lemma val_inj : forall x y, length x = length y -> limbs x -> limbs y -> val x = val y -> x = y.
Proof.
  induction x as [|a x IH]; intros [|b y] L Hx Hy V; try discriminate L; [reflexivity|].
  inversion_clear Hx as [|? ? Ha Hx']. inversion_clear Hy as [|? ? Hb Hy']. cbn [val] in V. unfold limb in *.
  change (2 ^ 32) with 4294967296 in *. assert (val x = val y /\ a = b) as [V' ->] by lia.
  f_equal. apply IH; auto.
Qed.

Lemma lor_high hi lo n : lo < 2 ^ n -> N.lor (hi * 2 ^ n) lo = hi * 2 ^ n + lo.
Proof.
  intros H. assert (Z : N.land (hi * 2 ^ n) lo = 0).
  { apply N.bits_inj_0. intros m. rewrite N.land_spec. destruct (N.lt_ge_cases m n) as [Q|Q].
    - now rewrite N.mul_pow2_bits_low.
    - rewrite <- (N.mod_small lo (2 ^ n)) by exact H. rewrite N.mod_pow2_bits_high by exact Q. apply Bool.andb_false_r. }
  now rewrite <- N.lxor_lor, N.add_nocarry_lxor.
Qed.
(** all four multiplications compute x y + z + t *)
Lemma prod_bound a b m n : a < m -> b < n -> a * b <= (m - 1) * (n - 1).
Proof. intros. apply N.mul_le_mono; lia. Qed.
Lemma split16 s : s = s mod 65536 + 65536 * (s / 65536).
Proof. pose proof (N.div_mod s 65536 ltac:(discriminate)). lia. Qed.
Lemma mod_mul_shift m : (m * 65536) mod 4294967296 = (m mod 65536) * 65536.
Proof. change 4294967296 with (65536 * 65536). rewrite N.mul_mod_distr_r by discriminate. reflexivity. Qed.
Lemma muladd_ok mi x y z t : limb x -> limb y -> limb z -> limb t -> u32_muladd64 mi x y z t = x * y + z + t.
Proof.
  unfold limb. intros Hx Hy Hz Ht. change (2 ^ 32) with 4294967296 in *.
  pose proof (prod_bound x y _ _ Hx Hy) as HP. cbn in HP.
  pose proof (split16 x) as Sx. pose proof (split16 y) as Sy.
  assert (Bxh : x / 65536 < 65536) by (apply N.div_lt_upper_bound; lia).
  assert (Byh : y / 65536 < 65536) by (apply N.div_lt_upper_bound; lia).
  assert (Bxl : x mod 65536 < 65536) by (apply N.mod_lt; discriminate).
  assert (Byl : y mod 65536 < 65536) by (apply N.mod_lt; discriminate).
  assert (PD : x * y = x mod 65536 * (y mod 65536) + 65536 * (x / 65536 * (y mod 65536) + x mod 65536 * (y / 65536))
     + 4294967296 * (x / 65536 * (y / 65536))).
  { rewrite Sx at 1. rewrite Sy at 1. ring. }
  set (xl := x mod 65536) in *. set (xh := x / 65536) in *. set (yl := y mod 65536) in *. set (yh := y / 65536) in *.
  pose proof (prod_bound xl yl _ _ Bxl Byl) as H1. pose proof (prod_bound xh yl _ _ Bxh Byl) as H2.
  pose proof (prod_bound xl yh _ _ Bxl Byh) as H3. pose proof (prod_bound xh yh _ _ Bxh Byh) as H4.
  destruct mi; cbn [u32_muladd64].
  - unfold muladd_c, u16, u32, u64. change (2 ^ 16) with 65536. change (2 ^ 32) with 4294967296. change (2 ^ 64) with 18446744073709551616.
    fold xl yl xh yh. rewrite (N.mod_small xh 65536), (N.mod_small yh 65536) by assumption.
    remember (xl * yl) as lo eqn:E1. remember (xh * yl) as m1 eqn:E2. remember (xl * yh) as m2 eqn:E3. remember (xh * yh) as hi eqn:E4.
    clear E1 E2 E3 E4. remember (x * y) as xy eqn:EXY. clear EXY Sx Sy. clearbody xl xh yl yh. cbn in H1, H2, H3, H4.
    rewrite (N.mod_small lo), (N.mod_small m1), (N.mod_small m2), (N.mod_small hi) by lia.
    rewrite !mod_mul_shift. pose proof (split16 m1) as S1. pose proof (split16 m2) as S2.
    assert (B1 : m1 / 65536 < 65536) by (apply N.div_lt_upper_bound; lia).
    assert (B2 : m2 / 65536 < 65536) by (apply N.div_lt_upper_bound; lia).
    assert (B1' : m1 mod 65536 < 65536) by (apply N.mod_lt; discriminate).
    assert (B2' : m2 mod 65536 < 65536) by (apply N.mod_lt; discriminate).
    set (m1h := m1 / 65536) in *. set (m1l := m1 mod 65536) in *. set (m2h := m2 / 65536) in *. set (m2l := m2 mod 65536) in *.
    clearbody m1h m1l m2h m2l. rewrite (N.mod_small (hi + m1h)) by lia. rewrite (N.mod_small (hi + m1h + m2h)) by lia.
    rewrite (N.mod_small ((hi + m1h + m2h) * 4294967296)) by lia.
    rewrite (N.mod_small (lo + _)) by lia. rewrite (N.mod_small (_ + m1l * 65536)) by lia.
    rewrite (N.mod_small (_ + m2l * 65536)) by lia. rewrite (N.mod_small (_ + z)) by lia. rewrite N.mod_small by lia. lia.
  - clear - HP Hz Ht. unfold u64. change (2 ^ 64) with 18446744073709551616. set (xy := x * y) in *. clearbody xy.
    rewrite (N.mod_small xy), (N.mod_small (xy + z)), N.mod_small by lia. reflexivity.
  - reflexivity.
  - unfold muladd_thumb, adds, u16, u32. change (2 ^ 16) with 65536. change (2 ^ 32) with 4294967296. cbv zeta. cbn [fst snd].
    fold xl yl xh yh.
    replace (yh * xh) with (xh * yh) by ring. replace (yh * xl) with (xl * yh) by ring. replace (yl * xh) with (xh * yl) by ring.
    remember (xl * yl) as lo eqn:E1. remember (xh * yl) as m1 eqn:E2. remember (xl * yh) as m2 eqn:E3. remember (xh * yh) as hi eqn:E4.
    clear E1 E2 E3 E4. remember (x * y) as xy eqn:EXY. clear EXY Sx Sy. clearbody xl xh yl yh. cbn in H1, H2, H3, H4.
    rewrite (N.mod_small lo), (N.mod_small m1), (N.mod_small m2), (N.mod_small hi) by lia.
    rewrite !mod_mul_shift. pose proof (split16 m1) as S1. pose proof (split16 m2) as S2.
    assert (B1 : m1 / 65536 < 65536) by (apply N.div_lt_upper_bound; lia).
    assert (B2 : m2 / 65536 < 65536) by (apply N.div_lt_upper_bound; lia).
    assert (B1' : m1 mod 65536 < 65536) by (apply N.mod_lt; discriminate).
    assert (B2' : m2 mod 65536 < 65536) by (apply N.mod_lt; discriminate).
    set (m1h := m1 / 65536) in *. set (m1l := m1 mod 65536) in *. set (m2h := m2 / 65536) in *. set (m2l := m2 mod 65536) in *.
    clearbody m1h m1l m2h m2l.
    assert (AD : forall a b, a < 4294967296 -> b < 4294967296 -> exists q r, (a + b) / 4294967296 = q /\ (a + b) mod 4294967296 = r /\
      q <= 1 /\ r < 4294967296 /\ a + b = r + 4294967296 * q).
    { intros a b Ha Hb. exists ((a + b) / 4294967296), ((a + b) mod 4294967296). repeat split.
      - enough ((a + b) / 4294967296 < 2) by lia. apply N.div_lt_upper_bound; lia.
      - apply N.mod_lt. discriminate.
      - pose proof (N.div_mod (a + b) 4294967296 ltac:(discriminate)). lia. }
    destruct (AD lo (m1l * 65536)) as (q1 & r1 & -> & -> & Q1 & R1 & A1); [lia|lia|].
    destruct (AD r1 (m2l * 65536)) as (q2 & r2 & -> & -> & Q2 & R2 & A2); [lia|lia|].
    destruct (AD r2 z) as (q3 & r3 & -> & -> & Q3 & R3 & A3); [lia|lia|].
    destruct (AD r3 t) as (q4 & r4 & -> & -> & Q4 & R4 & A4); [lia|lia|]. clear AD.
    rewrite (N.mod_small (m1h + hi + q1)) by lia. rewrite (N.mod_small (_ + m2h + q2)) by lia.
    rewrite (N.mod_small (_ + 0 + q3)) by lia. rewrite N.mod_small by lia.
    change 4294967296 with (2 ^ 32) at 1. rewrite lor_high by exact R4. change (2 ^ 32) with 4294967296. lia.
Qed.

Section Mul.
Variable mi : muladd.
Lemma muladd_from_ok y : forall z c x r c', length z = S (length y) -> limb x -> limbs y -> limbs z -> limb c ->
  u288_muladd_from mi c x z y = (r, c') ->
  length r = length z /\ limbs r /\ c' <= 1 /\ val r + Bn (length z) * c' = val z + x * val y + c.
Proof.
  induction y as [|b y IH]; intros [|a z] c x r c' HL Hx Hy Hz Hc E; try discriminate HL.
  - destruct z; [|discriminate HL]. cbn [u288_muladd_from] in E. inversion_clear Hz as [|? ? Ha _]. unfold limb in *.
    change (2 ^ 32) with 4294967296 in *. rewrite u64_small in E by (change (2 ^ 64) with 18446744073709551616; lia).
    assert (HS : (a + c) / 4294967296 <= 1) by (enough ((a + c) / 4294967296 < 2) by lia; apply N.div_lt_upper_bound; lia).
    rewrite (u32_small (_ / _)) in E by (change (2 ^ 32) with 4294967296; lia). injection E as <- <-.
    pose proof (split32 (a + c)) as S. cbn [length val]. change (2 ^ 32) with 4294967296 in *. rewrite Bn_S, Bn_0. change (2 ^ 32) with 4294967296.
    split; [reflexivity|]. split; [constructor; [apply u32_limb|constructor]|]. split; [exact HS|]. lia.
  - cbn [u288_muladd_from] in E. inversion_clear Hz as [|? ? Ha Hz']. inversion_clear Hy as [|? ? Hb Hy'].
    rewrite (muladd_ok mi x b a c Hx Hb Ha Hc) in E. set (s := x * b + a + c) in *.
    assert (HS : limb (s / 2 ^ 32)).
    { unfold limb in *. change (2 ^ 32) with 4294967296 in *. apply N.div_lt_upper_bound; [discriminate|].
      pose proof (prod_bound x b _ _ Hx Hb) as Q. cbn in Q. unfold s. set (xb := x * b) in *. clearbody xb. lia. }
    rewrite (u32_small (s / _)) in E by exact HS.
    destruct (u288_muladd_from mi (s / 2 ^ 32) x z y) as [r1 c1] eqn:E1. injection E as <- <-.
    destruct (IH z _ x r1 c1 ltac:(cbn in HL; lia) Hx Hy' Hz' HS E1) as (L & Hr & Hc1 & V).
    cbn [length val]. rewrite Bn_S. pose proof (split32 s) as S. split; [lia|].
    split; [constructor; [apply u32_limb|exact Hr]|]. split; [exact Hc1|].
    change (2 ^ 32) with 4294967296 in *. set (q := s / 4294967296) in *. set (u := u32 s) in *. clearbody u q. unfold s in S.
    clear - S V. set (B := Bn (length z)) in *. clearbody B. set (vr := val r1) in *. set (vy := val y) in *. set (vz := val z) in *.
    clearbody vr vy vz.
    replace (u + 4294967296 * vr + 4294967296 * B * c1) with (u + 4294967296 * (vr + B * c1)) by ring. rewrite V.
    replace (u + 4294967296 * (vz + x * vy + q)) with (u + 4294967296 * q + 4294967296 * (vz + x * vy)) by ring. rewrite <- S. ring.
Qed.

(** a modulus of [n] limbs with its constant *)
Section Mod.
Variable md : m256_mod.
Hypotheses (Hm : limbs (mod_m md)) (Hlen : length (mod_m md) = 8%nat) (Hni : limb (mod_ni md))
  (Hinv : (nth 0 (mod_m md) 0 * mod_ni md + 1) mod 2 ^ 32 = 0).
Local Notation m := (val (mod_m md)).

Lemma val_mod l : limbs l -> l <> [] -> val l mod 2 ^ 32 = nth 0 l 0.
Proof.
  intros H N. destruct l as [|a l]; [contradiction|]. cbn [val nth]. inversion_clear H.
  rewrite N.mul_comm, N.mod_add by discriminate. now apply N.mod_small.
Qed.
(** one round: a' 2^32 = a + xi y + u m *)
Lemma mul_step_ok y a xi : limbs y -> length y = 8%nat -> limbs a -> length a = 9%nat -> limb xi ->
  val y < m -> val a < val y + m ->
  let a' := m256_mul_step mi y md a xi in
  limbs a' /\ length a' = 9%nat /\ val a' < val y + m /\ exists u, 2 ^ 32 * val a' = val a + xi * val y + u * m.
Proof.
  intros Hy Ly Ha La Hx By Ba a'. subst a'. unfold m256_mul_step.
  set (u := u32 (u32 (nth 0 a 0 + u32 (xi * nth 0 y 0)) * mod_ni md)).
  unfold u288_muladd. destruct (u288_muladd_from mi 0 xi a y) as [a1 c1] eqn:E1.
  destruct (muladd_from_ok y a 0 xi a1 c1 ltac:(lia) Hx Hy Ha ltac:(reflexivity) E1) as (L1 & H1 & C1 & V1).
  destruct (u288_muladd_from mi 0 u a1 (mod_m md)) as [a2 c2] eqn:E2.
  destruct (muladd_from_ok (mod_m md) a1 0 u a2 c2 ltac:(lia) (u32_limb _) Hm H1 ltac:(reflexivity) E2) as (L2 & H2 & C2 & V2).
  rewrite La in V1. rewrite L1, La in V2. rewrite N.add_0_r in V1, V2.
  assert (T : val a2 + Bn 9 * (c1 + c2) = val a + xi * val y + u * m) by (clear - V1 V2; nia).
  assert (U : u < 2 ^ 32) by apply u32_limb.
  (* the lowest limb vanishes *)
  assert (Z : nth 0 a2 0 = 0).
  { rewrite <- val_mod; [|exact H2|intros ->; cbn in L2; lia].
    assert (E : val a2 mod 2 ^ 32 = (val a + xi * val y + u * m) mod 2 ^ 32).
    { rewrite <- T. unfold Bn. change (2 ^ (32 * N.of_nat 9)) with (2 ^ 256 * 2 ^ 32).
      replace (2 ^ 256 * 2 ^ 32 * (c1 + c2)) with (2 ^ 256 * (c1 + c2) * 2 ^ 32) by ring. now rewrite N.mod_add. }
    rewrite E. clear E.
    assert (NE : forall k l, length l = S k -> l <> (@nil N)) by (intros k [|] ? ?; discriminate).
    assert (A0 : val a mod 2 ^ 32 = nth 0 a 0) by (apply val_mod; [exact Ha|now apply (NE 8%nat)]).
    assert (Y0 : val y mod 2 ^ 32 = nth 0 y 0) by (apply val_mod; [exact Hy|now apply (NE 7%nat)]).
    assert (M0 : m mod 2 ^ 32 = nth 0 (mod_m md) 0) by (apply val_mod; [exact Hm|now apply (NE 7%nat)]).
    rewrite <- M0 in Hinv.
    assert (Eu : u = ((val a + xi * val y) * mod_ni md) mod 2 ^ 32).
    { unfold u, u32. rewrite <- A0, <- Y0. rewrite (N.mul_mod_idemp_r xi), N.add_mod_idemp_l, N.add_mod_idemp_r, N.mul_mod_idemp_l by discriminate. reflexivity. }
    rewrite Eu.
    set (s := val a + xi * val y). rewrite <- N.add_mod_idemp_r, N.mul_mod_idemp_l, N.add_mod_idemp_r by discriminate.
    replace (s + s * mod_ni md * m) with (s * (m * mod_ni md + 1)) by ring.
    rewrite <- N.mul_mod_idemp_r by discriminate.
    rewrite <- N.add_mod_idemp_l, N.mul_mod_idemp_l, N.add_mod_idemp_l in Hinv by discriminate. rewrite Hinv. now rewrite N.mul_0_r. }
  destruct a2 as [|w a2]; [cbn in L2; lia|]. cbn [nth] in Z. subst w. unfold u288_rshift32. cbn [tl].
  inversion_clear H2 as [|? ? _ H2']. cbn in L2. rewrite La in L1. rewrite L1 in L2.
  rewrite (u32_small (c1 + c2)) by (change (2 ^ 32) with 4294967296; lia).
  assert (V : 2 ^ 32 * val (a2 ++ [c1 + c2]) = val a + xi * val y + u * m).
  { rewrite val_app. replace (length a2) with 8%nat by lia. rewrite <- T. cbn [val]. rewrite (Bn_S 8). ring. }
  split; [apply Forall_app; split; [exact H2'|constructor; [unfold limb; change (2 ^ 32) with 4294967296; lia|constructor]]|].
  split; [rewrite app_length; cbn; lia|]. split; [|now exists u].
  (* a + xi y + u m < 2^32 (y + m) *)
  assert (B1 : xi * val y <= (2 ^ 32 - 1) * val y) by (apply N.mul_le_mono_r; unfold limb in Hx; lia).
  assert (B2 : u * m <= (2 ^ 32 - 1) * m) by (apply N.mul_le_mono_r; lia).
  change (2 ^ 32) with 4294967296 in *. lia.
Qed.

Lemma mul_fold_ok y : limbs y -> length y = 8%nat -> val y < m -> forall x a, limbs x -> limbs a -> length a = 9%nat ->
  val a < val y + m ->
  let a' := fold_left (m256_mul_step mi y md) x a in
  limbs a' /\ length a' = 9%nat /\ val a' < val y + m /\ exists U, Bn (length x) * val a' = val a + val x * val y + U * m.
Proof.
  intros Hy Ly By. induction x as [|xi x IH]; intros a Hx Ha La Ba.
  - cbn. repeat split; auto. exists 0. change (Bn 0) with 1. lia.
  - cbn [fold_left length val]. inversion_clear Hx as [|? ? Hxi Hx'].
    destruct (mul_step_ok y a xi Hy Ly Ha La Hxi By Ba) as (Ha1 & La1 & Ba1 & u & E1).
    destruct (IH _ Hx' Ha1 La1 Ba1) as (H2 & L2 & B2 & U & E2). repeat split; auto. exists (u + 2 ^ 32 * U).
    rewrite Bn_S. rewrite <- N.mul_assoc, E2.
    replace (2 ^ 32 * (val (m256_mul_step mi y md a xi) + val x * val y + U * m))
      with (2 ^ 32 * val (m256_mul_step mi y md a xi) + 2 ^ 32 * (val x * val y + U * m)) by ring.
    rewrite E1. ring.
Qed.
Lemma mul_ok x y : limbs x -> length x = 8%nat -> limbs y -> length y = 8%nat -> val y < m ->
  let r := m256_mul mi x y md in
  limbs r /\ length r = 8%nat /\ val r < m /\ exists U V, Bn 8 * val r + U * m = val x * val y + V * m.
Proof.
  intros Hx Lx Hy Ly By r. subst r. unfold m256_mul.
  assert (H0 : limbs (repeat 0 9)) by (repeat constructor).
  destruct (mul_fold_ok y Hy Ly By x _ Hx H0 ltac:(reflexivity) ltac:(change (val (repeat 0 9)) with 0; lia)) as (Ha & La & Ba & U & E).
  set (a := fold_left (m256_mul_step mi y md) x (repeat 0 9)) in *. clearbody a.
  change (val (repeat 0 9)) with 0 in E. rewrite Lx in E.
  assert (EA : a = firstn 8 a ++ [nth 8 a 0]) by (do 9 (destruct a as [|? a]; [discriminate La|]); destruct a; [reflexivity|discriminate La]).
  set (f := firstn 8 a) in *. set (c := nth 8 a 0) in *.
  assert (Lf : length f = 8%nat) by (unfold f; rewrite firstn_length; lia).
  rewrite EA in Ha. apply Forall_app in Ha as [Hf _].
  assert (VA : val a = val f + Bn 8 * c) by (rewrite EA, val_app, Lf; cbn [val]; ring).
  clearbody f c. clear EA La.
  destruct (u256_sub f (mod_m md)) as [z cs] eqn:ES. unfold u256_sub in ES.
  destruct (sub_from_ok f (mod_m md) 0 z cs ltac:(lia) Hf Hm ltac:(lia) ES) as (Lz & Hz & Hcs & V).
  rewrite Lf in *. pose proof (val_bound _ Hm) as Bm. rewrite Hlen in Bm. pose proof (val_bound _ Hf) as Bf. rewrite Lf in Bf.
  pose proof (val_bound _ Hz) as Bz. rewrite Lz in Bz.
  assert (PB : 0 < Bn 8) by reflexivity.
  set (B := Bn 8) in *. clearbody B. set (M := m) in *. clearbody M.
  assert (Hc : c <= 1).
  { destruct (N.le_gt_cases c 1) as [|Q]; [assumption|exfalso]. assert (B * 2 <= B * c) by (apply N.mul_le_mono_l; lia). lia. }
  assert (CC : c = 0 \/ c = 1) by lia. assert (SS : cs = 0 \/ cs = 1) by lia.
  destruct CC as [-> | ->], SS as [-> | ->].
  - change (sub32 1 (N.lor 0 (sub32 1 0))) with 0. rewrite cmov_0 by lia. repeat split; auto; [lia|].
    exists B, U. replace (val z) with (val a - M) by lia. rewrite N.mul_sub_distr_l, E.
    assert (B * M <= B * val a) by (apply N.mul_le_mono_l; lia). lia.
  - change (sub32 1 (N.lor 0 (sub32 1 1))) with 1. rewrite cmov_1; [|lia|assumption..]. repeat split; auto; [lia|].
    exists 0, U. replace (val f) with (val a) by lia. rewrite E. lia.
  - exfalso. lia.
  - change (sub32 1 (N.lor 1 (sub32 1 1))) with 0. rewrite cmov_0 by lia. repeat split; auto; [lia|].
    exists B, U. replace (val z) with (val a - M) by lia. rewrite N.mul_sub_distr_l, E.
    assert (B * M <= B * val a) by (apply N.mul_le_mono_l; lia). lia.
Qed.
Lemma add_ok x y : limbs x -> length x = 8%nat -> limbs y -> length y = 8%nat -> val x < m -> val y < m ->
  let r := m256_add x y md in
  limbs r /\ length r = 8%nat /\ val r < m /\ exists V, val r + V * m = val x + val y.
Proof.
  intros Hx Lx Hy Ly Bx By r. subst r. unfold m256_add.
  destruct (u256_add x y) as [z ca] eqn:EA. unfold u256_add in EA.
  destruct (add_from_ok x y 0 z ca ltac:(lia) Hx Hy ltac:(lia) EA) as (Lz & Hz & Hca & V1). rewrite Lx in *.
  destruct (u256_sub z (mod_m md)) as [r cs] eqn:ES. unfold u256_sub in ES.
  destruct (sub_from_ok z (mod_m md) 0 r cs ltac:(lia) Hz Hm ltac:(lia) ES) as (Lr & Hr & Hcs & V2). rewrite Lz in *.
  pose proof (val_bound _ Hm) as Bm. rewrite Hlen in Bm. pose proof (val_bound _ Hz) as Bz. rewrite Lz in Bz.
  pose proof (val_bound _ Hr) as Br. rewrite Lr in Br.
  set (B := Bn 8) in *. clearbody B. set (M := m) in *. clearbody M.
  assert (CC : ca = 0 \/ ca = 1) by lia. assert (SS : cs = 0 \/ cs = 1) by lia.
  destruct CC as [-> | ->], SS as [-> | ->].
  - change (N.lor 0 (sub32 1 0)) with 1. rewrite cmov_1; [|lia|assumption..]. repeat split; auto; [lia|]. exists 1. lia.
  - change (N.lor 0 (sub32 1 1)) with 0. rewrite cmov_0 by lia. repeat split; auto; [lia|]. exists 0. lia.
  - exfalso. lia.
  - change (N.lor 1 (sub32 1 1)) with 1. rewrite cmov_1; [|lia|assumption..]. repeat split; auto; [lia|]. exists 1. lia.
Qed.
Lemma sub_ok x y : limbs x -> length x = 8%nat -> limbs y -> length y = 8%nat -> val x < m -> val y < m ->
  let r := m256_sub x y md in
  limbs r /\ length r = 8%nat /\ val r < m /\ exists V, val r + val y = val x + V * m.
Proof.
  intros Hx Lx Hy Ly Bx By r. subst r. unfold m256_sub.
  destruct (u256_sub x y) as [z cs] eqn:ES. unfold u256_sub in ES.
  destruct (sub_from_ok x y 0 z cs ltac:(lia) Hx Hy ltac:(lia) ES) as (Lz & Hz & Hcs & V1). rewrite Lx in *.
  destruct (u256_add z (mod_m md)) as [r ca] eqn:EA. unfold u256_add in EA.
  destruct (add_from_ok z (mod_m md) 0 r ca ltac:(lia) Hz Hm ltac:(lia) EA) as (Lr & Hr & Hca & V2). rewrite Lz in *.
  pose proof (val_bound _ Hm) as Bm. rewrite Hlen in Bm. pose proof (val_bound _ Hz) as Bz. rewrite Lz in Bz.
  pose proof (val_bound _ Hr) as Br. rewrite Lr in Br.
  set (B := Bn 8) in *. clearbody B. set (M := m) in *. clearbody M.
  assert (CC : ca = 0 \/ ca = 1) by lia. assert (SS : cs = 0 \/ cs = 1) by lia.
  destruct SS as [-> | ->].
  - rewrite cmov_0 by lia. repeat split; auto; [lia|]. exists 0. lia.
  - rewrite cmov_1; [|lia|assumption..]. destruct CC as [-> | ->]; [exfalso; lia|]. repeat split; auto; [lia|]. exists 1. lia.
Qed.
End Mod.

(** ** The prime p *)
Local Open Scope Z_scope.
Definition zv (l : list N) : Z := Z.of_N (val l).
Definition R256 : Z := 2 ^ 256.
Lemma p_val : zv (mod_m p256_p) = P256p. Proof. vm_compute. reflexivity. Qed.
Lemma R_Bn : R256 = Z.of_N (Bn 8). Proof. vm_compute. reflexivity. Qed.
Lemma p_pos : 0 < P256p. Proof. reflexivity. Qed.
Lemma p_limbs : limbs (mod_m p256_p). Proof. repeat constructor. Qed.
Lemma p_inv : ((nth 0 (mod_m p256_p) 0 * mod_ni p256_p + 1) mod 2 ^ 32 = 0)%N. Proof. reflexivity. Qed.
Lemma R_inv w : (P256p | R256 * w) -> (P256p | w).
Proof.
  intros H. apply Gauss with R256; [exact H|]. apply Zgcd_1_rel_prime. vm_compute. reflexivity.
Qed.
(** [z] is the Montgomery form of [v] *)
Definition rep (z : list N) (v : Z) : Prop :=
  limbs z /\ length z = 8%nat /\ (0 <= zv z < P256p) /\ (P256p | zv z - v * R256).
Lemma zv_lt a b : (val a < val b)%N <-> zv a < zv b. Proof. unfold zv. lia. Qed.
Lemma alg_mul P R zx zy zr vx vy kx ky U V : zx - vx * R = kx * P -> zy - vy * R = ky * P ->
  R * zr + U * P = zx * zy + V * P -> (P | R * (zr - vx * vy * R)).
Proof.
  intros Dx Dy E. exists (V - U + kx * zy + vx * R * ky).
  replace zx with (kx * P + vx * R) in * by lia. replace zy with (ky * P + vy * R) in * by lia.
  replace (R * (zr - vx * vy * R)) with (R * zr - vx * R * (vy * R)) by ring.
  replace (R * zr) with ((kx * P + vx * R) * (ky * P + vy * R) + V * P - U * P) by lia. ring.
Qed.
Lemma rep_mul x y vx vy : rep x vx -> rep y vy -> rep (m256_mul mi x y p256_p) (vx * vy).
Proof.
  intros (Hx & Lx & _ & kx & Dx) (Hy & Ly & By & ky & Dy).
  destruct (mul_ok p256_p p_limbs eq_refl p_inv x y Hx Lx Hy Ly) as (Hr & Lr & Br & U & V & E).
  { apply zv_lt. rewrite p_val. lia. }
  split; [exact Hr|]. split; [exact Lr|]. apply zv_lt in Br. rewrite p_val in Br. split; [unfold zv in *; lia|].
  apply R_inv. set (r := m256_mul mi x y p256_p) in *. clearbody r.
  assert (E' : R256 * zv r + Z.of_N U * P256p = zv x * zv y + Z.of_N V * P256p).
  { rewrite <- p_val. unfold zv. rewrite R_Bn. rewrite <- !N2Z.inj_mul, <- !N2Z.inj_add. f_equal. exact E. }
  exact (alg_mul _ _ _ _ _ _ _ _ _ _ _ Dx Dy E').
Qed.
Lemma rep_add x y vx vy : rep x vx -> rep y vy -> rep (m256_add x y p256_p) (vx + vy).
Proof.
  intros (Hx & Lx & Bx & kx & Dx) (Hy & Ly & By & ky & Dy).
  destruct (add_ok p256_p p_limbs eq_refl p_inv x y Hx Lx Hy Ly) as (Hr & Lr & Br & V & E).
  1,2: apply zv_lt; rewrite p_val; lia.
  split; [exact Hr|]. split; [exact Lr|]. apply zv_lt in Br. rewrite p_val in Br. split; [unfold zv in *; lia|].
  set (r := m256_add x y p256_p) in *. clearbody r.
  assert (E' : zv r + Z.of_N V * P256p = zv x + zv y).
  { rewrite <- p_val. unfold zv. rewrite <- !N2Z.inj_mul, <- !N2Z.inj_add. f_equal. exact E. }
  exists (kx + ky - Z.of_N V). lia.
Qed.
Lemma rep_sub x y vx vy : rep x vx -> rep y vy -> rep (m256_sub x y p256_p) (vx - vy).
Proof.
  intros (Hx & Lx & Bx & kx & Dx) (Hy & Ly & By & ky & Dy).
  destruct (sub_ok p256_p p_limbs eq_refl p_inv x y Hx Lx Hy Ly) as (Hr & Lr & Br & V & E).
  1,2: apply zv_lt; rewrite p_val; lia.
  split; [exact Hr|]. split; [exact Lr|]. apply zv_lt in Br. rewrite p_val in Br. split; [unfold zv in *; lia|].
  set (r := m256_sub x y p256_p) in *. clearbody r.
  assert (E' : zv r + zv y = zv x + Z.of_N V * P256p).
  { rewrite <- p_val. unfold zv. rewrite <- !N2Z.inj_mul, <- !N2Z.inj_add. f_equal. exact E. }
  exists (kx - ky + Z.of_N V). lia.
Qed.
Lemma rep_eq x y vx vy : rep x vx -> rep y vy -> (x = y <-> vx mod P256p = vy mod P256p).
Proof.
  intros (Hx & Lx & Bx & kx & Dx) (Hy & Ly & By & ky & Dy). split.
  - intros ->. assert (D : (P256p | vx - vy)).
    { apply R_inv. exists (ky - kx). lia. }
    destruct D as [k D]. replace vx with (vy + k * P256p) by lia. apply Z_mod_plus_full.
  - intros E. apply val_inj; [lia|assumption..|].
    assert (D : zv x mod P256p = zv y mod P256p).
    { replace (zv x) with (vx * R256 + kx * P256p) by lia. replace (zv y) with (vy * R256 + ky * P256p) by lia.
      rewrite !Z_mod_plus_full. rewrite <- Zmult_mod_idemp_l, E, Zmult_mod_idemp_l. reflexivity. }
    rewrite !Z.mod_small in D by lia. unfold zv in D. lia.
Qed.
Lemma rep_prep z : limbs z -> length z = 8%nat -> rep (m256_prep mi z p256_p) (zv z).
Proof.
  intros Hz Lz. unfold m256_prep.
  destruct (mul_ok p256_p p_limbs eq_refl p_inv z (mod_R2 p256_p) Hz Lz) as (Hr & Lr & Br & U & V & E).
  1: repeat constructor. 1: reflexivity. 1: apply zv_lt; rewrite p_val; reflexivity.
  split; [exact Hr|]. split; [exact Lr|]. apply zv_lt in Br. rewrite p_val in Br. split; [unfold zv in *; lia|].
  apply R_inv. set (r := m256_mul mi z (mod_R2 p256_p) p256_p) in *. clearbody r.
  assert (E' : R256 * zv r + Z.of_N U * P256p = zv z * zv (mod_R2 p256_p) + Z.of_N V * P256p).
  { rewrite <- p_val. unfold zv. rewrite R_Bn. rewrite <- !N2Z.inj_mul, <- !N2Z.inj_add. f_equal. exact E. }
  assert (D : (P256p | zv (mod_R2 p256_p) - R256 * R256)) by (apply Z.mod_divide; [discriminate|vm_compute; reflexivity]).
  destruct D as [k D]. exists (Z.of_N V - Z.of_N U + zv z * k).
  replace (zv (mod_R2 p256_p)) with (R256 * R256 + k * P256p) in E' by lia. clear - E'. nia.
Qed.
Lemma done_ok z v : rep z v -> limbs (m256_done mi z p256_p) /\ length (m256_done mi z p256_p) = 8%nat /\
  zv (m256_done mi z p256_p) = v mod P256p.
Proof.
  intros (Hz & Lz & Bz & k & D). unfold m256_done.
  destruct (mul_ok p256_p p_limbs eq_refl p_inv z (u256_set32 1) Hz Lz) as (Hr & Lr & Br & U & V & E).
  1: repeat constructor. 1: reflexivity. 1: apply zv_lt; rewrite p_val; reflexivity.
  split; [exact Hr|]. split; [exact Lr|]. apply zv_lt in Br. rewrite p_val in Br.
  set (r := m256_mul mi z (u256_set32 1) p256_p) in *. clearbody r.
  assert (E' : R256 * zv r + Z.of_N U * P256p = zv z + Z.of_N V * P256p).
  { rewrite <- p_val. unfold zv. rewrite R_Bn. rewrite <- !N2Z.inj_mul, <- !N2Z.inj_add. f_equal.
    rewrite E. change (val (u256_set32 1)) with 1%N. lia. }
  assert (Q : (P256p | zv r - v)) by (apply R_inv; exists (k + Z.of_N V - Z.of_N U); nia).
  destruct Q as [q Q]. replace v with (zv r + (- q) * P256p) by lia. rewrite Z_mod_plus_full, Z.mod_small; [reflexivity|]. unfold zv in *. lia.
Qed.

(** ** Bytes *)
Local Open Scope N_scope.
Lemma word_val a b c d : a < 256 -> b < 256 -> c < 256 -> d < 256 ->
  N.lor (N.lor (N.lor (a * 2 ^ 24) (b * 2 ^ 16)) (c * 2 ^ 8)) d = a * 16777216 + b * 65536 + c * 256 + d.
Proof.
  intros Ha Hb Hc Hd. rewrite (lor_high a (b * 2 ^ 16) 24) by (change (2 ^ 24) with 16777216; change (2 ^ 16) with 65536; lia).
  replace (a * 2 ^ 24 + b * 2 ^ 16) with ((a * 256 + b) * 2 ^ 16) by (change (2 ^ 24) with (256 * 2 ^ 16); ring).
  rewrite (lor_high _ (c * 2 ^ 8) 16) by (change (2 ^ 16) with 65536; change (2 ^ 8) with 256; lia).
  replace ((a * 256 + b) * 2 ^ 16 + c * 2 ^ 8) with ((a * 65536 + b * 256 + c) * 2 ^ 8) by (change (2 ^ 16) with (256 * 2 ^ 8); ring).
  rewrite lor_high by exact Hd. change (2 ^ 8) with 256. lia.
Qed.
Lemma from_bytes_ok p : is_bytes p -> length p = 32%nat ->
  limbs (u256_from_bytes p) /\ length (u256_from_bytes p) = 8%nat /\ val (u256_from_bytes p) = be_val p.
Proof.
  intros Hp Lp. do 32 (destruct p as [|? p]; [discriminate Lp|]). destruct p; [|discriminate Lp].
  do 32 (apply Forall_cons_iff in Hp; destruct Hp as [? Hp]).
  unfold is_byte in *. unfold u256_from_bytes. cbn [map seq nth Nat.mul Nat.sub Nat.add].
  rewrite !word_val by assumption. split; [|split; [reflexivity|]].
  - repeat (constructor; [unfold limb; change (2 ^ 32) with 4294967296; lia|]). constructor.
  - cbn [val]. unfold be_val. cbn [fold_left]. change (2 ^ 32) with (256 * (256 * (256 * 256))). ring.
Qed.
Lemma bytes_word w : w < 2 ^ 32 ->
  u8 (w / 2 ^ 24) * 16777216 + u8 (w / 2 ^ 16) * 65536 + u8 (w / 2 ^ 8) * 256 + u8 w = w.
Proof.
  intros H. unfold u8. change (2 ^ 32) with 4294967296 in H. change (2 ^ 24) with (65536 * 256). change (2 ^ 16) with (256 * 256). change (2 ^ 8) with 256.
  rewrite <- !N.div_div by discriminate.
  pose proof (N.div_mod w 256 ltac:(discriminate)) as E0. set (w1 := w / 256) in *.
  pose proof (N.div_mod w1 256 ltac:(discriminate)) as E1. set (w2 := w1 / 256) in *.
  replace (w / 65536 / 256) with (w2 / 256) by (unfold w2, w1; rewrite !N.div_div by discriminate; reflexivity).
  pose proof (N.div_mod w2 256 ltac:(discriminate)) as E2. set (w3 := w2 / 256) in *.
  assert (w3 < 256) by (subst w3 w2 w1; repeat (apply N.div_lt_upper_bound; [discriminate|]); lia).
  rewrite (N.mod_small w3) by assumption. lia.
Qed.
Lemma to_bytes_ok z : limbs z -> length z = 8%nat ->
  is_bytes (u256_to_bytes z) /\ length (u256_to_bytes z) = 32%nat /\ be_val (u256_to_bytes z) = val z.
Proof.
  intros Hz Lz. split; [|split].
  - unfold u256_to_bytes. apply Forall_forall. intros b Hb. apply in_flat_map in Hb as (w & _ & Hb).
    cbn in Hb. unfold is_byte, u8 in *. destruct Hb as [<- | [<- | [<- | [<- | []]]]]; apply N.mod_lt; discriminate.
  - do 8 (destruct z as [|? z]; [discriminate Lz|]). destruct z; [reflexivity|discriminate Lz].
  - assert (G : forall l, limbs l -> be_val (flat_map (fun w => [u8 (w / 2 ^ 24); u8 (w / 2 ^ 16); u8 (w / 2 ^ 8); u8 w]) (rev l)) = val l).
    { clear. induction 1 as [|w l Hw Hl IH]; [reflexivity|]. cbn [rev val]. rewrite flat_map_app, be_val_app, IH. cbn [flat_map app].
      unfold be_val at 1. cbn [fold_left]. change (256 ^ lenN _) with (2 ^ 32).
      pose proof (bytes_word w Hw) as E. lia. }
    now apply G.
Qed.

(** ** The exponentiation *)
Local Open Scope Z_scope.
Lemma exp_bits_ok n : forall e r y vr vy, rep r vr -> rep y vy ->
  let s := exp_bits mi n e r y in
  rep (fst s) (vr * vy ^ Z.of_N (e mod 2 ^ N.of_nat n)) /\ rep (snd s) (vy ^ (2 ^ Z.of_nat n)).
Proof.
  induction n as [|n IH]; intros e r y vr vy Hr Hy.
  - cbn [exp_bits fst snd]. change (2 ^ N.of_nat 0)%N with 1%N. rewrite N.mod_1_r. change (2 ^ Z.of_nat 0) with 1.
    change (Z.of_N 0) with 0. rewrite Z.pow_0_r, Z.pow_1_r, Z.mul_1_r. auto.
  - cbn [exp_bits].
    assert (Hr' : rep (if (N.land e 1 =? 0)%N then r else m256_mul mi r y p256_p) (vr * vy ^ Z.of_N (e mod 2))).
    { change 1%N with (N.ones 1). rewrite N.land_ones. change (2 ^ 1)%N with 2%N. pose proof (N.mod_lt e 2 ltac:(discriminate)).
      destruct (N.eqb_spec (e mod 2) 0) as [->|NE]; [change (Z.of_N 0) with 0; rewrite Z.pow_0_r, Z.mul_1_r; exact Hr|].
      replace (e mod 2)%N with 1%N by lia. change (Z.of_N 1) with 1. rewrite Z.pow_1_r. now apply rep_mul. }
    destruct (IH (e / 2)%N _ _ _ _ Hr' (rep_mul _ _ _ _ Hy Hy)) as [H1 H2]. cbv zeta in *.
    assert (VE : forall k, 0 <= k -> (vy * vy) ^ k = vy ^ (2 * k)).
    { intros k Hk. rewrite Z.pow_mul_r by (exact Hk || discriminate). f_equal. symmetry. apply Z.pow_2_r. }
    rewrite VE in H1 by apply N2Z.is_nonneg. rewrite VE in H2 by (apply Z.pow_nonneg; discriminate).
    assert (EM : (e mod 2 ^ N.of_nat (S n) = e mod 2 + 2 * ((e / 2) mod 2 ^ N.of_nat n))%N).
    { rewrite Nat2N.inj_succ, N.pow_succ_r', N.mod_mul_r; [reflexivity|discriminate|apply N.pow_nonzero; discriminate]. }
    split.
    + rewrite EM, N2Z.inj_add, N2Z.inj_mul, Z.pow_add_r, Z.mul_assoc; [exact H1|apply N2Z.is_nonneg|].
      change (Z.of_N 2) with 2. apply Z.mul_nonneg_nonneg; [discriminate|apply N2Z.is_nonneg].
    + rewrite Nat2Z.inj_succ, Z.pow_succ_r by apply Nat2Z.is_nonneg. exact H2.
Qed.
Lemma zv_cons e l : zv (e :: l) = Z.of_N e + 2 ^ Z.of_nat 32 * zv l.
Proof.
  assert (E : Z.of_N (2 ^ 32) = 2 ^ Z.of_nat 32) by (vm_compute; reflexivity).
  unfold zv. cbn [val]. rewrite N2Z.inj_add, N2Z.inj_mul, E. reflexivity.
Qed.
(** the number that limbs of [n] bits stand for *)
Fixpoint valn (n : nat) (l : list N) : Z := match l with [] => 0 | a :: l' => Z.of_N a + 2 ^ Z.of_nat n * valn n l' end.
Lemma valn_nonneg n l : 0 <= valn n l.
Proof.
  induction l as [|a l IH]; [discriminate|]. cbn [valn]. apply Z.add_nonneg_nonneg; [apply N2Z.is_nonneg|].
  apply Z.mul_nonneg_nonneg; [apply Z.pow_nonneg; discriminate|exact IH].
Qed.
Lemma valn_32 l : valn 32 l = zv l.
Proof. induction l as [|a l IH]; [reflexivity|]. rewrite zv_cons, <- IH. reflexivity. Qed.
(* the number of bits is general so that conversion does not unfold the loop *)
Lemma exp_fold_ok n l : Forall (fun e => (e < 2 ^ N.of_nat n)%N) l -> forall s vr vy, rep (fst s) vr -> rep (snd s) vy ->
  rep (fst (fold_left (fun s limb => exp_bits mi n limb (fst s) (snd s)) l s)) (vr * vy ^ valn n l).
Proof.
  induction 1 as [|e l He Hl IH]; intros s vr vy Hr Hy; cbn [fold_left valn].
  - rewrite Z.pow_0_r, Z.mul_1_r. exact Hr.
  - destruct (exp_bits_ok n e _ _ _ _ Hr Hy) as [H1 H2].
    pose proof (IH _ _ _ H1 H2) as H3. rewrite (N.mod_small _ _ He) in H3.
    rewrite Z.pow_add_r, Z.pow_mul_r, Z.mul_assoc; [exact H3| | | |].
    + apply Z.pow_nonneg; discriminate.
    + apply valn_nonneg.
    + apply N2Z.is_nonneg.
    + apply Z.mul_nonneg_nonneg; [apply Z.pow_nonneg; discriminate|apply valn_nonneg].
Qed.
Lemma exp_val : zv p256_exp = (P256p + 1) / 4. Proof. vm_compute. reflexivity. Qed.
Lemma exp_loop_ok r y vr vy : rep r vr -> rep y vy -> rep (fst (exp_loop mi r y)) (vr * vy ^ ((P256p + 1) / 4)).
Proof.
  intros Hr Hy. unfold exp_loop. rewrite <- exp_val, <- valn_32. apply (exp_fold_ok 32 p256_exp); [repeat constructor|exact Hr|exact Hy].
Qed.

(** ** The point functions *)
Definition rhs (x : Z) : Z := x ^ 3 - 3 * x + P256b.
Lemma rep_b : rep p256_b P256b.
Proof.
  split; [repeat constructor|]. split; [reflexivity|]. split; [split; [discriminate|reflexivity]|].
  apply Z.mod_divide; [discriminate|]. vm_compute. reflexivity.
Qed.
Lemma rep_rhs x v : rep x v -> rep (curve_rhs mi x) (rhs v).
Proof.
  intros H. unfold rhs. replace (v ^ 3 - 3 * v + P256b) with (v * v * v - v - v - v + P256b) by ring.
  unfold curve_rhs. apply rep_add; [|exact rep_b]. repeat apply rep_sub; try exact H. repeat apply rep_mul; exact H.
Qed.
Lemma m_from_bytes_ok p : is_bytes p -> length p = 32%nat ->
  if Z.of_N (be_val p) <? P256p then exists z, m256_from_bytes mi p p256_p = Some z /\ rep z (Z.of_N (be_val p))
  else m256_from_bytes mi p p256_p = None.
Proof.
  intros Hp Lp. destruct (from_bytes_ok p Hp Lp) as (Hz & Lz & V). unfold m256_from_bytes.
  destruct (u256_sub (u256_from_bytes p) (mod_m p256_p)) as [d c] eqn:E. unfold u256_sub in E.
  destruct (sub_from_ok (u256_from_bytes p) (mod_m p256_p) 0 d c ltac:(rewrite Lz; reflexivity) Hz p_limbs ltac:(lia) E) as (Ld & Hd & Hc & S).
  pose proof (val_bound _ Hd) as Bd. rewrite Ld, Lz in Bd. rewrite Lz in S.
  assert (Bm : (val (mod_m p256_p) < Bn 8)%N) by reflexivity.
  pose proof p_val as PV. unfold zv in PV. rewrite V in S. pose proof (rep_prep _ Hz Lz) as RP. unfold zv in RP. rewrite V in RP.
  set (B := Bn 8) in *. clearbody B. set (M := val (mod_m p256_p)) in *. clearbody M.
  destruct (Z.ltb_spec (Z.of_N (be_val p)) P256p) as [Q|Q].
  - destruct (N.eqb_spec c 1) as [->|NE]; [eexists; split; [reflexivity|exact RP]|]. exfalso. replace c with 0%N in S by lia. lia.
  - destruct (N.eqb_spec c 1) as [->|NE]; [exfalso; lia|reflexivity].
Qed.
Lemma point_from_bytes_ok a b : is_bytes a -> length a = 32%nat -> is_bytes b -> length b = 32%nat ->
  point_from_bytes mi (a ++ b) = true <-> on_p256 (Z.of_N (be_val a)) (Z.of_N (be_val b)).
Proof.
  intros Ha La Hb Lb. unfold point_from_bytes, on_p256.
  rewrite firstn_app, La, Nat.sub_diag, firstn_O, app_nil_r, firstn_all2 by lia.
  rewrite skipn_app, La, Nat.sub_diag, skipn_O, skipn_all2, app_nil_l by lia.
  pose proof (m_from_bytes_ok a Ha La) as Fa. pose proof (m_from_bytes_ok b Hb Lb) as Fb.
  set (x := Z.of_N (be_val a)) in *. set (y := Z.of_N (be_val b)) in *.
  assert (0 <= x) by (unfold x; lia). assert (0 <= y) by (unfold y; lia).
  destruct (Z.ltb_spec x P256p) as [Qx|Qx]; [|rewrite Fa; split; [discriminate|lia]].
  destruct Fa as (zx & -> & Rx).
  destruct (Z.ltb_spec y P256p) as [Qy|Qy]; [|rewrite Fb; split; [discriminate|lia]].
  destruct Fb as (zy & -> & Ry).
  pose proof (rep_eq _ _ _ _ (rep_mul _ _ _ _ Ry Ry) (rep_rhs _ _ Rx)) as EQ.
  unfold point_check. rewrite N.eqb_eq. unfold rhs in EQ. replace (y ^ 2) with (y * y) by ring. split.
  - intros D. split; [lia|]. split; [lia|]. apply EQ. apply diff_0; [|exact D].
    destruct (rep_mul _ _ _ _ Ry Ry) as (_ & -> & _). destruct (rep_rhs _ _ Rx) as (_ & -> & _). reflexivity.
  - intros (_ & _ & E). apply EQ in E. rewrite E. apply diff_refl.
Qed.
(** the root that the code computes *)
Definition root (x : Z) : Z := (rhs x ^ ((P256p + 1) / 4)) mod P256p.
Lemma root_eq x : (rhs x ^ ((P256p + 1) / 4)) mod P256p = root x. Proof. unfold root. reflexivity. Qed.
Lemma root_bound x : 0 <= root x < P256p. Proof. unfold root. apply Z.mod_pos_bound. reflexivity. Qed.
Local Opaque root.
Lemma uncompress_ok j1 j2 j3 input osize :
  limbs j1 -> length j1 = 8%nat -> limbs j2 -> length j2 = 8%nat -> limbs j3 -> length j3 = 8%nat ->
  is_bytes input -> length input = 32%nat -> (65 <= osize)%N ->
  let x := Z.of_N (be_val input) in
  uncompress_point mi j1 j2 j3 input osize =
  if (x <? P256p) && (root x ^ 2 mod P256p =? rhs x mod P256p) then Some (4%N :: input ++ be_enc 32 (Z.to_N (root x))) else None.
Proof.
  intros H1 L1 H2 L2 H3 L3 Hi Li Ho x. unfold uncompress_point.
  replace (lenN input =? 32)%N with true by (unfold lenN; rewrite Li; reflexivity). cbn [negb].
  destruct (N.ltb_spec osize 65) as [Q|_]; [lia|].
  pose proof (m_from_bytes_ok input Hi Li) as F. fold x in F.
  destruct (Z.ltb_spec x P256p) as [Qx|Qx]; [|rewrite F; reflexivity]. destruct F as (zx & -> & Rx).
  pose proof (rep_rhs _ _ Rx) as R1. rewrite cmov_1; [|destruct R1 as (? & -> & _); lia|exact H1|apply R1].
  assert (RO : rep (m256_set32 mi 1 p256_p) 1) by (apply (rep_prep (u256_set32 1)); [repeat constructor|reflexivity]).
  pose proof (exp_loop_ok _ _ _ _ RO R1) as RE. destruct (exp_loop mi (m256_set32 mi 1 p256_p) (curve_rhs mi zx)) as [r y2]. cbn [fst] in RE.
  rewrite Z.mul_1_l in RE. cbv zeta. rewrite (cmov_1 j2 r); [|destruct RE as (? & -> & _); lia|exact H2|apply RE].
  unfold m256_to_bytes. rewrite (cmov_1 j3 r); [|destruct RE as (? & -> & _); lia|exact H3|apply RE].
  destruct (done_ok _ _ RE) as (Hd & Ld & Vd). rewrite root_eq in Vd.
  destruct (to_bytes_ok _ Hd Ld) as (Hb & Lb & Vb). set (yr := u256_to_bytes (m256_done mi r p256_p)) in *.
  assert (EY : yr = be_enc 32 (Z.to_N (root x))).
  { rewrite <- Lb, <- Vd. unfold zv. rewrite N2Z.id, <- Vb. symmetry. now apply be_enc_val. }
  pose proof (point_from_bytes_ok input yr Hi Li Hb Lb) as PF. rewrite Vb in PF. unfold zv in Vd. rewrite Vd in PF. fold x in PF.
  cbn [andb]. rewrite EY in *.
  destruct (Z.eqb_spec (root x ^ 2 mod P256p) (rhs x mod P256p)) as [Q|Q].
  - replace (point_from_bytes mi _) with true; [reflexivity|]. symmetry. apply PF. unfold on_p256.
    split; [lia|]. split; [apply root_bound|exact Q].
  - destruct (point_from_bytes mi _); [|reflexivity]. exfalso. apply Q. apply PF. reflexivity.
Qed.
End Mul.

(** ** The code finds a root whenever there is one *)
Local Open Scope Z_scope.
Lemma sqrt_3mod4 P k v y : prime P -> 4 * k = P + 1 -> (y ^ 2) mod P = v mod P -> ((v ^ k) mod P) ^ 2 mod P = v mod P.
Proof.
  intros HP HK E. pose proof (prime_ge_2 _ HP). assert (0 < P) by lia. set (h := 2 * k - 1) in *. assert (0 <= h) by lia.
  rewrite <- Zpower_mod by assumption. rewrite <- Z.pow_mul_r by lia. replace (k * 2) with (1 + h) by lia.
  rewrite Z.pow_add_r, Z.pow_1_r by lia.
  rewrite <- Zmult_mod_idemp_r. rewrite Zpower_mod by assumption. rewrite <- E, <- Zpower_mod by assumption.
  rewrite <- Z.pow_mul_r by lia. replace (2 * h) with (P - 1) by lia.
  destruct (Zdivide_dec P y) as [D|D].
  - assert (Z0 : v mod P = 0).
    { rewrite <- E. apply Z.mod_divide; [lia|]. rewrite Z.pow_2_r. now apply Z.divide_mul_l. }
    rewrite <- Zmult_mod_idemp_l, E, Z0. apply Zmod_0_l.
  - rewrite (fermat _ _ HP D), Z.mul_1_r. now symmetry.
Qed.
Lemma root_complete x y : (y ^ 2) mod P256p = rhs x mod P256p -> root x ^ 2 mod P256p = rhs x mod P256p.
Proof.
  intros E. rewrite <- root_eq. apply (sqrt_3mod4 _ _ _ y prime_P256p); [vm_compute; reflexivity|exact E].
Qed.
(** the root that is found is itself a square *)
Lemma sqrt_square P k v y : 0 < P -> 0 <= k -> (y ^ 2) mod P = v mod P -> (v ^ k) mod P = ((y ^ k) ^ 2) mod P.
Proof.
  intros HP HK E. rewrite Zpower_mod, <- E, <- Zpower_mod by assumption. rewrite <- !Z.pow_mul_r by lia. now rewrite Z.mul_comm.
Qed.
Lemma root_square x y : (y ^ 2) mod P256p = rhs x mod P256p -> exists w, root x = (w ^ 2) mod P256p.
Proof.
  intros E. exists (y ^ ((P256p + 1) / 4)). rewrite <- root_eq. apply sqrt_square; [reflexivity|vm_compute; discriminate|exact E].
Qed.
(** there are two roots *)
Lemma two_roots P a b : prime P -> (a ^ 2) mod P = (b ^ 2) mod P -> 0 <= a < P -> 0 <= b < P -> a = b \/ a + b = P \/ (a = 0 /\ b = 0).
Proof.
  intros HP E Ha Hb. assert (D : (P | (a - b) * (a + b))).
  { replace ((a - b) * (a + b)) with (a ^ 2 - b ^ 2) by ring. apply Z.mod_divide; [lia|]. rewrite Zminus_mod, E, Z.sub_diag. apply Zmod_0_l. }
  apply prime_mult in D as [D|D]; [| |exact HP].
  - left. destruct D as [k D]. assert (K1 : k < 1) by (apply Z.mul_lt_mono_pos_r with P; lia).
    assert (K0 : -1 < k) by (apply Z.mul_lt_mono_pos_r with P; lia). assert (k = 0) as -> by lia. lia.
  - destruct D as [k D]. assert (K1 : k < 2) by (apply Z.mul_lt_mono_pos_r with P; lia).
    assert (K0 : -1 < k) by (apply Z.mul_lt_mono_pos_r with P; lia). assert (k = 0 \/ k = 1) as [-> | ->] by lia; lia.
Qed.
