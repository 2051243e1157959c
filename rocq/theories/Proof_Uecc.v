(** Proofs about the P-256 code for TinyCrypt *)
From Coq Require Import ZArith Znumtheory Zpow_facts.
From Verif Require Import Base Proof_Base Model_Cbor Proof_Cbor Model_Crypto Model_P256 Spec_P256 Proof_P256 Proof_P256Dh Proof_Prime Model_Uecc.

Lemma wval_val l : wval l = val l. Proof. induction l as [|a l IH]; [reflexivity|]. cbn [wval val]. now rewrite IH. Qed.
Lemma wenc_len n : forall v, length (wenc n v) = n. Proof. induction n as [|n IH]; intros v; cbn [wenc length]; [reflexivity|now rewrite IH]. Qed.
Lemma wenc_limbs n : forall v, limbs (wenc n v).
Proof. induction n as [|n IH]; intros v; cbn [wenc]; constructor; [apply u32_limb|apply IH]. Qed.
Lemma wval_enc n : forall v, v < Bn n -> wval (wenc n v) = v.
Proof.
  induction n as [|n IH]; intros v H; cbn [wenc wval].
  - change (Bn 0) with 1 in H. lia.
  - rewrite IH; [symmetry; apply split32|]. apply N.div_lt_upper_bound; [discriminate|]. now rewrite <- Bn_S.
Qed.
Lemma add_carry a b c : limb a -> limb b -> c <= 1 ->
  let sum := u32 (u32 (a + b) + c) in
  let c' := cond_set (if sum <? a then 1 else 0) c (negb (sum =? a)) in
  c' <= 1 /\ a + b + c = sum + 2 ^ 32 * c'.
Proof.
  unfold limb, u32, cond_set. change (2 ^ 32) with 4294967296. intros Ha Hb Hc. cbv zeta.
  rewrite N.add_mod_idemp_l by discriminate.
  pose proof (N.div_mod (a + b + c) 4294967296 ltac:(discriminate)) as D.
  pose proof (N.mod_lt (a + b + c) 4294967296 ltac:(discriminate)) as M.
  set (s := (a + b + c) mod 4294967296) in *. set (q := (a + b + c) / 4294967296) in *.
  assert (q <= 1) by lia. destruct (N.eqb_spec s a), (N.ltb_spec s a); cbn [negb]; lia.
Qed.
Lemma vli_add_ok l : forall r c, length r = length l -> limbs l -> limbs r -> c <= 1 ->
  let '(s, c') := vli_add_from c l r in
  limbs s /\ length s = length l /\ c' <= 1 /\ wval l + wval r + c = wval s + Bn (length l) * c'.
Proof.
  induction l as [|a l IH]; intros [|b r] c L Hl Hr Hc; try discriminate L; cbn [vli_add_from].
  - cbn [wval length]. change (Bn 0) with 1. repeat split; [constructor|exact Hc|lia].
  - apply Forall_cons_iff in Hl as [Ha Hl]. apply Forall_cons_iff in Hr as [Hb Hr]. cbv zeta.
    pose proof (add_carry a b c Ha Hb Hc) as [C E]. cbv zeta in C, E.
    set (sum := u32 (u32 (a + b) + c)) in *. set (c1 := cond_set _ _ _) in *.
    specialize (IH r c1 ltac:(now injection L) Hl Hr C). destruct (vli_add_from c1 l r) as [s c2].
    destruct IH as (Hs & Ls & C2 & E2). cbn [length wval]. rewrite Ls, Bn_S.
    repeat split; [constructor; [apply u32_limb|exact Hs]|exact C2|]. lia.
Qed.

Local Open Scope Z_scope.
Lemma tc_p_val : Z.of_N (wval tc_p) = P256p. Proof. vm_compute. reflexivity. Qed.
Lemma tc_b_val : Z.of_N (wval tc_b) = P256b. Proof. vm_compute. reflexivity. Qed.
Lemma enc8 v : (v < wval tc_p)%N -> wval (wenc 8 v) = v.
Proof. intros H. apply wval_enc. eapply N.lt_trans; [exact H|]. vm_compute. reflexivity. Qed.
Lemma modMult_ok a b : Z.of_N (wval (modMult a b)) = (Z.of_N (wval a) * Z.of_N (wval b)) mod P256p.
Proof.
  unfold modMult. rewrite enc8 by (apply N.mod_lt; discriminate). rewrite N2Z.inj_mod, N2Z.inj_mul, tc_p_val. reflexivity.
Qed.
Lemma side_alg P B v k : (v * v + k * P + (P - 3)) * v + B = v ^ 3 - 3 * v + B + (k * v + v) * P. Proof. ring. Qed.
Lemma x_side_ok x : Z.of_N (wval (x_side x)) = rhs (Z.of_N (wval x)) mod P256p.
Proof.
  unfold x_side. cbv zeta. rewrite enc8 by (apply N.mod_lt; discriminate).
  rewrite N2Z.inj_mod, N2Z.inj_add, N2Z.inj_mul, N2Z.inj_add, N2Z.inj_mod, N2Z.inj_mul, N2Z.inj_sub by (vm_compute; discriminate).
  rewrite tc_p_val, tc_b_val. change (Z.of_N 3) with 3. set (v := Z.of_N (wval x)). unfold rhs.
  destruct (mod_split P256p (v * v) ltac:(discriminate)) as [k ->].
  rewrite side_alg.
  apply Z_mod_plus_full.
Qed.

(** The loop computes a power: after the bits above i the exponent is e = p1 >> i *)
Lemma pow_double P a e : 0 < P -> 0 <= e -> ((a ^ e mod P) * (a ^ e mod P)) mod P = a ^ (2 * e) mod P.
Proof. intros HP He. rewrite <- Zmult_mod. f_equal. rewrite <- Z.pow_add_r by lia. f_equal. lia. Qed.
Lemma shiftr_bit n i : N.shiftr n (N.of_nat i) = (2 * N.shiftr n (N.of_nat (S i)) + N.b2n (N.testbit n (N.of_nat i)))%N.
Proof.
  rewrite <- (N.shiftr_spec' n (N.of_nat i) 0) || idtac.
  replace (N.of_nat (S i)) with (N.of_nat i + 1)%N by lia. rewrite <- N.shiftr_shiftr.
  set (m := N.shiftr n (N.of_nat i)). replace (N.testbit n (N.of_nat i)) with (N.testbit m 0) by (unfold m; rewrite N.shiftr_spec'; f_equal; lia).
  rewrite N.bit0_odd. rewrite <- N.div2_spec. rewrite (N.div2_odd m) at 1. reflexivity.
Qed.
Lemma pow_step P a e : 0 < P -> ((a ^ (2 * Z.of_N e) mod P) * a) mod P = a ^ Z.of_N (2 * e + 1) mod P.
Proof. intros HP. rewrite Zmult_mod_idemp_l. f_equal. rewrite N2Z.inj_add, N2Z.inj_mul, Z.pow_add_r by lia. change (Z.of_N 1) with 1. now rewrite Z.pow_1_r. Qed.
Lemma sqrt_loop_ok p1 a i : forall l, (1 <= i)%nat ->
  Z.of_N (wval l) = (Z.of_N (wval a) ^ Z.of_N (N.shiftr (wval p1) (N.of_nat (S i)))) mod P256p ->
  Z.of_N (wval (sqrt_loop p1 a i l)) = (Z.of_N (wval a) ^ Z.of_N (N.shiftr (wval p1) 2)) mod P256p.
Proof.
  induction i as [|i IH]; intros l Hi E; [lia|]. destruct i as [|i]; [exact E|].
  change (sqrt_loop p1 a (S (S i)) l) with (sqrt_loop p1 a (S i)
    (if testBit p1 (S (S i)) then modMult (modMult l l) a else modMult l l)).
  apply IH; [lia|]. set (e := N.shiftr (wval p1) (N.of_nat (S (S (S i))))) in *. rewrite (shiftr_bit _ (S (S i))). fold e. unfold testBit.
  assert (D : Z.of_N (wval (modMult l l)) = Z.of_N (wval a) ^ (2 * Z.of_N e) mod P256p).
  { rewrite modMult_ok, E. apply pow_double; [reflexivity|apply N2Z.is_nonneg]. }
  destruct (N.testbit (wval p1) (N.of_nat (S (S i)))); cbn [N.b2n].
  - rewrite modMult_ok, D. apply pow_step. reflexivity.
  - rewrite N.add_0_r, N2Z.inj_mul. exact D.
Qed.
Lemma sqrt_ok a : Z.of_N (wval (mod_sqrt_default a)) = (Z.of_N (wval a) ^ ((P256p + 1) / 4)) mod P256p.
Proof.
  unfold mod_sqrt_default. cbv zeta. pose proof (vli_add_ok tc_p (1%N :: repeat 0%N 7) 0%N eq_refl) as A.
  specialize (A ltac:(repeat constructor) ltac:(repeat constructor) ltac:(lia)). unfold vli_add.
  destruct (vli_add_from 0 tc_p (1%N :: repeat 0%N 7)) as [p1 c]. destruct A as (_ & Ls & C & E).
  assert (P1 : wval p1 = (wval tc_p + 1)%N).
  { replace (wval tc_p + wval (1%N :: repeat 0%N 7) + 0)%N with (wval tc_p + 1)%N in E by (vm_compute; reflexivity).
    assert (c = 0%N) as ->; [|lia].
    destruct (N.eq_dec c 0) as [|NZ]; [assumption|exfalso]. assert (c = 1%N) as -> by lia.
    assert (wval tc_p + 1 < Bn (length tc_p))%N by (vm_compute; reflexivity). lia. }
  replace (N.to_nat (numBits p1) - 1)%nat with 255%nat by (unfold numBits; rewrite P1; vm_compute; reflexivity).
  rewrite (sqrt_loop_ok p1 a 255); [|lia|].
  - rewrite P1. f_equal.
  - rewrite P1. replace (N.shiftr (wval tc_p + 1) (N.of_nat 256)) with 0%N by (vm_compute; reflexivity).
    rewrite Z.pow_0_r. vm_compute. reflexivity.
Qed.

(** ** Decompression *)
Lemma sqrt_side x : Z.of_N (wval (mod_sqrt_default (x_side x))) = root (Z.of_N (wval x)).
Proof. rewrite sqrt_ok, x_side_ok, <- Zpower_mod by reflexivity. apply root_eq. Qed.
Local Opaque root mod_sqrt_default.
Lemma neg_root y : (wval y <= wval tc_p)%N -> Z.of_N (wval (vli_sub tc_p y)) = (P256p - Z.of_N (wval y)) .
Proof.
  intros H. unfold vli_sub. rewrite <- tc_p_val. rewrite <- N2Z.inj_sub by exact H. f_equal.
  assert (B : (wval tc_p < 2 ^ 256)%N) by (vm_compute; reflexivity).
  (* the high word is dropped *)
  assert (G : forall n v w, (v < Bn n)%N -> wval (wenc n (v + Bn n * w)) = v).
  { induction n as [|n IH]; intros v w Hv; cbn [wenc wval].
    - change (Bn 0) with 1%N in Hv. lia.
    - rewrite Bn_S in Hv |- *.
      replace (v + 2 ^ 32 * Bn n * w)%N with (v + (Bn n * w) * 2 ^ 32)%N by lia. unfold u32.
      rewrite N.mod_add, N.div_add by discriminate. rewrite IH; [|apply N.div_lt_upper_bound; [discriminate|exact Hv]].
      symmetry. apply split32. }
  replace (wval tc_p + 2 ^ 256 - wval y)%N with ((wval tc_p - wval y) + Bn 8 * 1)%N by (change (Bn 8) with (2 ^ 256)%N; lia).
  apply G. change (Bn 8) with (2 ^ 256)%N. lia.
Qed.
Lemma decompress_ok input : is_bytes input -> (32 <= lenN input)%N ->
  let x := Z.of_N (be_val (takeN 32 input)) in
  exists y, (y = root x \/ y = P256p - root x) /\ decompress input = takeN 32 input ++ be_enc 32 (Z.to_N y).
Proof.
  intros Hi Li x. unfold decompress. cbv zeta. set (xw := wenc 8 (be_val (takeN 32 input))).
  assert (L32 : lenN (takeN 32 input) = 32%N) by (rewrite lenN_takeN; lia).
  assert (B32 : is_bytes (takeN 32 input)) by (now apply is_bytes_takeN).
  assert (EX : wval xw = be_val (takeN 32 input)).
  { apply wval_enc. change (Bn 8) with (256 ^ 32)%N. pose proof (be_val_bound _ B32) as BB. now rewrite L32 in BB. }
  pose proof (sqrt_side xw) as ES. rewrite EX in ES. fold x in ES.
  rewrite EX. replace (be_enc 32 (be_val (takeN 32 input))) with (takeN 32 input).
  2:{ symmetry. replace 32%nat with (length (takeN 32 input)) at 1 by (unfold lenN in L32; lia). now apply be_enc_val. }
  set (y := mod_sqrt_default (x_side xw)) in *.
  destruct (xorb _ _).
  - exists (P256p - root x). split; [now right|]. do 2 f_equal. rewrite <- ES, <- neg_root; [symmetry; apply N2Z.id|].
    pose proof (root_bound x) as RB. rewrite <- ES, <- tc_p_val in RB. lia.
  - exists (root x). split; [now left|]. do 2 f_equal. rewrite <- ES. symmetry. apply N2Z.id.
Qed.

(** ** The square of the result is the right-hand side or its negation *)
Lemma pm_one P a : prime P -> (a ^ 2) mod P = 1 -> a mod P = 1 \/ a mod P = P - 1.
Proof.
  intros HP E. pose proof (prime_ge_2 _ HP). assert (D : (P | (a - 1) * (a + 1))).
  { replace ((a - 1) * (a + 1)) with (a ^ 2 - 1) by ring. apply Z.mod_divide; [lia|]. rewrite Zminus_mod, E, (Z.mod_small 1), Z.sub_diag by lia. apply Zmod_0_l. }
  apply prime_mult in D as [[k D]|[k D]]; [left|right|exact HP].
  - replace a with (1 + k * P) by lia. rewrite Z_mod_plus_full. apply Z.mod_small. lia.
  - replace a with (P - 1 + (k - 1) * P) by lia. rewrite Z_mod_plus_full. apply Z.mod_small. lia.
Qed.
Lemma root_pm P k v : prime P -> 4 * k = P + 1 -> ((v ^ k) mod P) ^ 2 mod P = v mod P \/ ((v ^ k) mod P) ^ 2 mod P = (- v) mod P.
Proof.
  intros HP HK. pose proof (prime_ge_2 _ HP). assert (0 < P) by lia.
  rewrite <- Zpower_mod by assumption. rewrite <- Z.pow_mul_r by lia.
  destruct (Zdivide_dec P v) as [D|D].
  - left. apply Z.mod_divide in D; [|lia]. rewrite Zpower_mod, D, Z.pow_0_l by lia. rewrite Zmod_0_l. now symmetry.
  - set (h := 2 * k - 1). replace (k * 2) with (h + 1) by lia. rewrite Z.pow_add_r, Z.pow_1_r by lia.
    pose proof (fermat _ _ HP D) as F. replace (P - 1) with (h * 2) in F by lia. rewrite Z.pow_mul_r in F by lia.
    apply pm_one in F as [F|F]; [left|right|exact HP]; rewrite <- Zmult_mod_idemp_l, F.
    + now rewrite Z.mul_1_l.
    + replace ((P - 1) * v) with (- v + v * P) by ring. apply Z_mod_plus_full.
Qed.
Lemma root_sq x : root x ^ 2 mod P256p = rhs x mod P256p \/ root x ^ 2 mod P256p = (- rhs x) mod P256p.
Proof. rewrite <- root_eq. apply root_pm; [exact prime_P256p|vm_compute; reflexivity]. Qed.
Lemma neg_sq_alg P r : (P - r) ^ 2 = r ^ 2 + (P - 2 * r) * P. Proof. ring. Qed.
Lemma neg_sq r : ((P256p - r) ^ 2) mod P256p = r ^ 2 mod P256p.
Proof. rewrite neg_sq_alg. apply Z_mod_plus_full. Qed.
