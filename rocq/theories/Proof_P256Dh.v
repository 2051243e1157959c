(** The Diffie-Hellman secret does not depend on the sign of y. *)
From Coq Require Import ZArith Znumtheory Zpow_facts.
From Verif Require Import Base Model_Cbor Model_P256 Spec_P256 Proof_Prime Proof_P256.
Local Open Scope Z_scope.

Definition pt_neg (p : point) : point := match p with Inf => Inf | Aff x y => Aff x ((- y) mod P256p) end.
Definition red (p : point) : Prop := match p with Inf => True | Aff x y => 0 <= y < P256p end.
Lemma mod_eq P a b : P <> 0 -> (P | a - b) -> a mod P = b mod P.
Proof. intros NZ [k E]. replace a with (b + k * P) by lia. apply Z_mod_plus_full. Qed.
Lemma mod_split P a : P <> 0 -> exists k, a mod P = a + k * P.
Proof. intros NZ. exists (- (a / P)). pose proof (Z.div_mod a P NZ). lia. Qed.
Lemma chord_x P l l' x1 x2 : P <> 0 -> (P | l + l') -> (l' * l' - x1 - x2) mod P = (l * l - x1 - x2) mod P.
Proof. intros NZ [k E]. apply mod_eq; [exact NZ|]. exists (k * (l' - l)). replace (k * (l' - l) * P) with (k * P * (l' - l)) by ring. rewrite <- E. ring. Qed.
Lemma chord_y P l l' x y : P <> 0 -> (P | l + l') -> (l' * x - (- y) mod P) mod P = (- ((l * x - y) mod P)) mod P.
Proof.
  intros NZ [k E]. destruct (mod_split P (- y) NZ) as [q ->]. destruct (mod_split P (l * x - y) NZ) as [r ->].
  apply mod_eq; [exact NZ|]. exists (k * x - q + r). replace l' with (k * P - l) by lia. ring.
Qed.
Lemma chord_neg l l' x1 y1 x2 : (P256p | l + l') -> chord l' x1 ((- y1) mod P256p) x2 = pt_neg (chord l x1 y1 x2).
Proof.
  intros D. assert (NZ : P256p <> 0) by discriminate. unfold chord, pt_neg. cbv zeta.
  rewrite (chord_x _ _ _ x1 x2 NZ D). f_equal. apply chord_y; assumption.
Qed.
Lemma inv_red a b : (P256p | a + b) -> (P256p | inv_p a + inv_p b).
Proof.
  intros [k E]. unfold inv_p. rewrite !Zpow_mod_correct by discriminate.
  assert (NZ : P256p <> 0) by discriminate. assert (PO : 0 < P256p) by reflexivity.
  assert (OD : Z.Odd (P256p - 2)) by (exists ((P256p - 3) / 2); vm_compute; reflexivity).
  revert OD. generalize (P256p - 2) as e. intros e OD. apply Z.mod_divide; [exact NZ|]. rewrite <- Zplus_mod.
  rewrite Zplus_mod, (Zpower_mod a), (mod_eq _ a (- b) NZ), <- Zpower_mod, <- Zplus_mod, Z.pow_opp_odd by (assumption || (exists k; lia)).
  rewrite Z.add_opp_diag_l. apply Zmod_0_l.
Qed.
Lemma add_neg p q : red p -> red q -> pt_add (pt_neg p) (pt_neg q) = pt_neg (pt_add p q).
Proof.
  assert (NZ : P256p <> 0) by discriminate.
  destruct p as [|x1 y1], q as [|x2 y2]; intros Hp Hq; try reflexivity. cbn [pt_neg pt_add].
  destruct (mod_split P256p (- y1) NZ) as [k1 E1]. destruct (mod_split P256p (- y2) NZ) as [k2 E2].
  destruct (x1 =? x2).
  - assert (EZ : (((- y1) mod P256p + (- y2) mod P256p) mod P256p =? 0) = ((y1 + y2) mod P256p =? 0)).
    { rewrite <- Zplus_mod. replace (- y1 + - y2) with (- (y1 + y2)) by ring.
      apply Bool.eq_iff_eq_true. rewrite !Z.eqb_eq, !Z.mod_divide by exact NZ. apply Z.divide_opp_r. }
    rewrite EZ. clear EZ. destruct ((y1 + y2) mod P256p =? 0); [reflexivity|]. apply chord_neg.
    rewrite <- Z.mul_add_distr_l. apply Z.divide_mul_r. apply inv_red. exists (2 * k1). rewrite E1. lia.
  - apply chord_neg. rewrite <- Z.mul_add_distr_r. apply Z.divide_mul_l. exists (k2 - k1). rewrite E1, E2. lia.
Qed.
Lemma add_red p q : red p -> red q -> red (pt_add p q).
Proof.
  intros Hp Hq. destruct p as [|x1 y1], q as [|x2 y2]; try assumption. cbn [pt_add].
  destruct (x1 =? x2); [destruct (_ =? 0); [exact I|]|]; apply Z.mod_pos_bound; reflexivity.
Qed.
Lemma mul_red k p : red p -> red (pt_mul k p).
Proof. intros H. induction k as [|k IH]; [exact I|]. cbn [pt_mul]. now apply add_red. Qed.
Lemma mul_neg k p : red p -> pt_mul k (pt_neg p) = pt_neg (pt_mul k p).
Proof.
  intros H. induction k as [|k IH]; [reflexivity|]. cbn [pt_mul]. rewrite IH. apply add_neg; [exact H|]. now apply mul_red.
Qed.
Lemma neg_x p : pt_x (pt_neg p) = pt_x p. Proof. now destruct p. Qed.
Lemma same_x k x y y' : on_p256 x y -> on_p256 x y' -> pt_x (pt_mul k (Aff x y')) = pt_x (pt_mul k (Aff x y)).
Proof.
  intros (Hx & Hy & E) (_ & Hy' & E'). rewrite <- E' in E.
  destruct (two_roots _ _ _ prime_P256p E Hy Hy') as [-> |[S|[-> ->]]]; [reflexivity| |reflexivity].
  destruct (Z.eq_dec y 0) as [-> |NZ]; [exfalso; lia|].
  replace (Aff x y') with (pt_neg (Aff x y)); [rewrite mul_neg; [apply neg_x|exact Hy]|]. cbn [pt_neg]. f_equal.
  replace (- y) with (y' + (-1) * P256p) by lia. rewrite Z_mod_plus_full. now apply Z.mod_small.
Qed.

Lemma inv_generic P a i : prime P -> 0 <= i < P -> (a * i) mod P = 1 -> a ^ (P - 2) mod P = i.
Proof.
  intros HP Hi E. pose proof (prime_ge_2 _ HP). assert (D : ~ (P | a)).
  { intros D. apply (Z.divide_mul_l _ _ i) in D. apply Z.mod_divide in D; lia. }
  pose proof (fermat _ _ HP D) as F. replace (P - 1) with (P - 2 + 1) in F by lia. rewrite Z.pow_add_r, Z.pow_1_r in F by lia.
  transitivity ((a ^ (P - 2) * (a * i)) mod P).
  - rewrite <- Zmult_mod_idemp_r, E, Z.mul_1_r. reflexivity.
  - rewrite Z.mul_assoc, <- Zmult_mod_idemp_l, F, Z.mul_1_l. now apply Z.mod_small.
Qed.
Lemma inv_unique a i : 0 <= i < P256p -> (a * i) mod P256p = 1 -> inv_p a = i.
Proof. intros Hi E. unfold inv_p. rewrite Zpow_mod_correct by discriminate. exact (inv_generic _ _ _ prime_P256p Hi E). Qed.
