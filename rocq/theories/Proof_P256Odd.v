(** No point of P-256 has y = 0: the polynomial x^3 - 3 x + b has no root modulo p. With a
    root r and s^2 = b^2 - 4, the number 4 (s - b) would be a cube: with d = r^2 - 1,
    (r d + s)^3 = 4 d^3 (s - b). *)
From Coq Require Import ZArith Znumtheory Zpow_facts Lia.
From Verif Require Import Spec_P256 Proof_Prime.
Local Open Scope Z_scope.

Lemma cube_alg r s q b P d : d = r ^ 2 - 1 -> r ^ 3 - 3 * r + b = q * P ->
  (r * d + s) ^ 3 - 4 * d ^ 3 * (s - b) = (s ^ 2 - (b ^ 2 - 4)) * (3 * r * d + s) + q * P * (2 * b - q * P) * (3 * r * d + s) + 4 * d ^ 3 * (q * P)
    - 0 * s.
Proof. intros -> E. rewrite <- E. ring. Qed.
Lemma no_root_cubic P b s k : prime P -> P = 3 * k + 1 -> (P | s ^ 2 - (b ^ 2 - 4)) -> ~ (P | b ^ 2 - 4) -> ~ (P | 4) ->
  (4 * (s - b)) ^ k mod P <> 1 -> forall r, ~ (P | r ^ 3 - 3 * r + b).
Proof.
  intros PR PK HS HB H4 HC r (q & E). pose proof (prime_ge_2 P PR) as G. assert (K : 0 <= k) by lia. assert (PK1 : P - 1 = 3 * k) by lia. assert (PP : 0 < P) by lia. clear G PK. remember (r ^ 2 - 1) as d eqn:Ed.
  assert (C : (P | (r * d + s) ^ 3 - 4 * d ^ 3 * (s - b))).
  { rewrite (cube_alg r s q b P d Ed E). destruct HS as (h & HS). rewrite HS. exists (h * (3 * r * d + s) + q * (2 * b - q * P) * (3 * r * d + s) + 4 * d ^ 3 * q). ring. }
  assert (D : ~ (P | d)).
  { intros (e & D). apply HB. exists (e * (r ^ 2 - 4) * d + q * (2 * b - q * P)). subst d.
    replace ((e * (r ^ 2 - 4) * (r ^ 2 - 1) + q * (2 * b - q * P)) * P) with ((e * P) * ((r ^ 2 - 4) * (r ^ 2 - 1)) + (q * P) * (2 * b - q * P)) by ring.
    rewrite <- D, <- E. ring. }
  assert (W : ~ (P | r * d + s)).
  { intros W. assert (X : (P | 4 * d ^ 3 * (s - b))).
    { replace (4 * d ^ 3 * (s - b)) with ((r * d + s) ^ 3 - ((r * d + s) ^ 3 - 4 * d ^ 3 * (s - b))) by ring. apply Z.divide_sub_r; [|exact C].
      replace ((r * d + s) ^ 3) with ((r * d + s) * (r * d + s) ^ 2) by ring. now apply Z.divide_mul_l. }
    destruct (prime_mult P PR _ _ X) as [Y|Y]; clear X; [rename Y into X|rename Y into X].
    - destruct (prime_mult P PR _ _ X) as [Y|Y]; [exact (H4 Y)|]. replace (d ^ 3) with (d * (d * d)) in Y by ring.
      destruct (prime_mult P PR _ _ Y) as [U|U]; [exact (D U)|]. destruct (prime_mult P PR _ _ U) as [V|V]; exact (D V).
    - apply H4. replace 4 with (s ^ 2 - (b ^ 2 - 4) - (s - b) * (s + b)) by ring. apply Z.divide_sub_r; [exact HS|]. now apply Z.divide_mul_l. }
  apply HC.
  pose proof (fermat P d PR D) as F1. pose proof (fermat P (r * d + s) PR W) as F2. rewrite PK1, Z.pow_mul_r in F1, F2 by (discriminate || exact K).
  assert (EQ : ((r * d + s) ^ 3) mod P = (d ^ 3 * (4 * (s - b))) mod P).
  { destruct C as (c & C). replace ((r * d + s) ^ 3) with (d ^ 3 * (4 * (s - b)) + c * P) by (rewrite <- C; ring). apply Z_mod_plus_full. }
  rewrite Zpower_mod, EQ, <- Zpower_mod, Z.pow_mul_l, Zmult_mod, F1, Z.mul_1_l, Zmod_mod in F2 by (discriminate || exact PP). exact F2.
Qed.

Definition s256 : Z := 0x283f4129ab6817d9211765b3cf8342c150a255c72f93ad42a112e5cc920087eb.
Lemma p256_no_root : forall r, ~ (P256p | r ^ 3 - 3 * r + P256b).
Proof.
  assert (HP : P256p <> 0) by (vm_compute; discriminate).
  apply (no_root_cubic P256p P256b s256 ((P256p - 1) / 3) prime_P256p).
  - vm_compute. reflexivity.
  - apply Z.mod_divide; [exact HP|]. vm_compute. reflexivity.
  - intros H. apply Z.mod_divide in H; [|exact HP]. vm_compute in H. discriminate H.
  - intros H. apply Z.mod_divide in H; [|exact HP]. vm_compute in H. discriminate H.
  - rewrite <- Zpow_mod_correct by exact HP. vm_compute. discriminate.
Qed.
Lemma y_not_0 x y : on_p256 x y -> y <> 0.
Proof.
  intros (_ & _ & E) ->. apply (p256_no_root x). apply Z.mod_divide; [vm_compute; discriminate|]. rewrite <- E. vm_compute. reflexivity.
Qed.
