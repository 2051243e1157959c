(** Number theory that the standard library lacks: Fermat's little theorem,
    Pocklington's criterion, and the primality of the modulus of the curve P-256. *)
From Coq Require Import Bool ZArith Znumtheory Zpow_facts List Permutation Lia.
From Verif Require Import Spec_P256.
Import ListNotations.
Local Open Scope bool_scope. Local Open Scope Z_scope.

Definition prodZ (l : list Z) : Z := fold_right Z.mul 1 l.
Lemma prodZ_perm l l' : Permutation l l' -> prodZ l = prodZ l'.
Proof. induction 1 as [|x l l' H IH|x y l|l l' l'' H IH H' IH']; [reflexivity|cbn; now f_equal|cbn; ring|congruence]. Qed.
Lemma NoDup_map_on {A B} (f : A -> B) l : (forall x y, In x l -> In y l -> f x = f y -> x = y) -> NoDup l -> NoDup (map f l).
Proof.
  intros I D. induction D as [|a l NI D IH]; cbn; constructor.
  - intros H. apply in_map_iff in H as (x & E & Hx). apply NI. rewrite <- (I x a); auto; [now right|now left].
  - apply IH. intros x y Hx Hy. apply I; now right.
Qed.
Lemma prodZ_coprime p l : prime p -> (forall x, In x l -> ~ (p | x)) -> ~ (p | prodZ l).
Proof.
  intros P. induction l as [|a l IH]; cbn; intros H D.
  - pose proof (prime_ge_2 p P). apply Z.divide_1_r in D. lia.
  - apply prime_mult in D as [D|D]; [now apply (H a); [left|]| |exact P]. apply IH; [|exact D]. intros x Hx. apply H. now right.
Qed.
Lemma prodZ_scale p a l : (prodZ (map (fun x => (a * x) mod p) l)) mod p = (a ^ Z.of_nat (length l) * prodZ l) mod p.
Proof.
  induction l as [|b l IH]; [reflexivity|]. cbn [map prodZ fold_right length]. fold (prodZ l). fold (prodZ (map (fun x => (a * x) mod p) l)).
  rewrite Nat2Z.inj_succ, Z.pow_succ_r by lia.
  rewrite Zmult_mod_idemp_l, <- Zmult_mod_idemp_r, IH, Zmult_mod_idemp_r. f_equal. ring.
Qed.
Lemma fermat p a : prime p -> ~ (p | a) -> a ^ (p - 1) mod p = 1.
Proof.
  intros P NA. pose proof (prime_ge_2 p P) as G.
  set (l := map Z.of_nat (seq 1 (Z.to_nat (p - 1)))).
  assert (IL : forall x, In x l <-> 1 <= x < p).
  { intros x. unfold l. rewrite in_map_iff. split.
    - intros (n & <- & H). apply in_seq in H. lia.
    - intros H. exists (Z.to_nat x). split; [lia|]. apply in_seq. lia. }
  assert (NL : forall x, In x l -> ~ (p | x)).
  { intros x Hx D. apply IL in Hx. apply Z.divide_pos_le in D; lia. }
  assert (LL : Z.of_nat (length l) = p - 1) by (unfold l; rewrite map_length, seq_length; lia).
  assert (ND : NoDup l). { apply NoDup_map_on; [intros; lia|apply seq_NoDup]. }
  assert (PM : Permutation (map (fun x => (a * x) mod p) l) l).
  { apply NoDup_Permutation_bis.
    - apply NoDup_map_on; [|exact ND]. intros x y Hx Hy E. apply IL in Hx, Hy.
      assert (D : (p | a * (x - y))).
      { apply Z.mod_divide; [lia|]. rewrite Z.mul_sub_distr_l, Zminus_mod, E, Z.sub_diag. apply Z.mod_0_l. lia. }
      apply prime_mult in D as [D|D]; [contradiction| |exact P].
      destruct D as [k D]. assert (k = 0) by nia. subst k. lia.
    - rewrite map_length. lia.
    - intros x Hx. apply in_map_iff in Hx as (y & <- & Hy). apply IL.
      pose proof (Z.mod_pos_bound (a * y) p ltac:(lia)). enough ((a * y) mod p <> 0) by lia.
      intros E. apply Z.mod_divide in E; [|lia]. apply prime_mult in E as [E|E]; [contradiction|now apply (NL y)|exact P]. }
  pose proof (prodZ_scale p a l) as S. rewrite (prodZ_perm _ _ PM), LL in S.
  assert (D : (p | (a ^ (p - 1) - 1) * prodZ l)).
  { apply Z.mod_divide; [lia|]. rewrite Z.mul_sub_distr_r, Z.mul_1_l, Zminus_mod, <- S, Z.sub_diag. apply Z.mod_0_l. lia. }
  apply prime_mult in D as [D|D]; [|exfalso; now apply (prodZ_coprime p l)|exact P].
  destruct D as [k D]. replace (a ^ (p - 1)) with (1 + k * p) by lia. rewrite Z_mod_plus_full. apply Z.mod_1_l. lia.
Qed.

Lemma prime_divisor n : 1 < n -> exists d, prime d /\ (d | n).
Proof.
  intros H. assert (HN : 0 <= n) by lia. revert n HN H. apply (Z_lt_induction (fun n => 1 < n -> exists d, prime d /\ (d | n))).
  intros n IH H. destruct (prime_dec n) as [P|P]; [exists n; split; [exact P|apply Z.divide_refl]|].
  apply not_prime_divide in P as (m & R & D); [|exact H]. destruct (IH m) as (d & P & D'); [lia|lia|].
  exists d. split; [exact P|]. now apply Z.divide_trans with m.
Qed.
Lemma small_divisor n : 1 < n -> ~ prime n -> exists d, prime d /\ (d | n) /\ d * d <= n.
Proof.
  intros H NP. apply not_prime_divide in NP as (m & R & [k D]); [|exact H].
  assert (K : 1 < k < n) by nia. destruct (Z.le_gt_cases (m * m) n) as [L|L].
  - destruct (prime_divisor m) as (d & P & Dd); [lia|]. exists d. split; [exact P|].
    pose proof (prime_ge_2 d P). apply Z.divide_pos_le in Dd as LD; [|lia]. split.
    { apply Z.divide_trans with m; [exact Dd|]. exists k. lia. }
    apply Z.le_trans with (m * m); [apply Z.mul_le_mono_nonneg; lia|exact L].
  - destruct (prime_divisor k) as (d & P & Dd); [lia|]. exists d. split; [exact P|].
    pose proof (prime_ge_2 d P). apply Z.divide_pos_le in Dd as LD; [|lia]. split.
    { apply Z.divide_trans with k; [exact Dd|]. exists m. lia. }
    apply Z.le_trans with (k * k); [apply Z.mul_le_mono_nonneg; lia|nia].
Qed.
(** trial division *)
Definition trial (n : Z) (k : nat) : bool :=
  (1 <? n) && (n <? Z.of_nat k * Z.of_nat k) && forallb (fun d => negb (n mod Z.of_nat d =? 0)) (seq 2 (k - 2)).
Lemma trial_prime n k : trial n k = true -> prime n.
Proof.
  unfold trial. intros H. apply andb_prop in H as [H T]. apply andb_prop in H as [H1 H2].
  apply Z.ltb_lt in H1, H2. destruct (prime_dec n) as [P|P]; [exact P|]. exfalso.
  destruct (small_divisor n H1 P) as (d & Pd & D & L). pose proof (prime_ge_2 d Pd).
  rewrite forallb_forall in T. specialize (T (Z.to_nat d)). rewrite Z2Nat.id in T by lia.
  apply Z.mod_divide in D; [|lia]. rewrite D in T. cbn in T. enough (false = true) by discriminate. apply T.
  apply in_seq. nia.
Qed.

Lemma pow_mod_1 g e k d : 0 < d -> 0 <= e -> 0 <= k -> g ^ e mod d = 1 mod d -> g ^ (k * e) mod d = 1 mod d.
Proof.
  intros Hd He Hk E. rewrite Z.mul_comm, Z.pow_mul_r by lia. rewrite Zpower_mod by lia. rewrite E.
  rewrite <- Zpower_mod by lia. now rewrite Z.pow_1_l by lia.
Qed.
(** every prime divisor of [n] is 1 modulo [q] *)
Lemma pocklington_step n q a d : prime q -> (q | n - 1) -> 1 < n ->
  a ^ (n - 1) mod n = 1 -> rel_prime (a ^ ((n - 1) / q) - 1) n ->
  prime d -> (d | n) -> (q | d - 1).
Proof.
  intros Pq [c Hc] Hn E G Pd [m Hm]. pose proof (prime_ge_2 q Pq) as Gq. pose proof (prime_ge_2 d Pd) as Gd.
  rewrite Hc, Z.div_mul in G by lia. assert (Hcp : 0 <= c) by nia.
  destruct (Zdivide_dec q (d - 1)) as [|ND]; [assumption|]. exfalso.
  assert (E' : a ^ (n - 1) mod d = 1).
  { assert (Q : (d | a ^ (n - 1) - 1)).
    { apply Z.divide_trans with n; [exists m; lia|]. apply Z.mod_divide; [lia|]. rewrite Zminus_mod, E.
      rewrite Z.mod_1_l by lia. apply Z.mod_0_l. lia. }
    destruct Q as [k Q]. replace (a ^ (n - 1)) with (1 + k * d) by lia. rewrite Z_mod_plus_full. apply Z.mod_1_l. lia. }
  set (g := a ^ c). assert (NDg : ~ (d | g)).
  { intros [k D]. rewrite Hc, Z.pow_mul_r in E' by lia. fold g in E'.
    rewrite D in E'. replace q with (Z.succ (q - 1)) in E' by lia. rewrite Z.pow_succ_r in E' by lia.
    replace (k * d * (k * d) ^ (q - 1)) with (k * (k * d) ^ (q - 1) * d) in E' by ring. rewrite Z_mod_mult in E'. discriminate. }
  pose proof (fermat d g Pd NDg) as Fm.
  assert (Gq' : g ^ q mod d = 1). { unfold g. rewrite <- Z.pow_mul_r by lia. rewrite <- Hc. exact E'. }
  (* Bezout: u q = 1 + v (d - 1) with u, v >= 0 *)
  assert (RP : rel_prime q (d - 1)) by (apply prime_rel_prime; assumption).
  apply Zis_gcd_bezout in RP. destruct RP as [u v B].
  assert (B' : exists u v, 0 <= u /\ 0 <= v /\ u * q = 1 + v * (d - 1)).
  { set (t := Z.abs u + Z.abs v). exists (u + t * (d - 1)), (t * q - v). repeat split; [| |lia].
    - unfold t. nia.
    - unfold t. nia. }
  destruct B' as (u' & v' & Hu & Hv & B').
  assert (X : g mod d = 1 mod d).
  { assert (Y : g ^ (u' * q) mod d = 1 mod d) by (apply pow_mod_1; try lia; rewrite Gq'; symmetry; apply Z.mod_1_l; lia).
    rewrite B', Z.pow_add_r, Z.pow_1_r in Y by nia. rewrite <- Zmult_mod_idemp_r in Y.
    rewrite pow_mod_1 in Y; try lia; [|rewrite Fm; symmetry; apply Z.mod_1_l; lia].
    rewrite Z.mod_1_l, Z.mul_1_r in Y by lia. rewrite Z.mod_1_l by lia. exact Y. }
  assert (D1 : (d | g - 1)).
  { apply Z.mod_divide; [lia|]. rewrite Zminus_mod, X, Z.sub_diag. apply Z.mod_0_l. lia. }
  assert (DD : (d | 1)). { destruct G as [_ _ G]. apply G; [exact D1|exists m; lia]. }
  apply Z.divide_1_r in DD. lia.
Qed.
(** the certificate: distinct primes dividing n - 1 whose product F has F * F >= n *)
Definition cert_step (n a q : Z) : bool :=
  ((n - 1) mod q =? 0) && (Z.gcd (Zpow_mod a ((n - 1) / q) n - 1) n =? 1).
Lemma cert_step_ok n a q d : 1 < n -> Zpow_mod a (n - 1) n = 1 -> cert_step n a q = true -> prime q ->
  prime d -> (d | n) -> (q | d - 1).
Proof.
  intros Hn E C Pq Pd D. unfold cert_step in C. apply andb_prop in C as [C1 C2]. apply Z.eqb_eq in C1, C2.
  pose proof (prime_ge_2 q Pq). rewrite Zpow_mod_correct in E, C2 by lia.
  apply (pocklington_step n q a d); try assumption.
  - apply Z.mod_divide; [lia|exact C1].
  - apply Zgcd_1_rel_prime. set (x := a ^ ((n - 1) / q)) in *.
    rewrite Z.gcd_comm, <- Z.gcd_mod by lia. rewrite <- (Zminus_mod_idemp_l x), Z.gcd_mod, Z.gcd_comm by lia. exact C2.
Qed.
Lemma pocklington1 n a q : prime q -> (1 <? n) && (n <? q * q) && (Zpow_mod a (n - 1) n =? 1) && cert_step n a q = true -> prime n.
Proof.
  intros Pq H. apply andb_prop in H as [H C]. apply andb_prop in H as [H E]. apply andb_prop in H as [H1 H2].
  apply Z.ltb_lt in H1, H2. apply Z.eqb_eq in E. destruct (prime_dec n) as [|NP]; [assumption|]. exfalso.
  destruct (small_divisor n H1 NP) as (d & Pd & D & L). pose proof (cert_step_ok n a q d H1 E C Pq Pd D) as Q.
  pose proof (prime_ge_2 d Pd). pose proof (prime_ge_2 q Pq). apply Z.divide_pos_le in Q; [nia|lia].
Qed.
Lemma pocklington2 n a q r : prime q -> prime r -> q <> r ->
  (1 <? n) && (n <? q * r * (q * r)) && (Zpow_mod a (n - 1) n =? 1) && cert_step n a q && cert_step n a r = true -> prime n.
Proof.
  intros Pq Pr NE H. apply andb_prop in H as [H C']. apply andb_prop in H as [H C]. apply andb_prop in H as [H E]. apply andb_prop in H as [H1 H2].
  apply Z.ltb_lt in H1, H2. apply Z.eqb_eq in E. destruct (prime_dec n) as [|NP]; [assumption|]. exfalso.
  destruct (small_divisor n H1 NP) as (d & Pd & D & L). pose proof (cert_step_ok n a q d H1 E C Pq Pd D) as Q.
  pose proof (cert_step_ok n a r d H1 E C' Pr Pd D) as Q'.
  pose proof (prime_ge_2 d Pd). pose proof (prime_ge_2 q Pq). pose proof (prime_ge_2 r Pr).
  assert (QR : (q * r | d - 1)).
  { destruct Q as [k Q]. rewrite Q in Q' |- *. rewrite Z.mul_comm in Q'. apply Gauss in Q'.
    - destruct Q' as [j Q']. exists j. rewrite Q'. ring.
    - apply prime_rel_prime; [exact Pr|]. intros X. apply prime_div_prime in X; auto. }
  apply Z.divide_pos_le in QR; [nia|lia].
Qed.

Lemma prime_3677 : prime 3677. Proof. apply (trial_prime _ 61). vm_compute. reflexivity. Qed.
Lemma prime_197 : prime 197. Proof. apply (trial_prime _ 15). vm_compute. reflexivity. Qed.
Lemma prime_78283 : prime 78283. Proof. apply (trial_prime _ 280). vm_compute. reflexivity. Qed.
Lemma prime_704251 : prime 704251. Proof. apply (trial_prime _ 840). vm_compute. reflexivity. Qed.
Lemma prime_66417393611 : prime 66417393611.
Proof. apply (pocklington2 _ 2 _ _ prime_3677 prime_197); [discriminate|vm_compute; reflexivity]. Qed.
Lemma prime_11290956913871 : prime 11290956913871.
Proof. apply (pocklington1 _ 2 _ prime_66417393611). vm_compute. reflexivity. Qed.
Lemma prime_46076956964474543 : prime 46076956964474543.
Proof. apply (pocklington2 _ 2 _ _ prime_78283 prime_704251); [discriminate|vm_compute; reflexivity]. Qed.
Lemma prime_q2 : prime 774023187263532362759620327192479577272145303.
Proof. apply (pocklington2 _ 2 _ _ prime_11290956913871 prime_46076956964474543); [discriminate|vm_compute; reflexivity]. Qed.
Lemma prime_q1 : prime 835945042244614951780389953367877943453916927241.
Proof. apply (pocklington1 _ 2 _ prime_q2). vm_compute. reflexivity. Qed.
Lemma prime_P256p : prime P256p.
Proof. apply (pocklington1 _ 2 _ prime_q1). vm_compute. reflexivity. Qed.
