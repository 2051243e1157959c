(** Lemmas about the common vocabulary. *)
From Verif Require Import Base.

#[global] Ltac Zify.zify_post_hook ::= Z.div_mod_to_equations.

Lemma beqb_eq a b : beqb a b = true <-> a = b.
Proof.
  revert b; induction a as [|x a IH]; intros [|y b]; cbn [beqb];
    split; intros H; try congruence; try discriminate.
  - apply andb_true_iff in H as [H1 H2]. apply N.eqb_eq in H1.
    apply IH in H2. congruence.
  - injection H as -> ->. rewrite N.eqb_refl. cbn. apply IH. reflexivity.
Qed.

Lemma beqb_refl a : beqb a a = true.
Proof. apply beqb_eq; reflexivity. Qed.

Lemma beqb_neq a b : beqb a b = false <-> a <> b.
Proof.
  rewrite <- beqb_eq. destruct (beqb a b); split; congruence.
Qed.

Lemma lenN_app {A} (a b : list A) : lenN (a ++ b) = lenN a + lenN b.
Proof. unfold lenN. rewrite app_length. lia. Qed.

Lemma lenN_cons {A} (x : A) l : lenN (x :: l) = 1 + lenN l.
Proof. unfold lenN. cbn [length]. lia. Qed.

Lemma lenN_nil {A} : lenN (@nil A) = 0.
Proof. reflexivity. Qed.

Lemma lenN_0 {A} (l : list A) : lenN l = 0 <-> l = [].
Proof. unfold lenN. destruct l; cbn [length]; split; intros; try congruence; lia. Qed.

Lemma takeN_app {A} (a b : list A) : takeN (lenN a) (a ++ b) = a.
Proof.
  unfold takeN, lenN. rewrite Nnat.Nat2N.id, firstn_app, Nat.sub_diag, firstn_all.
  cbn. apply app_nil_r.
Qed.

Lemma dropN_app {A} (a b : list A) : dropN (lenN a) (a ++ b) = b.
Proof.
  unfold dropN, lenN. rewrite Nnat.Nat2N.id, skipn_app, Nat.sub_diag, skipn_all.
  reflexivity.
Qed.

Lemma takeN_all {A} (l : list A) n : lenN l <= n -> takeN n l = l.
Proof. unfold takeN, lenN; intros; apply firstn_all2; lia. Qed.

Lemma dropN_all {A} (l : list A) n : lenN l <= n -> dropN n l = [].
Proof. unfold dropN, lenN; intros; apply skipn_all2; lia. Qed.

Lemma takeN_0 {A} (l : list A) : takeN 0 l = [].
Proof. reflexivity. Qed.

Lemma dropN_0 {A} (l : list A) : dropN 0 l = l.
Proof. reflexivity. Qed.

Lemma takeN_dropN {A} n (l : list A) : takeN n l ++ dropN n l = l.
Proof. apply firstn_skipn. Qed.

Lemma lenN_takeN {A} n (l : list A) : lenN (takeN n l) = N.min n (lenN l).
Proof. unfold lenN, takeN. rewrite firstn_length. lia. Qed.

Lemma lenN_dropN {A} n (l : list A) : lenN (dropN n l) = lenN l - n.
Proof. unfold lenN, dropN. rewrite skipn_length. lia. Qed.

Lemma dropN_dropN {A} a b (l : list A) : dropN a (dropN b l) = dropN (b + a) l.
Proof.
  unfold dropN.
  replace (N.to_nat (b + a)) with (N.to_nat b + N.to_nat a)%nat by lia.
  generalize (N.to_nat a) as n, (N.to_nat b) as m. intros n m. revert l.
  induction m as [|m IH]; intros l; [reflexivity|].
  destruct l; cbn [skipn Nat.add]; [apply skipn_nil|apply IH].
Qed.

Lemma lenN_repeat {A} (x : A) n : lenN (repeat x n) = N.of_nat n.
Proof. unfold lenN. rewrite repeat_length. reflexivity. Qed.

Lemma is_bytes_app a b : is_bytes (a ++ b) <-> is_bytes a /\ is_bytes b.
Proof. apply Forall_app. Qed.

Lemma is_bytes_takeN n l : is_bytes l -> is_bytes (takeN n l).
Proof.
  intros H. rewrite <- (takeN_dropN n l) in H. apply is_bytes_app in H. tauto.
Qed.

Lemma is_bytes_dropN n l : is_bytes l -> is_bytes (dropN n l).
Proof.
  intros H. rewrite <- (takeN_dropN n l) in H. apply is_bytes_app in H. tauto.
Qed.

Lemma bind_ok {A B} (r : res A) (f : A -> res B) b :
  bind r f = Ok b <-> exists a, r = Ok a /\ f a = Ok b.
Proof.
  destruct r; cbn; split; intros H; try discriminate; eauto;
    destruct H as (? & H1 & H2); try discriminate.
  injection H1 as ->. exact H2.
Qed.

Lemma rd_ok l i b : rd l i = Ok b -> i < lenN l /\ nth_error l (N.to_nat i) = Some b.
Proof.
  unfold rd. destruct (nth_error l (N.to_nat i)) eqn:E; intros H; [|discriminate].
  injection H as ->. split; [|reflexivity].
  assert (N.to_nat i < length l)%nat by (apply nth_error_Some; congruence).
  unfold lenN; lia.
Qed.

Lemma rd_app_here a x b : rd (a ++ x :: b) (lenN a) = Ok x.
Proof.
  unfold rd, lenN. rewrite Nnat.Nat2N.id, nth_error_app2, Nat.sub_diag by lia. reflexivity.
Qed.

Lemma slice_app a m b : slice (a ++ m ++ b) (lenN a) (lenN m) = Ok m.
Proof.
  unfold slice. rewrite !lenN_app.
  destruct (N.leb_spec (lenN a + lenN m) (lenN a + (lenN m + lenN b))); [|lia].
  rewrite dropN_app, takeN_app. reflexivity.
Qed.

Lemma slice_ok l i n s : slice l i n = Ok s -> lenN s = n /\ i + n <= lenN l /\ s = takeN n (dropN i l).
Proof.
  unfold slice. destruct (N.leb_spec (i + n) (lenN l)); [|discriminate].
  intros H'. injection H' as <-. rewrite lenN_takeN, lenN_dropN. repeat split; lia.
Qed.

Lemma app_eq_len {A} (a b c d : list A) :
  a ++ b = c ++ d -> lenN a = lenN c -> a = c /\ b = d.
Proof.
  unfold lenN. intros H HL.
  assert (HL' : length a = length c) by lia. clear HL.
  revert c H HL'. induction a as [|x a IH]; intros [|y c] H HL; cbn in *; try discriminate; auto.
  injection H as -> H. injection HL as HL. destruct (IH _ H HL) as [-> ->]. auto.
Qed.
