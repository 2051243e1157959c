(** Proofs about ssn2piv in several threads (C75). *)
From Verif Require Import Base Proof_Base Model_Common Model_Crypto Model_OscorePrims Spec_OscorePrims Proof_OscorePrims Model_Coap Model_Interactions Proof_Interactions
  Model_Context Model_Send Proof_Send Model_Threads Spec_Threads.

Opaque N.pow.

(** ** What every schedule guarantees *)
Lemma pow_S j : 256 ^ N.of_nat (S j) = 256 * 256 ^ N.of_nat j.
Proof. rewrite Nat2N.inj_succ. apply N.pow_succ_r'. Qed.
Lemma pow_pos j : 0 < 256 ^ N.of_nat j.
Proof. pose proof (N.pow_nonzero 256 (N.of_nat j)). lia. Qed.
Lemma has_byte_down n i j : (i <= j)%nat -> has_byte n j -> has_byte n i.
Proof. unfold has_byte. intros L H. pose proof (N.pow_le_mono_r 256 (N.of_nat i) (N.of_nat j) ltac:(lia) ltac:(lia)). lia. Qed.
Lemma has_byte_div n j : 0 < n / 256 ^ N.of_nat j <-> has_byte n j.
Proof.
  unfold has_byte. pose proof (pow_pos j). split; intros H0.
  - destruct (N.lt_ge_cases n (256 ^ N.of_nat j)); [|assumption]. rewrite N.div_small in H0 by assumption. lia.
  - apply N.div_str_pos. lia.
Qed.
Lemma has_byte_5 n j : n < 2 ^ 40 -> has_byte n j -> (j < 5)%nat.
Proof.
  unfold has_byte. intros H1 H2. destruct (Nat.lt_ge_cases j 5) as [L|L]; [exact L|].
  pose proof (N.pow_le_mono_r 256 5 (N.of_nat j) ltac:(lia) ltac:(lia)) as P.
  change (256 ^ 5) with 1099511627776 in P. change (2 ^ 40) with 1099511627776 in H1. lia.
Qed.

Section Inv.
Variable ns : list N.
Definition good (j : nat) (b : N) : Prop := exists n, In n ns /\ n < 2 ^ 40 /\ has_byte n j /\ b = byte_of n j.
Definition inv (m : tmp_array) (n : N) (st : at_step) : Prop :=
  if n <? 2 ^ 40 then
    match st with
    | Digits rest len => rest = n / 256 ^ N.of_nat len /\ (len <= 5)%nat /\ (forall j, (j < len)%nat -> has_byte n j /\ good j (m j))
    | Copy len pos out =>
        n < 256 ^ N.of_nat len /\ (0 < len)%nat /\ (pos <= len)%nat /\ length out = pos /\
        (forall j, (j < len)%nat -> has_byte n j /\ good j (m j)) /\
        (forall p, (p < pos)%nat -> good (len - 1 - p) (nth p out 0))
    | Done r => exists out, r = Ok out /\
        if n =? 0 then out = [0]
        else n < 256 ^ N.of_nat (length out) /\ (forall j, (j < length out)%nat -> has_byte n j /\ good j (nth j (rev out) 0))
    end
  else st = Done (Err wrong_parameter).

Lemma inv_start m n : inv m n (at_start n).
Proof.
  unfold inv, at_start, MAX_PIV_FIELD_VALUE. change (2 ^ 40) with 1099511627776.
  destruct (N.ltb_spec n 1099511627776); destruct (N.ltb_spec (1099511627776 - 1) n); try lia; [|reflexivity].
  split; [change (N.of_nat 0) with 0; rewrite N.pow_0_r, N.div_1_r; reflexivity|]. split; [lia|]. intros j L; lia.
Qed.

Lemma inv_step m n st m' st' : In n ns -> inv m n st -> one_step m st = (m', st') ->
  inv m' n st' /\ (forall j, m' j = m j \/ good j (m' j)).
Proof.
  intros IN H E. unfold inv in *. destruct (N.ltb_spec n (2 ^ 40)) as [L|L].
  2:{ subst st. cbn in E. injection E as <- <-. auto. }
  destruct st as [rest len|len pos out|r]; cbn [one_step] in E.
  - destruct H as (R & L5 & F). destruct (N.ltb_spec 0 rest) as [P|P].
    + rewrite R in P. apply has_byte_div in P as HBY. pose proof (has_byte_5 _ _ L HBY) as LL.
      change (N.to_nat MAX_PIV_LEN) with 5%nat in E.
      destruct (Nat.ltb_spec len 5); [|lia]. injection E as <- <-.
      assert (G : good len (u8 rest)).
      { exists n. split; [exact IN|]. split; [exact L|]. split; [exact HBY|]. unfold byte_of, u8. rewrite R. change (2 ^ 8) with 256. reflexivity. }
      split.
      * split; [rewrite pow_S, N.mul_comm, R; apply N.div_div; [apply N.neq_0_lt_0, pow_pos|discriminate]|]. split; [lia|].
        intros j J. unfold tmp_set. destruct (Nat.eqb_spec j len) as [->|NE]; [auto|]. apply F. lia.
      * intros j. unfold tmp_set. destruct (Nat.eqb_spec j len) as [->|NE]; auto.
    + assert (Z : n / 256 ^ N.of_nat len = 0) by lia.
      assert (NL : n < 256 ^ N.of_nat len). { destruct (N.lt_ge_cases n (256 ^ N.of_nat len)) as [|X]; [assumption|]. apply has_byte_div in X. lia. }
      destruct (Nat.eqb_spec len 0) as [Z0|Z0]; injection E as <- <-; (split; [|auto]).
      * subst len. change (N.of_nat 0) with 0 in NL. rewrite N.pow_0_r in NL. exists [0]. split; [reflexivity|].
        destruct (N.eqb_spec n 0); [reflexivity|lia].
      * repeat split; try lia; try apply F; assumption.
  - destruct H as (NL & P0 & PL & LO & F & G). destruct (Nat.ltb_spec pos len) as [P|P]; injection E as <- <-; (split; [|auto]).
    + split; [exact NL|]. split; [exact P0|]. split; [lia|]. split; [rewrite app_length, LO; cbn; lia|]. split; [exact F|].
      intros p Pp. destruct (Nat.eq_dec p pos) as [->|NE].
      * rewrite app_nth2 by lia. rewrite LO, Nat.sub_diag. cbn [nth]. apply F. lia.
      * rewrite app_nth1 by lia. apply G. lia.
    + assert (PE : pos = len) by lia. rewrite PE in LO. clear PE PL. exists out. split; [reflexivity|].
      destruct (F 0%nat P0) as [B0 _]. unfold has_byte in B0. change (N.of_nat 0) with 0 in B0. rewrite N.pow_0_r in B0.
      destruct (N.eqb_spec n 0); [lia|]. rewrite LO. split; [exact NL|]. intros j J. split; [apply F; exact J|].
      rewrite rev_nth by lia. rewrite LO. specialize (G (len - S j)%nat ltac:(lia)).
      replace (len - 1 - (len - S j))%nat with j in G by lia. exact G.
  - injection E as <- <-. auto.
Qed.

Lemma inv_mono m m' n st : inv m n st -> (forall j, m' j = m j \/ good j (m' j)) -> inv m' n st.
Proof.
  unfold inv. destruct (n <? 2 ^ 40); [|auto]. intros H M.
  assert (X : forall j, good j (m j) -> good j (m' j)) by (intros j G; destruct (M j) as [->|Y]; assumption).
  destruct st as [rest len|len pos out|r]; [| |exact H].
  - destruct H as (R & L5 & F). split; [exact R|]. split; [exact L5|]. intros j J. split; [apply F; exact J|]. apply X, F, J.
  - destruct H as (NL & P0 & PL & LO & F & G). repeat split; try assumption; [apply F; assumption|apply X, F; assumption].
Qed.

Lemma inv_turns sched : forall m sts m' sts',
  Forall2 (inv m) ns sts -> turns sched m sts = (m', sts') -> Forall2 (inv m') ns sts'.
Proof.
  induction sched as [|i r IH]; intros m sts m' sts' H E; cbn [turns] in E; [injection E as <- <-; exact H|].
  destruct (nth_error sts i) as [st|] eqn:EN; [|apply (IH _ _ _ _ H E)].
  destruct (one_step m st) as [m1 st1] eqn:ES.
  refine (IH _ _ _ _ _ E).
  assert (Q : forall j, m1 j = m j \/ good j (m1 j)).
  { clear - H EN ES. assert (exists n, In n ns /\ inv m n st) as (n & IN & V).
    { revert i EN. induction H as [|n0 st0 l l' V F IH]; intros i EN; [destruct i; discriminate|].
      destruct i as [|i]; [injection EN as <-; exists n0; split; [left; reflexivity|exact V]|].
      cbn in EN. destruct (IH i EN) as (n & IN & V'). exists n. split; [right; exact IN|exact V']. }
    apply (inv_step m n st m1 st1 IN V ES). }
  assert (K : forall l sts0 i0, (forall n, In n l -> In n ns) -> Forall2 (inv m) l sts0 -> nth_error sts0 i0 = Some st -> Forall2 (inv m1) l (set_nth sts0 i0 st1)).
  { clear - ES Q. intros l sts0 i0 SUB H. revert i0. induction H as [|n0 st0 l l' V F IH]; intros i0 EN; [destruct i0; discriminate|].
    destruct i0 as [|i0]; cbn [set_nth].
    - injection EN as ->. constructor; [apply (inv_step m n0 st m1 st1 (SUB _ (or_introl eq_refl)) V ES)|].
      clear - F Q. induction F; constructor; [eapply inv_mono; eassumption|assumption].
    - constructor; [eapply inv_mono; eassumption|]. apply IH; [intros n Hn; apply SUB; right; exact Hn|exact EN]. }
  apply K; auto.
Qed.
End Inv.

Lemma returned_inv tmp ns sched i n r :
  nth_error ns i = Some n -> returned tmp ns sched i = Some r -> exists m, inv ns m n (Done r).
Proof.
  intros EN E. unfold returned in E. destruct (turns sched tmp (map at_start ns)) as [m sts] eqn:ET. cbn [snd] in E.
  destruct (nth_error sts i) as [[| |r']|] eqn:ES; try discriminate. injection E as ->.
  assert (F : Forall2 (inv ns tmp) ns (map at_start ns)).
  { enough (G : forall l, Forall2 (inv ns tmp) l (map at_start l)) by apply G.
    induction l; constructor; [apply inv_start|assumption]. }
  pose proof (inv_turns ns sched _ _ _ _ F ET) as G. exists m.
  enough (K : forall l sts0 j, Forall2 (inv ns m) l sts0 -> nth_error l j = Some n -> nth_error sts0 j = Some (Done r) -> inv ns m n (Done r)) by (exact (K _ _ _ G EN ES)).
  clear. intros l sts0 i G. revert i. induction G as [|x y l l' V F IH]; intros [|i] EN ES; try discriminate; [injection EN as ->; injection ES as ->; exact V|].
  cbn in EN, ES. apply (IH i EN ES).
Qed.

(** ** Progress *)
Definition left_over (st : at_step) : nat :=
  match st with
  | Digits _ len => 12 - len
  | Copy len pos _ => S (len - pos)
  | Done _ => 0
  end.
Definition within (st : at_step) : Prop := match st with Digits _ len => (len <= 5)%nat | Copy len pos _ => (len <= 5)%nat | Done _ => True end.
Lemma step_progress m st m' st' : within st -> one_step m st = (m', st') -> within st' /\ (left_over st' <= left_over st - 1)%nat.
Proof.
  destruct st as [rest len|len pos out|r]; cbn [one_step within]; intros W E.
  - change (N.to_nat MAX_PIV_LEN) with 5%nat in E. destruct (0 <? rest).
    + destruct (Nat.ltb_spec len 5); injection E as <- <-; cbn [within left_over]; lia.
    + destruct (Nat.eqb_spec len 0); injection E as <- <-; cbn [within left_over]; lia.
  - destruct (Nat.ltb_spec pos len); injection E as <- <-; cbn [within left_over]; lia.
  - injection E as <- <-. cbn [within left_over]. lia.
Qed.
Lemma turns_progress i sched : forall m sts m' sts' st, nth_error sts i = Some st -> within st -> turns sched m sts = (m', sts') ->
  exists st', nth_error sts' i = Some st' /\ (left_over st' <= left_over st - turns_of sched i)%nat.
Proof.
  induction sched as [|j r IH]; intros m sts m' sts' st EN W E; cbn [turns] in E.
  - injection E as <- <-. exists st. split; [exact EN|]. cbn. lia.
  - unfold turns_of in *. cbn [count_occ]. destruct (Nat.eq_dec j i) as [->|NE].
    + rewrite EN in E. destruct (one_step m st) as [m1 st1] eqn:ES. destruct (step_progress _ _ _ _ W ES) as [W1 L1].
      assert (LT : (i < length sts)%nat) by (apply nth_error_Some; congruence).
      destruct (IH _ _ _ _ st1 (set_nth_same sts i st1 LT) W1 E) as (st' & EN' & L'). exists st'. split; [exact EN'|]. lia.
    + destruct (nth_error sts j) as [stj|] eqn:EJ; [|apply (IH _ _ _ _ st EN W E)].
      destruct (one_step m stj) as [m1 st1]. apply (IH _ _ _ _ st) in E; [exact E| |exact W]. rewrite set_nth_other; [exact EN|exact NE].
Qed.

(** ** One call at a time *)
Fixpoint steps (k : nat) (m : tmp_array) (st : at_step) : tmp_array * at_step :=
  match k with O => (m, st) | S k' => let '(m', st') := one_step m st in steps k' m' st' end.
Lemma set_nth_twice {A} (l : list A) i x y : set_nth (set_nth l i x) i y = set_nth l i y.
Proof. revert i. induction l as [|a l IH]; intros [|i]; cbn; [reflexivity..|]. f_equal. apply IH. Qed.
Lemma set_nth_id {A} (l : list A) i x : nth_error l i = Some x -> set_nth l i x = l.
Proof. revert i. induction l as [|a l IH]; intros [|i] H; cbn in *; try discriminate; [congruence|]. f_equal. apply IH, H. Qed.
Lemma turns_app a b m sts : turns (a ++ b) m sts = let '(m', sts') := turns a m sts in turns b m' sts'.
Proof.
  revert m sts. induction a as [|i a IH]; intros m sts; [reflexivity|]. cbn [app turns].
  destruct (nth_error sts i); [|apply IH]. destruct (one_step m a0). apply IH.
Qed.
Lemma turns_repeat i k : forall m sts st, nth_error sts i = Some st ->
  turns (repeat i k) m sts = (fst (steps k m st), set_nth sts i (snd (steps k m st))).
Proof.
  induction k as [|k IH]; intros m sts st EN; cbn [repeat turns steps]; [cbn; rewrite set_nth_id; auto|].
  rewrite EN. destruct (one_step m st) as [m1 st1]. rewrite (IH m1 _ st1) by (apply set_nth_same; apply nth_error_Some; congruence).
  rewrite set_nth_twice. reflexivity.
Qed.
Lemma turns_not_in i sched : ~ In i sched -> forall m sts, nth_error (snd (turns sched m sts)) i = nth_error sts i.
Proof.
  induction sched as [|j r IH]; intros N m sts; [reflexivity|]. cbn [turns].
  assert (NJ : j <> i) by (intros ->; apply N; left; reflexivity). assert (NR : ~ In i r) by (intros X; apply N; right; exact X).
  destruct (nth_error sts j) as [st|]; [|apply IH, NR]. destruct (one_step m st). rewrite (IH NR). apply set_nth_other. exact NJ.
Qed.
Lemma steps_app a b m st : steps (a + b) m st = let '(m', st') := steps a m st in steps b m' st'.
Proof. revert m st. induction a as [|a IH]; intros m st; [reflexivity|]. cbn [Nat.add steps]. destruct (one_step m st). apply IH. Qed.

Lemma digits_steps room : forall rest len m l, ssn_digits room rest = Ok l -> (len + room = 5)%nat ->
  exists m', steps (length l) m (Digits rest len) = (m', Digits 0 (len + length l)) /\
    (forall j, m' j = if ((len <=? j) && (j <? len + length l))%nat then nth (j - len) l 0 else m j).
Proof.
  induction room as [|room IH]; intros rest len m l H L; cbn [ssn_digits] in H.
  - destruct (N.ltb_spec 0 rest); [discriminate|]. injection H as <-. exists m. cbn [length steps]. rewrite Nat.add_0_r.
    assert (rest = 0) as -> by lia. split; [reflexivity|]. intros j. destruct (Nat.leb_spec len j), (Nat.ltb_spec j len); cbn; try reflexivity; lia.
  - destruct (N.ltb_spec 0 rest) as [P|P].
    + apply bind_ok in H as (t & H & E). injection E as <-. cbn [length steps one_step].
      destruct (N.ltb_spec 0 rest); [|lia]. change (N.to_nat MAX_PIV_LEN) with 5%nat. destruct (Nat.ltb_spec len 5); [|lia].
      destruct (IH _ (S len) (tmp_set m len (u8 rest)) _ H ltac:(lia)) as (m' & -> & M).
      exists m'. split; [f_equal; f_equal; lia|]. intros j. rewrite M. unfold tmp_set.
      destruct (Nat.leb_spec (S len) j), (Nat.ltb_spec j (S len + length t)), (Nat.leb_spec len j), (Nat.ltb_spec j (len + S (length t))); cbn [andb]; try lia.
      * replace (j - len)%nat with (S (j - S len)) by lia. reflexivity.
      * destruct (Nat.eqb_spec j len); [lia|reflexivity].
      * destruct (Nat.eqb_spec j len); [|lia]. subst j. rewrite Nat.sub_diag. reflexivity.
      * destruct (Nat.eqb_spec j len); [lia|reflexivity].
    + injection H as <-. exists m. cbn [length steps]. rewrite Nat.add_0_r. assert (rest = 0) as -> by lia. split; [reflexivity|].
      intros j. destruct (Nat.leb_spec len j), (Nat.ltb_spec j len); cbn; try reflexivity; lia.
Qed.
Lemma copy_steps k : forall m len pos out, (pos + k = len)%nat ->
  steps (S k) m (Copy len pos out) = (m, Done (Ok (out ++ rev (map m (seq 0 k))))).
Proof.
  induction k as [|k IH]; intros m len pos out L; cbn [steps one_step].
  - destruct (Nat.ltb_spec pos len); [lia|]. cbn. rewrite app_nil_r. reflexivity.
  - destruct (Nat.ltb_spec pos len); [|lia]. specialize (IH m len (S pos) (out ++ [m (len - 1 - pos)%nat]) ltac:(lia)). cbn [steps] in IH. rewrite IH.
    rewrite <- app_assoc. do 4 f_equal. rewrite seq_S, map_app, rev_app_distr. cbn. f_equal. f_equal. lia.
Qed.

(** The digits are in the array, and the second loop begins. *)
Lemma first_half n l m : ssn_digits 5 n = Ok l -> l <> [] ->
  exists m', steps (S (length l)) m (Digits n 0) = (m', Copy (length l) 0 []) /\ map m' (seq 0 (length l)) = l.
Proof.
  intros H NE. destruct (digits_steps 5 n 0 m l H eq_refl) as (m' & E & M). exists m'.
  replace (S (length l)) with (length l + 1)%nat by lia. rewrite steps_app, E. cbn [steps one_step Nat.add].
  change (0 <? 0) with false. cbv iota. destruct (Nat.eqb_spec (length l) 0) as [Z|Z]; [destruct l; [congruence|discriminate]|].
  split; [reflexivity|]. apply nth_ext with (d := 0) (d' := 0); [rewrite map_length, seq_length; reflexivity|].
  intros j J. rewrite map_length, seq_length in J.
  rewrite (nth_indep _ 0 (m' 0%nat)) by (rewrite map_length, seq_length; exact J). rewrite map_nth, seq_nth by exact J. rewrite M.
  destruct (Nat.ltb_spec (0 + j) (0 + length l)); [|lia]. cbn [Nat.leb andb]. f_equal. lia.
Qed.

Lemma digits_of n : n < 2 ^ 40 -> exists l, ssn_digits 5 n = Ok l /\ (n = 0 <-> l = []) /\ (length l <= 5)%nat.
Proof.
  intros H. destruct (ssn_digits_ok 5 n) as (l & E & V & B & L & LA & NI).
  { change (256 ^ N.of_nat 5) with (2 ^ 40). exact H. }
  exists l. split; [exact E|]. split; [|exact L]. split; [intros ->; cbn in E; injection E as <-; reflexivity|].
  intros ->. cbn in V. congruence.
Qed.
Lemma at_start_small n : n < 2 ^ 40 -> at_start n = Digits n 0.
Proof. intros H. unfold at_start, MAX_PIV_FIELD_VALUE. change (2 ^ 40) with 1099511627776 in *. destruct (N.ltb_spec (1099511627776 - 1) n); [lia|reflexivity]. Qed.
Lemma ssn2piv_digits n l : n < 2 ^ 40 -> ssn_digits 5 n = Ok l -> ssn2piv n = Ok (match l with [] => [0] | _ => rev l end).
Proof.
  intros H E. unfold ssn2piv, MAX_PIV_FIELD_VALUE. change (2 ^ 40) with 1099511627776 in *. destruct (N.ltb_spec (1099511627776 - 1) n); [lia|].
  change (N.to_nat MAX_PIV_LEN) with 5%nat. rewrite E. destruct l; reflexivity.
Qed.
Lemma done_stays k m r : steps k m (Done r) = (m, Done r).
Proof. induction k; [reflexivity|]. cbn. exact IHk. Qed.

(** Alone, a call that returns gives what Model_OscorePrims.v says. *)
Lemma alone_steps n m : exists k m', steps k m (at_start n) = (m', Done (ssn2piv n)).
Proof.
  destruct (N.lt_ge_cases n (2 ^ 40)) as [L|L].
  - destruct (digits_of n L) as (l & E & Z & _). rewrite (at_start_small n L), (ssn2piv_digits n l L E). destruct l as [|b l].
    + assert (n = 0) as -> by tauto. exists 1%nat, m. reflexivity.
    + destruct (first_half n (b :: l) m E ltac:(discriminate)) as (m' & S1 & M). exists (S (length (b :: l)) + S (length (b :: l)))%nat, m'.
      rewrite steps_app, S1. rewrite (copy_steps (length (b :: l)) m' (length (b :: l)) 0 [] eq_refl), M. reflexivity.
  - exists 0%nat, m. unfold at_start, MAX_PIV_FIELD_VALUE. rewrite (ssn2piv_large n L). change (2 ^ 40) with 1099511627776 in *.
    destruct (N.ltb_spec (1099511627776 - 1) n); [reflexivity|lia].
Qed.
Lemma steps_det n m k m1 r : steps k m (at_start n) = (m1, Done r) -> r = ssn2piv n.
Proof.
  intros H. destruct (alone_steps n m) as (k' & m' & H'). destruct (Nat.le_ge_cases k k') as [L|L].
  - replace k' with (k + (k' - k))%nat in H' by lia. rewrite steps_app, H, done_stays in H'. congruence.
  - replace k with (k' + (k - k'))%nat in H by lia. rewrite steps_app, H', done_stays in H. congruence.
Qed.
Lemma undisturbed_right tmp ns sched i n r :
  nth_error ns i = Some n -> undisturbed sched i -> returned tmp ns sched i = Some r -> r = ssn2piv n.
Proof.
  intros EN (a & k & b & -> & NA & NB) E. unfold returned in E. rewrite turns_app in E.
  destruct (turns a tmp (map at_start ns)) as [m1 s1] eqn:E1. rewrite turns_app in E.
  assert (N1 : nth_error s1 i = Some (at_start n)).
  { pose proof (turns_not_in i a NA tmp (map at_start ns)) as X. rewrite E1 in X. cbn [snd] in X. rewrite X. apply map_nth_error, EN. }
  rewrite (turns_repeat i k m1 s1 _ N1) in E.
  rewrite (turns_not_in i b NB) in E. rewrite set_nth_same in E by (apply nth_error_Some; congruence).
  destruct (steps k m1 (at_start n)) as [m2 st2] eqn:ES. cbn [snd] in E. destruct st2 as [| |r2]; try discriminate. injection E as ->.
  apply (steps_det _ _ _ _ _ ES).
Qed.

(** ** The wrong number *)
Lemma width_digits a b la lb : a < 2 ^ 40 -> b < 2 ^ 40 -> same_width a b -> ssn_digits 5 a = Ok la -> ssn_digits 5 b = Ok lb -> length la = length lb.
Proof.
  intros HA HB SW EA EB.
  enough (K : forall room n l, ssn_digits room n = Ok l -> forall j, (j < length l)%nat <-> 256 ^ N.of_nat j <= n).
  { pose proof (K 5%nat a la EA) as KA. pose proof (K 5%nat b lb EB) as KB.
    destruct (Nat.lt_trichotomy (length la) (length lb)) as [X|[X|X]]; [|exact X|].
    - apply KB in X. apply SW in X. apply KA in X. lia.
    - apply KA in X. apply SW in X. apply KB in X. lia. }
  clear. induction room as [|room IH]; intros n l H j; cbn [ssn_digits] in H; pose proof (pow_pos j).
  - destruct (N.ltb_spec 0 n); [discriminate|]. injection H as <-. cbn. lia.
  - destruct (N.ltb_spec 0 n); [|injection H as <-; cbn; lia]. apply bind_ok in H as (t & H & E). injection E as <-. cbn [length].
    destruct j as [|j]; [change (N.of_nat 0) with 0; rewrite N.pow_0_r; lia|].
    rewrite pow_S, <- Nat.succ_lt_mono, (IH _ _ H j). pose proof (pow_pos j). split; intros X.
    + pose proof (N.mul_div_le n 256 ltac:(discriminate)). nia.
    + apply N.div_le_lower_bound; [discriminate|exact X].
Qed.

Lemma swapped tmp a b : 0 < a -> a < 2 ^ 40 -> b < 2 ^ 40 -> same_width a b ->
  exists sched, returned tmp [a; b] sched 0 = Some (ssn2piv b) /\ returned tmp [a; b] sched 1 = Some (ssn2piv b).
Proof.
  intros PA HA HB SW. destruct (digits_of a HA) as (la & EA & ZA & _). destruct (digits_of b HB) as (lb & EB & ZB & _).
  pose proof (width_digits a b la lb HA HB SW EA EB) as LL.
  assert (NA : la <> []) by (intros X; apply ZA in X; lia). assert (NB : lb <> []) by (intros ->; destruct la; [congruence|discriminate]).
  set (w := S (length lb)). exists (repeat 0%nat w ++ repeat 1%nat w ++ repeat 0%nat w ++ repeat 1%nat w).
  destruct (first_half a la tmp EA NA) as (m1 & S1 & _). destruct (first_half b lb m1 EB NB) as (m2 & S2 & M2).
  pose proof (copy_steps (length lb) m2 (length lb) 0 [] eq_refl) as S3. rewrite M2 in S3. cbn [app] in S3. fold w in S2, S3. rewrite LL in S1. fold w in S1.
  assert (T : turns (repeat 0%nat w ++ repeat 1%nat w ++ repeat 0%nat w ++ repeat 1%nat w) tmp (map at_start [a; b]) =
    (m2, [Done (ssn2piv b); Done (ssn2piv b)])).
  { cbn [map]. rewrite (at_start_small a HA), (at_start_small b HB), (ssn2piv_digits b lb HB EB).
    assert (R : match lb with [] => [0] | _ => rev lb end = rev lb) by (destruct lb; [congruence|reflexivity]). rewrite R.
    rewrite turns_app, (turns_repeat 0 w tmp [Digits a 0; Digits b 0] (Digits a 0) eq_refl), S1. cbn [fst snd set_nth].
    rewrite turns_app, (turns_repeat 1 w m1 [Copy (length lb) 0 []; Digits b 0] (Digits b 0) eq_refl), S2. cbn [fst snd set_nth].
    rewrite turns_app, (turns_repeat 0 w m2 [Copy (length lb) 0 []; Copy (length lb) 0 []] (Copy (length lb) 0 []) eq_refl), S3. cbn [fst snd set_nth].
    rewrite (turns_repeat 1 w m2 [Done (Ok (rev lb)); Copy (length lb) 0 []] (Copy (length lb) 0 []) eq_refl), S3. reflexivity. }
  unfold returned. rewrite T. split; reflexivity.
Qed.

(** ** Whole calls *)
Section Send.
Variable cr : crypto.

Lemma with_own_result nw c input buf : coap2oscore_with cr nw (ssn2piv (c_ssn c)) c input buf = coap2oscore cr nw c input buf.
Proof.
  unfold coap2oscore_with, coap2oscore.
  enough (E : coap2oscore_core_with cr nw (ssn2piv (c_ssn c)) c input = coap2oscore_core cr nw c input) by (rewrite E; reflexivity).
  unfold coap2oscore_core_with, coap2oscore_core. destruct (check_context_freshness c); cbn [tryc]; try reflexivity.
  destruct (coap_deserialize input) as [k| |]; cbn [tryc]; try reflexivity. destruct (_ && _); [reflexivity|].
  destruct (inner_outer_option_split k) as [[[e u] el]| |]; cbn [tryc]; try reflexivity.
  destruct (byte_array_new _ _); cbn [tryc]; try reflexivity.
  destruct (plaintext_setup _ _ _ _) as [pt| |]; cbn [tryc]; try reflexivity.
  destruct (byte_array_new MAX_CIPHERTEXT_LEN _); cbn [tryc]; try reflexivity.
  assert (W : forall s, c_ssn (s_ctx s) = c_ssn c -> encrypt_wrapper_with cr nw (ssn2piv (c_ssn c)) s pt k = encrypt_wrapper cr nw s pt k).
  { intros s E. unfold encrypt_wrapper_with, encrypt_wrapper. rewrite E. reflexivity. }
  destruct (c_echo c); [|destruct (cache_echo_val _ _ _) as [[b n]| |]; cbn [tryc callc]; try reflexivity|]; cbn [callc]; rewrite W; reflexivity.
Qed.

(** With the Partial IV of another number, a call does what it would do if that were its
    number, except for counting. *)
Lemma new_ssn_as_if nw s s' n2 : s_ctx s' = set_ssn (s_ctx s) n2 -> s_enc s = s_enc s' ->
  c_fresh (s_ctx s) = true \/ (forall v, nw v = Ok tt) ->
  let '(t, r) := generate_new_ssn nw s in let '(t', r') := generate_new_ssn nw s' in
  r = Ok tt /\ r' = Ok tt /\ s_enc t = s_enc t' /\
  s_ctx t = set_ssn (s_ctx s) (u64 (c_ssn (s_ctx s) + 1)) /\ s_ctx t' = set_ssn (s_ctx s) (u64 (n2 + 1)).
Proof.
  intros EC EE F. unfold generate_new_ssn. rewrite EC. cbn [set_ssn c_fresh c_ssn c_echo]. destruct (c_fresh (s_ctx s)) eqn:EF.
  - cbn. auto.
  - destruct F as [F|F]; [discriminate|]. destruct (ssn_store_in_nvm _ _), (ssn_store_in_nvm (u64 (n2 + 1)) _); rewrite ?F; cbn; auto.
Qed.

Lemma encrypt_as_if nw s s' pt k n2 : s_ctx s' = set_ssn (s_ctx s) n2 -> s_enc s = s_enc s' ->
  c_fresh (s_ctx s) = true \/ (forall v, nw v = Ok tt) ->
  let '(t, r) := encrypt_wrapper_with cr nw (ssn2piv n2) s pt k in let '(t', r') := encrypt_wrapper cr nw s' pt k in
  r = r' /\ s_enc t = s_enc t' /\ (exists x, s_ctx t' = set_ssn (s_ctx t) x) /\
  (forall y, r = Ok y -> uses_new_piv (s_ctx s) k = true -> c_ssn (s_ctx t) = u64 (c_ssn (s_ctx s) + 1)).
Proof.
  intros EC EE F. unfold encrypt_wrapper_with, encrypt_wrapper, uses_new_piv. pose proof (new_ssn_as_if nw s s' n2 EC EE F) as G.
  rewrite EC. cbn [set_ssn c_echo c_ssn]. destruct (needs_new_piv _ _).
  - destruct (ssn2piv n2) as [piv|e|u]; cbn [tryc callc]; [|rewrite EC; repeat split; eauto; discriminate..].
    destruct (generate_new_ssn nw s) as [t r], (generate_new_ssn nw s') as [t' r']. destruct G as (-> & -> & E1 & E2 & E3). cbn [callc].
    assert (E4 : s_ctx t' = set_ssn (s_ctx t) (u64 (n2 + 1))) by (rewrite E2, E3; reflexivity). rewrite E4. cbn [set_ssn c_sid c_iv c_id_context].
    destruct (create_nonce _ _ _) as [nonce|e|u]; cbn [tryc callc]; [|rewrite E4; repeat split; eauto; discriminate..]. rewrite E4. cbn [set_ssn c_inter c_alg c_skey].
    destruct (oscore_option_generate _ _ _) as [opt|e|u]; cbn [tryc]; [|rewrite E4; repeat split; eauto; discriminate..].
    destruct (read_wrapper _ _ _ _) as [[rp rk]|e|u]; cbn [tryc]; [|rewrite E4; repeat split; eauto; discriminate..].
    destruct (create_aad _ _ _ _) as [aad|e|u]; cbn [tryc]; [|rewrite E4; repeat split; eauto; discriminate..].
    destruct (oscore_cose_encrypt _ _ _ _ _) as [ct|e|u]; cbn [tryc]; [|rewrite E4; repeat split; eauto; discriminate..].
    destruct (uri_path_create _ _) as [uri|e|u]; cbn [tryc];
      [|cbn [s_ctx s_enc set_nonce c_ssn]; repeat split; try (eexists; reflexivity); discriminate..].
    cbn [s_ctx s_enc set_nonce c_inter]. destruct (update_wrapper _ _ _ _ _ _) as [tb|e|u]; cbn [tryc s_ctx s_enc s_set];
      [|repeat split; try (eexists; reflexivity); discriminate..].
    split; [reflexivity|]. split; [reflexivity|]. split; [eexists; reflexivity|]. intros _ _ _. cbn [set_inter set_nonce c_ssn]. rewrite E2. reflexivity.
  - cbn [callc]. rewrite EC. cbn [set_ssn c_inter c_alg c_skey c_nonce].
    destruct (oscore_option_generate _ _ _) as [opt|e|u]; cbn [tryc]; [|rewrite EC; repeat split; eauto; discriminate..].
    destruct (read_wrapper _ _ _ _) as [[rp rk]|e|u]; cbn [tryc]; [|rewrite EC; repeat split; eauto; discriminate..].
    destruct (create_aad _ _ _ _) as [aad|e|u]; cbn [tryc]; [|rewrite EC; repeat split; eauto; discriminate..].
    destruct (oscore_cose_encrypt _ _ _ _ _) as [ct|e|u]; cbn [tryc]; [|rewrite EC; repeat split; eauto; discriminate..].
    destruct (uri_path_create _ _) as [uri|e|u]; cbn [tryc];
      [|cbn [s_ctx s_enc set_nonce c_ssn]; repeat split; try (eexists; reflexivity); discriminate..].
    cbn [s_ctx s_enc c_inter]. destruct (update_wrapper _ _ _ _ _ _) as [tb|e|u]; cbn [tryc s_ctx s_enc s_set];
      [|repeat split; try (eexists; reflexivity); discriminate..].
    split; [reflexivity|]. split; [reflexivity|]. split; [eexists; reflexivity|]. discriminate.
Qed.

Lemma send_as_if nw c input buf n2 :
  c_ssn c < OSCORE_SSN_OVERFLOW_VALUE -> n2 < OSCORE_SSN_OVERFLOW_VALUE -> c_fresh c = true \/ (forall v, nw v = Ok tt) ->
  let '(t, b, r) := coap2oscore_with cr nw (ssn2piv n2) c input buf in let '(t', b', r') := coap2oscore cr nw (set_ssn c n2) input buf in
  b = b' /\ r = r' /\ s_enc t = s_enc t' /\ (exists x, s_ctx t' = set_ssn (s_ctx t) x) /\
  (forall n k, r = Ok n -> s_enc t <> None -> coap_deserialize input = Ok k -> uses_new_piv c k = true -> c_ssn (s_ctx t) = u64 (c_ssn c + 1)).
Proof.
  intros L1 L2 F.
  enough (E : let '(t, r) := coap2oscore_core_with cr nw (ssn2piv n2) c input in let '(t', r') := coap2oscore_core cr nw (set_ssn c n2) input in
    r = r' /\ s_enc t = s_enc t' /\ (exists x, s_ctx t' = set_ssn (s_ctx t) x) /\
    (forall y k, r = Ok y -> s_enc t <> None -> coap_deserialize input = Ok k -> uses_new_piv c k = true -> c_ssn (s_ctx t) = u64 (c_ssn c + 1))).
  { unfold coap2oscore_with, coap2oscore. destruct (coap2oscore_core_with _ _ _ _ _) as [t r], (coap2oscore_core _ _ _ _) as [t' r'].
    destruct E as (<- & E1 & E2 & E3). destruct r as [[out|w]|e|u].
    - destruct (coap_serialize out (lenN buf)) as [w [x|e|u]]; repeat split; eauto; discriminate.
    - destruct (_ <? _); repeat split; eauto; discriminate.
    - repeat split; eauto; discriminate.
    - repeat split; eauto; discriminate. }
  unfold coap2oscore_core_with, coap2oscore_core.
  assert (C1 : check_context_freshness c = Ok tt). { unfold check_context_freshness. destruct (N.leb_spec OSCORE_SSN_OVERFLOW_VALUE (c_ssn c)); [lia|reflexivity]. }
  assert (C2 : check_context_freshness (set_ssn c n2) = Ok tt).
  { unfold check_context_freshness. cbn [set_ssn c_ssn]. destruct (N.leb_spec OSCORE_SSN_OVERFLOW_VALUE n2); [lia|reflexivity]. }
  rewrite C1, C2. cbn [tryc].
  assert (TRIV : forall (A : Type) (r : res A) (P : A -> cpkt -> Prop), r = r /\ s_enc (s0 c) = s_enc (s0 (set_ssn c n2)) /\ (exists x, s_ctx (s0 (set_ssn c n2)) = set_ssn (s_ctx (s0 c)) x) /\
    (forall y k, r = Ok y -> s_enc (s0 c) <> None -> coap_deserialize input = Ok k -> uses_new_piv c k = true -> c_ssn (s_ctx (s0 c)) = u64 (c_ssn c + 1))).
  { intros. split; [reflexivity|]. split; [reflexivity|]. split; [eexists; reflexivity|]. intros ? ? _ X. destruct X. reflexivity. }
  destruct (coap_deserialize input) as [k| |] eqn:EK; cbn [tryc]; try (apply TRIV; exact (fun _ _ => True)).
  destruct (_ && _); [apply TRIV; exact (fun _ _ => True)|].
  destruct (inner_outer_option_split k) as [[[e u] el]| |]; cbn [tryc]; try (apply TRIV; exact (fun _ _ => True)).
  destruct (byte_array_new _ _); cbn [tryc]; try (apply TRIV; exact (fun _ _ => True)).
  destruct (plaintext_setup _ _ _ _) as [pt| |]; cbn [tryc]; try (apply TRIV; exact (fun _ _ => True)).
  destruct (byte_array_new MAX_CIPHERTEXT_LEN _); cbn [tryc]; try (apply TRIV; exact (fun _ _ => True)).
  assert (W : forall s s', s_ctx s' = set_ssn (s_ctx s) n2 -> s_enc s = None -> s_enc s' = None -> c_fresh (s_ctx s) = c_fresh c -> c_ssn (s_ctx s) = c_ssn c -> c_echo (s_ctx s) = c_echo c ->
    let '(t, r) := callc (encrypt_wrapper_with cr nw (ssn2piv n2) s pt k) (fun s2 '(ct, opt) => try s2 let out := oscore_pkg_generate k u ct opt in (s2, Ok (inl out : cpkt + bytes))) in
    let '(t', r') := callc (encrypt_wrapper cr nw s' pt k) (fun s2 '(ct, opt) => try s2 let out := oscore_pkg_generate k u ct opt in (s2, Ok (inl out : cpkt + bytes))) in
    r = r' /\ s_enc t = s_enc t' /\ (exists x, s_ctx t' = set_ssn (s_ctx t) x) /\
    (forall y k0, r = Ok y -> s_enc t <> None -> Ok k = Ok k0 -> uses_new_piv c k0 = true -> c_ssn (s_ctx t) = u64 (c_ssn c + 1))).
  { intros s s' E1 E2 E3 E4 E5 E6. rewrite <- E4 in F. pose proof (encrypt_as_if nw s s' pt k n2 E1 ltac:(congruence) F) as X.
    destruct (encrypt_wrapper_with cr nw (ssn2piv n2) s pt k) as [t r], (encrypt_wrapper cr nw s' pt k) as [t' r']. destruct X as (<- & X1 & X2 & X3).
    destruct r as [[ct opt]|er|ur]; cbn [callc]; [|repeat split; eauto; discriminate..].
    assert (X4 : uses_new_piv c k = true -> c_ssn (s_ctx t) = u64 (c_ssn c + 1)).
    { intros Y. rewrite <- E5. apply (X3 _ eq_refl). unfold uses_new_piv in *. rewrite E6. exact Y. }
    destruct (oscore_pkg_generate _ _ _ _) as [out|er|ur]; cbn [tryc]; [|repeat split; eauto; discriminate..].
    split; [reflexivity|]. split; [exact X1|]. split; [exact X2|]. intros y k0 _ _ Y. injection Y as <-. exact X4. }
  cbn [set_ssn c_echo c_echo_buf c_echo_len]. destruct (c_echo c) eqn:EE.
  - apply (W (s0 c) (s0 (set_ssn c n2))); reflexivity || exact EE.
  - destruct (cache_echo_val _ _ _) as [[b n]|er|ur]; cbn [tryc callc]; try (apply TRIV; exact (fun _ _ => True)).
    apply W; reflexivity || exact EE.
  - apply (W (s0 c) (s0 (set_ssn c n2))); reflexivity || exact EE.
Qed.
End Send.
