From Verif Require Import Base Proof_Base Model_Replay Spec_Replay.
From Coq Require Import Sorted FinFun.

Definition wlt (a b : N) : Prop := a < b \/ (a = 0 /\ b = 0).

Lemma rw_insert_spec n a t :
  StronglySorted wlt (a :: t) -> a < n -> ~ In n t ->
  exists pre post, t = pre ++ post /\
    rw_insert n (a :: t) (rw_find_slot n (a :: t)) = pre ++ n :: post /\
    Forall (fun x => x < n) pre /\ Forall (fun x => n < x) post.
Proof.
  revert a. induction t as [|b t IH]; intros a HS Ha Hn.
  - exists [], []. cbn. repeat split; constructor.
  - apply StronglySorted_inv in HS as [HS HF].
    change (rw_find_slot n (a :: b :: t)) with
      (if (a <? n) && (n <? b) then O else S (rw_find_slot n (b :: t))).
    destruct (N.ltb_spec a n) as [Han|]; [|lia].
    destruct (N.ltb_spec n b) as [Hnb|Hnb]; cbn [andb].
    + exists [], (b :: t). cbn. repeat split; [constructor|].
      constructor; [assumption|].
      apply StronglySorted_inv in HS as [_ HF'].
      eapply Forall_impl; [|exact HF']. unfold wlt. cbn. intros; lia.
    + assert (b < n) as Hb by (assert (b <> n) by (intros ->; apply Hn; left; reflexivity); lia).
      destruct (IH b HS Hb) as (pre & post & -> & Hins & Hpre & Hpost).
      { intros Hc. apply Hn. right. exact Hc. }
      exists (b :: pre), post. repeat split; try assumption.
      * unfold rw_insert in *. cbn [skipn firstn app] in *.
        rewrite Hins. reflexivity.
      * constructor; assumption.
Qed.

Lemma SS_app_insert pre post n :
  StronglySorted wlt (pre ++ post) ->
  Forall (fun x => x < n) pre -> Forall (fun x => n < x) post ->
  StronglySorted wlt (pre ++ n :: post).
Proof.
  induction pre as [|a pre IH]; cbn [app]; intros HS Hpre Hpost.
  - constructor; [assumption|]. eapply Forall_impl; [|exact Hpost]. intros; left; assumption.
  - inversion Hpre as [|? ? Hpa Hpt]; subst. apply StronglySorted_inv in HS as [HS HF].
    constructor; [apply IH; assumption|].
    apply Forall_app in HF as [HF1 HF2]. apply Forall_app. split; [assumption|].
    constructor; [left; assumption|assumption].
Qed.

(** Relation between the concrete window and the history of accepted numbers. *)
Record Inv (H : list N) (w : rwin) : Prop := {
  inv_len : length (rw_window w) = WINDOW_SIZE;
  inv_zero : rw_zero w = true <-> In 0 H;
  inv_sorted : StronglySorted wlt (rw_window w);
  inv_in : forall x, In x (rw_window w) -> x <> 0 -> In x H;
  inv_cover : forall x, In x H -> x <> 0 -> In x (rw_window w) \/ x < nth 0 (rw_window w) 0;
  inv_nodup : NoDup H }.

Lemma existsb_eqb_In n l : existsb (fun x => n =? x) l = true <-> In n l.
Proof.
  rewrite existsb_exists. split.
  - intros (x & Hx & E). apply N.eqb_eq in E. subst. exact Hx.
  - intros Hin. exists n. split; [exact Hin|apply N.eqb_refl].
Qed.

Lemma existsb_eqb_notIn n l : existsb (fun x => n =? x) l = false <-> ~ In n l.
Proof. rewrite <- existsb_eqb_In. destruct (existsb _ _); split; congruence. Qed.

Lemma filter_len_le (H t : list N) n :
  NoDup H -> (forall x, In x H -> n < x -> In x t) ->
  (length (filter (fun m => (n <? m)%N) H) <= length t)%nat.
Proof.
  intros ND Hc. apply NoDup_incl_length; [apply NoDup_filter; assumption|].
  intros x Hx. apply filter_In in Hx as [Hx Hgt]. apply Hc; [assumption|lia].
Qed.

Lemma sorted_hd a t x : StronglySorted wlt (a :: t) -> In x t -> wlt a x.
Proof.
  intros HS Hx. apply StronglySorted_inv in HS as [_ HF].
  rewrite Forall_forall in HF. apply HF; assumption.
Qed.

Lemma sorted_NoDup_pos l : StronglySorted wlt l -> Forall (fun x => 0 < x) l -> NoDup l.
Proof.
  induction l as [|a t IH]; intros HS HF; constructor.
  - intros Hin. inversion HF; subst. pose proof (sorted_hd a t a HS Hin) as Hw.
    unfold wlt in Hw. lia.
  - apply IH; [apply StronglySorted_inv in HS; tauto|inversion HF; assumption].
Qed.

Lemma sorted_last l x d :
  StronglySorted wlt l -> In x l -> x <= nth (length l - 1) l d.
Proof.
  revert x. induction l as [|a t IH]; intros x HS Hin; [destruct Hin|].
  destruct t as [|b t].
  - destruct Hin as [->|[]]. cbn. lia.
  - replace (length (a :: b :: t) - 1)%nat with (S (length (b :: t) - 1)) by (cbn; lia).
    change (nth (S (length (b :: t) - 1)) (a :: b :: t) d)
      with (nth (length (b :: t) - 1) (b :: t) d).
    pose proof (StronglySorted_inv HS) as [HS' _].
    destruct Hin as [->|Hin].
    + pose proof (sorted_hd x (b :: t) b HS (or_introl eq_refl)) as Hw.
      specialize (IH b HS' (or_introl eq_refl)). unfold wlt in Hw. lia.
    + apply IH; assumption.
Qed.

Lemma valid_matches_spec H w n : Inv H w -> rw_valid n w = spec_accepts WINDOW_SIZE H n.
Proof.
  intros [Hlen Hz HS Hin Hcov HND].
  destruct w as [win zf]; cbn [rw_window rw_zero] in *.
  destruct win as [|a t]; [discriminate Hlen|]. cbn [nth] in Hcov.
  assert (Hlt : length t = 31%nat) by (unfold WINDOW_SIZE in Hlen; cbn in Hlen; lia).
  unfold rw_valid, spec_accepts. cbn [rw_window rw_zero].
  change (nth 0 (a :: t) 0) with a.
  assert (Hcount : a <= n -> (larger_accepted H n < 32)%nat).
  { intros Han. unfold larger_accepted.
    enough (length (filter (fun m => (n <? m)%N) H) <= length t)%nat by lia.
    apply filter_len_le; [assumption|]. intros x Hx Hnx.
    destruct (Hcov x Hx ltac:(lia)) as [[->|Hx']|Hx']; [lia|exact Hx'|lia]. }
  assert (Hfull : n < a -> (32 <= larger_accepted H n)%nat).
  { intros Hna. unfold larger_accepted.
    assert (HF : Forall (fun x => 0 < x) (a :: t)).
    { apply Forall_forall. intros x [->|Hx]; [lia|].
      pose proof (sorted_hd a t x HS Hx) as Hw. unfold wlt in Hw. lia. }
    pose proof (sorted_NoDup_pos _ HS HF) as HNw.
    assert (Hle : (length (a :: t) <= length (filter (fun m => (n <? m)%N) H))%nat).
    { apply NoDup_incl_length; [assumption|]. intros x Hx. apply filter_In.
      rewrite Forall_forall in HF. specialize (HF x Hx).
      split; [apply Hin; [assumption|lia]|].
      destruct Hx as [->|Hx]; [lia|].
      pose proof (sorted_hd a t x HS Hx) as Hw. unfold wlt in Hw. lia. }
    cbn [length] in Hle. lia. }
  destruct (N.eqb_spec 0 n) as [<-|Hn0].
  - (* zero *)
    destruct (existsb (N.eqb 0) H) eqn:E; cbn [negb andb].
    + apply existsb_eqb_In in E. apply Hz in E. rewrite E. reflexivity.
    + apply existsb_eqb_notIn in E. destruct zf; [exfalso; apply E, Hz; reflexivity|].
      cbn [negb andb]. unfold WINDOW_SIZE.
      destruct (N.eqb_spec 0 a) as [<-|Ha].
      * symmetry. apply Nat.ltb_lt. apply Hcount. lia.
      * symmetry. apply Nat.ltb_ge. apply Hfull. lia.
  - destruct (N.ltb_spec (nth (WINDOW_SIZE - 1) (a :: t) 0) n) as [Hlast|Hlast].
    + assert (Ha : a <= n).
      { pose proof (sorted_last (a :: t) a 0 HS (or_introl eq_refl)) as Hl.
        rewrite Hlen in Hl. lia. }
      assert (HnH : ~ In n H).
      { intros Hc. destruct (Hcov n Hc ltac:(lia)) as [Hc'|Hc']; [|lia].
        pose proof (sorted_last (a :: t) n 0 HS Hc') as Hl. rewrite Hlen in Hl. lia. }
      apply existsb_eqb_notIn in HnH. change (N.eqb n) with (fun x => n =? x).
      rewrite HnH. cbn [negb andb].
      symmetry. apply Nat.ltb_lt. apply Hcount. exact Ha.
    + destruct (N.ltb_spec n a) as [Hna|Hna].
      * symmetry. apply andb_false_iff. right. apply Nat.ltb_ge. apply Hfull. exact Hna.
      * assert (Hiff : In n (a :: t) <-> In n H).
        { split; intros Hx; [apply Hin; [assumption|lia]|].
          destruct (Hcov n Hx ltac:(lia)); [assumption|lia]. }
        replace (Nat.ltb (larger_accepted H n) WINDOW_SIZE) with true
          by (symmetry; apply Nat.ltb_lt; apply Hcount; exact Hna).
        rewrite andb_true_r. f_equal.
        destruct (existsb (fun x => n =? x) (a :: t)) eqn:E1;
        destruct (existsb (N.eqb n) H) eqn:E2; try reflexivity; exfalso.
        -- apply existsb_eqb_In in E1. apply existsb_eqb_notIn in E2. tauto.
        -- apply existsb_eqb_In in E2. apply existsb_eqb_notIn in E1. tauto.
Qed.

Lemma update_inv H w n :
  Inv H w -> rw_valid n w = true -> Inv (n :: H) (snd (rw_update n w)).
Proof.
  intros HI Hv. pose proof (valid_matches_spec H w n HI) as Hspec.
  rewrite Hv in Hspec. symmetry in Hspec. unfold spec_accepts in Hspec.
  apply andb_true_iff in Hspec as [HnH Hcnt].
  apply negb_true_iff, existsb_eqb_notIn in HnH.
  unfold rw_update. rewrite Hv. cbn [negb].
  destruct HI as [Hlen Hz HS Hin Hcov HND].
  destruct (N.eqb_spec n 0) as [->|Hn0]; cbn [snd].
  - constructor; cbn [rw_window rw_zero]; try assumption.
    + split; intros; [left; reflexivity|reflexivity].
    + intros x Hx Hx0. right. apply Hin; assumption.
    + intros x [<-|Hx] Hx0; [congruence|apply Hcov; assumption].
    + constructor; assumption.
  - destruct w as [win zf]; cbn [rw_window rw_zero] in *.
    destruct win as [|a t]; [discriminate Hlen|]. cbn [nth] in Hcov.
    assert (Han : a < n).
    { unfold rw_valid in Hv. cbn [rw_window rw_zero] in Hv.
      change (nth 0 (a :: t) 0) with a in Hv.
      destruct (N.eqb_spec 0 n); [lia|].
      destruct (N.ltb_spec (nth (WINDOW_SIZE - 1) (a :: t) 0) n) as [Hlast|Hlast].
      - pose proof (sorted_last (a :: t) a 0 HS (or_introl eq_refl)) as Hl.
        rewrite Hlen in Hl. lia.
      - destruct (N.ltb_spec n a) as [Hna|Hna]; [discriminate|].
        apply negb_true_iff, existsb_eqb_notIn in Hv.
        assert (a <> n) by (intros ->; apply Hv; left; reflexivity). lia. }
    assert (Hnt : ~ In n t).
    { intros Hc. apply HnH. apply Hin; [right; exact Hc|exact Hn0]. }
    destruct (rw_insert_spec n a t HS Han Hnt) as (pre & post & -> & -> & Hpre & Hpost).
    pose proof (StronglySorted_inv HS) as [HS' HF].
    pose proof (SS_app_insert pre post n HS' Hpre Hpost) as HSn.
    constructor; cbn [rw_window rw_zero].
    + rewrite app_length in *. cbn [length] in *. rewrite app_length in Hlen. lia.
    + rewrite Hz. cbn [In]. intuition congruence.
    + exact HSn.
    + intros x Hx Hx0. apply in_app_or in Hx as [Hx|[<-|Hx]].
      * right. apply Hin; [right; apply in_or_app; left; exact Hx|exact Hx0].
      * left; reflexivity.
      * right. apply Hin; [right; apply in_or_app; right; exact Hx|exact Hx0].
    + intros x [<-|Hx] Hx0.
      * left. apply in_or_app. right. left. reflexivity.
      * assert (Hhd : a < nth 0 (pre ++ n :: post) 0 \/ pre <> []).
        { destruct pre; [left; exact Han|right; discriminate]. }
        destruct (Hcov x Hx Hx0) as [[->|Hx']|Hx'].
        -- destruct Hhd as [Hhd|Hhd]; [right; exact Hhd|].
           destruct pre as [|p pre]; [congruence|].
           right. cbn [app nth]. pose proof (sorted_hd x ((p :: pre) ++ post) p HS (or_introl eq_refl)) as Hw.
           unfold wlt in Hw. lia.
        -- left. apply in_app_or in Hx' as [?|?]; apply in_or_app; [left|right; right]; assumption.
        -- right. destruct Hhd as [Hhd|Hhd]; [lia|].
           destruct pre as [|p pre]; [congruence|]. cbn [app nth].
           pose proof (sorted_hd a ((p :: pre) ++ post) p HS (or_introl eq_refl)) as Hw.
           unfold wlt in Hw. lia.
    + constructor; assumption.
Qed.

Lemma run_matches_spec ns : forall H w, Inv H w -> fst (rw_run w ns) = spec_run WINDOW_SIZE H ns.
Proof.
  induction ns as [|n ns IH]; intros H w HI; [reflexivity|].
  cbn [rw_run spec_run]. unfold rw_present. rewrite <- (valid_matches_spec H w n HI).
  destruct (rw_valid n w) eqn:Hv.
  - pose proof (update_inv H w n HI Hv) as HI'. specialize (IH _ _ HI').
    destruct (rw_run (snd (rw_update n w)) ns). cbn [fst] in *. congruence.
  - specialize (IH _ _ HI). destruct (rw_run w ns). cbn [fst] in *. congruence.
Qed.

Lemma repeat_sorted k : StronglySorted wlt (repeat 0 k).
Proof.
  induction k; cbn; constructor; [assumption|].
  apply Forall_forall. intros x Hx. apply repeat_spec in Hx. subst. right. auto.
Qed.

Lemma init_inv : Inv [] rw_init.
Proof.
  constructor; cbn [rw_window rw_zero rw_init].
  - reflexivity.
  - split; [discriminate|intros []].
  - apply repeat_sorted.
  - intros x Hx Hx0. apply repeat_spec in Hx. congruence.
  - intros x [].
  - constructor.
Qed.

(** Closed form of the re-initialised window. *)
Lemma reinit_vals_nth k : forall c i, (i < k)%nat -> nth i (rw_reinit_vals k c) 0 = c - N.of_nat i.
Proof.
  induction k as [|k IH]; intros c i Hi; [lia|].
  destruct i as [|i]; cbn [rw_reinit_vals nth]; [lia|].
  rewrite IH by lia. destruct (N.ltb_spec 0 c); lia.
Qed.

Lemma reinit_vals_len k : forall c, length (rw_reinit_vals k c) = k.
Proof. induction k; intros; cbn [rw_reinit_vals length]; congruence. Qed.

Lemma reinit_vals_in k : forall c x, In x (rw_reinit_vals k c) -> x <= c.
Proof.
  induction k as [|k IH]; intros c x; cbn [rw_reinit_vals In]; [tauto|].
  intros [<-|Hx]; [lia|]. apply IH in Hx. destruct (N.ltb_spec 0 c); lia.
Qed.

Lemma SS_snoc l x : StronglySorted wlt l -> Forall (fun y => wlt y x) l -> StronglySorted wlt (l ++ [x]).
Proof.
  induction l as [|a l IH]; cbn [app]; intros HS HF; [constructor; constructor|].
  inversion HF; subst. apply StronglySorted_inv in HS as [HS HF'].
  constructor; [apply IH; assumption|]. apply Forall_app. split; [assumption|].
  constructor; [assumption|constructor].
Qed.

Lemma reinit_sorted k : forall c, StronglySorted wlt (rev (rw_reinit_vals k c)).
Proof.
  induction k as [|k IH]; intros c; cbn [rw_reinit_vals rev]; [constructor|].
  apply SS_snoc; [apply IH|]. apply Forall_forall. intros x Hx.
  apply in_rev in Hx. apply reinit_vals_in in Hx. unfold wlt.
  destruct (N.ltb_spec 0 c); lia.
Qed.

Lemma upto_In c x : In x (upto c) <-> x <= c.
Proof.
  unfold upto. rewrite in_map_iff. split.
  - intros (k & <- & Hk). apply in_seq in Hk. lia.
  - intros Hx. exists (N.to_nat x). split; [lia|]. apply in_seq. lia.
Qed.

Lemma upto_NoDup c : NoDup (upto c).
Proof.
  unfold upto. apply Injective_map_NoDup; [|apply seq_NoDup].
  intros a b. lia.
Qed.

Lemma reinit_inv c : Inv (upto c) (rw_reinit c).
Proof.
  constructor; cbn [rw_window rw_zero rw_reinit].
  - rewrite rev_length. apply reinit_vals_len.
  - split; [|reflexivity]. intros _. apply upto_In. lia.
  - apply reinit_sorted.
  - intros x Hx _. apply in_rev in Hx. apply reinit_vals_in in Hx. apply upto_In. exact Hx.
  - intros x Hx Hx0. apply upto_In in Hx.
    destruct (N.le_gt_cases 32 (c - x + 1)) as [Hfar|Hnear].
    + destruct (N.eqb_spec (c - x) 31) as [E|E].
      * left. apply -> in_rev.
        replace x with (nth 31 (rw_reinit_vals WINDOW_SIZE c) 0)
          by (rewrite reinit_vals_nth by (unfold WINDOW_SIZE; lia); lia).
        apply nth_In. rewrite reinit_vals_len. unfold WINDOW_SIZE; lia.
      * right. rewrite rev_nth by (rewrite reinit_vals_len; unfold WINDOW_SIZE; lia).
        rewrite reinit_vals_len. unfold WINDOW_SIZE.
        rewrite reinit_vals_nth by lia. lia.
    + left. apply -> in_rev.
      replace x with (nth (N.to_nat (c - x)) (rw_reinit_vals WINDOW_SIZE c) 0)
        by (rewrite reinit_vals_nth by (unfold WINDOW_SIZE; lia); lia).
      apply nth_In. rewrite reinit_vals_len. unfold WINDOW_SIZE; lia.
  - apply upto_NoDup.
Qed.

(** Accepted numbers under the specification are new and pairwise different. *)
Lemma spec_run_accepted W ns : forall H,
  NoDup (accepted ns (spec_run W H ns)) /\
  forall x, In x (accepted ns (spec_run W H ns)) -> ~ In x H.
Proof.
  induction ns as [|n ns IH]; intros H; cbn [spec_run accepted]; [split; [constructor|intros x []]|].
  destruct (spec_accepts W H n) eqn:E; cbn [accepted].
  - unfold spec_accepts in E. apply andb_true_iff in E as [E _].
    apply negb_true_iff, existsb_eqb_notIn in E.
    destruct (IH (n :: H)) as [IH1 IH2]. split.
    + constructor; [|assumption]. intros Hc. apply (IH2 _ Hc). left. reflexivity.
    + intros x [<-|Hx]; [assumption|]. intros Hc. apply (IH2 _ Hx). right. exact Hc.
  - apply IH.
Qed.

Lemma no_double_accept ns : NoDup (accepted ns (fst (rw_run rw_init ns))).
Proof. rewrite (run_matches_spec ns [] rw_init init_inv). apply spec_run_accepted. Qed.

Lemma no_double_accept_reinit c ns :
  NoDup (accepted ns (fst (rw_run (rw_reinit c) ns))) /\
  forall x, In x (accepted ns (fst (rw_run (rw_reinit c) ns))) -> c < x.
Proof.
  rewrite (run_matches_spec ns _ _ (reinit_inv c)).
  destruct (spec_run_accepted WINDOW_SIZE ns (upto c)) as [H1 H2]. split; [exact H1|].
  intros x Hx. specialize (H2 x Hx). rewrite upto_In in H2. lia.
Qed.

Lemma reinit_accepts_newer c n : c < n -> rw_valid n (rw_reinit c) = true.
Proof.
  intros Hn. rewrite (valid_matches_spec _ _ n (reinit_inv c)).
  unfold spec_accepts. apply andb_true_iff. split.
  - apply negb_true_iff, existsb_eqb_notIn. rewrite upto_In. lia.
  - apply Nat.ltb_lt. unfold larger_accepted.
    replace (filter (fun m => n <? m) (upto c)) with (@nil N); [unfold WINDOW_SIZE; cbn; lia|].
    symmetry. destruct (filter (fun m => n <? m) (upto c)) as [|y l] eqn:E; [reflexivity|].
    assert (Hy : In y (filter (fun m => n <? m) (upto c))) by (rewrite E; left; reflexivity).
    apply filter_In in Hy as [Hy1 Hy2]. apply upto_In in Hy1. lia.
Qed.

(** The second validity check inside [rw_update] never contradicts the first,
    and a rejected number changes nothing. *)
Lemma update_fst n w : fst (rw_update n w) = rw_valid n w.
Proof.
  unfold rw_update. destruct (rw_valid n w); cbn [negb]; [|reflexivity].
  destruct (n =? 0); reflexivity.
Qed.

Lemma update_rejected n w : rw_valid n w = false -> rw_update n w = (false, w).
Proof. unfold rw_update. intros ->. reflexivity. Qed.
