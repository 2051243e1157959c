(** Lemmas about the interaction table. *)
From Verif Require Import Base Proof_Base Model_Common Model_OscorePrims Model_Coap
  Model_Interactions Spec_Interactions.

Lemma msg_type_eqb_eq a b : msg_type_eqb a b = true <-> a = b.
Proof. destruct a, b; cbn; split; congruence. Qed.

Lemma compare_memory_eq a b : compare_memory a b = true <-> a = b.
Proof.
  unfold compare_memory. rewrite andb_true_iff, N.eqb_eq, beqb_eq. split; [tauto|]. intros ->. auto.
Qed.

Lemma find_index_le {A} (f : A -> bool) l : (find_index f l <= length l)%nat.
Proof. induction l as [|x l IH]; cbn; [lia|]. destruct (f x); lia. Qed.

Lemma find_index_found {A} (f : A -> bool) l :
  (find_index f l < length l)%nat ->
  exists x, nth_error l (find_index f l) = Some x /\ f x = true.
Proof.
  induction l as [|x l IH]; cbn; [lia|]. destruct (f x) eqn:E; cbn; [eauto|].
  intros H. apply IH. lia.
Qed.

Lemma find_index_none {A} (f : A -> bool) l :
  find_index f l = length l <-> forall x, In x l -> f x = false.
Proof.
  induction l as [|x l IH]; cbn; [tauto|]. destruct (f x) eqn:E.
  - split; [discriminate|]. intros H. rewrite (H x) in E by auto. discriminate.
  - split.
    + intros H y [<-|Hy]; [assumption|]. apply IH; [lia|assumption].
    + intros H. f_equal. apply IH. auto.
Qed.

Lemma find_index_lt {A} (f : A -> bool) l :
  (find_index f l < length l)%nat <-> exists x, In x l /\ f x = true.
Proof.
  pose proof (find_index_le f l). split.
  - intros Hl. destruct (find_index_found f l Hl) as (x & Hn & Hf). exists x. split; [|assumption].
    eapply nth_error_In; eassumption.
  - intros (x & Hi & Hf). assert (find_index f l <> length l); [|lia].
    intros Hc. apply find_index_none with (x := x) in Hc; congruence.
Qed.

Lemma set_nth_length {A} (l : list A) n x : length (set_nth l n x) = length l.
Proof. revert n; induction l as [|y l IH]; intros [|n]; cbn; auto. Qed.

Lemma set_nth_same {A} (l : list A) n x : (n < length l)%nat -> nth_error (set_nth l n x) n = Some x.
Proof. revert n; induction l as [|y l IH]; intros [|n] H; cbn in *; try lia; [reflexivity|]. apply IH. lia. Qed.

Lemma set_nth_other {A} (l : list A) n m x : n <> m -> nth_error (set_nth l n x) m = nth_error l m.
Proof. revert n m; induction l as [|y l IH]; intros [|n] [|m] H; cbn; auto; try congruence. Qed.

Lemma set_nth_in {A} (l : list A) n x y :
  (n < length l)%nat ->
  (In y (set_nth l n x) <-> y = x \/ exists m, m <> n /\ nth_error l m = Some y).
Proof.
  intros Hn. split.
  - intros H. apply In_nth_error in H as (m & Hm). destruct (Nat.eq_dec n m) as [->|Hd].
    + rewrite set_nth_same in Hm by assumption. left; congruence.
    + rewrite set_nth_other in Hm by assumption. right; eauto.
  - intros [->|(m & Hd & Hm)].
    + eapply nth_error_In. apply set_nth_same; assumption.
    + eapply nth_error_In with (n := m). rewrite set_nth_other by congruence. assumption.
Qed.

Lemma interactions_init_ok : table_ok interactions_init.
Proof.
  split; [reflexivity|]. split.
  - intros r [H|[H|[H|[]]]]; discriminate.
  - intros i j r s Hi. apply nth_error_In in Hi. destruct Hi as [H|[H|[H|[]]]]; discriminate.
Qed.

Lemma by_token_lt t tok : length t = 3%nat ->
  ((find_by_token t tok < 3)%nat <-> exists r, held t r /\ i_token r = tok).
Proof.
  intros HL. unfold find_by_token. rewrite <- HL, find_index_lt. unfold held. split.
  - intros ([r|] & Hi & Hf); [|discriminate]. apply compare_memory_eq in Hf. eauto.
  - intros (r & Hi & <-). exists (Some r). split; [assumption|]. apply compare_memory_eq; reflexivity.
Qed.

Lemma by_token_nth t tok : length t = 3%nat -> (find_by_token t tok < 3)%nat ->
  exists r, nth_error t (find_by_token t tok) = Some (Some r) /\ i_token r = tok.
Proof.
  intros HL H. unfold find_by_token in *. rewrite <- HL in H.
  destruct (find_index_found _ _ H) as ([r|] & Hn & Hf); [|discriminate].
  apply compare_memory_eq in Hf. eauto.
Qed.

Lemma by_resource_lt t uri ty : length t = 3%nat ->
  ((find_by_resource t uri ty < 3)%nat <-> exists r, held t r /\ i_type r = ty /\ i_uri r = uri).
Proof.
  intros HL. unfold find_by_resource. rewrite <- HL, find_index_lt. unfold held. split.
  - intros ([r|] & Hi & Hf); [|discriminate]. apply andb_true_iff in Hf as [H1 H2].
    apply compare_memory_eq in H2. apply msg_type_eqb_eq in H1. exists r; auto.
  - intros (r & Hi & <- & <-). exists (Some r). split; [assumption|].
    apply andb_true_iff; split; [apply msg_type_eqb_eq|apply compare_memory_eq]; reflexivity.
Qed.

Lemma by_resource_nth t uri ty : length t = 3%nat -> (find_by_resource t uri ty < 3)%nat ->
  exists r, nth_error t (find_by_resource t uri ty) = Some (Some r) /\ i_type r = ty /\ i_uri r = uri.
Proof.
  intros HL H. unfold find_by_resource in *. rewrite <- HL in H.
  destruct (find_index_found _ _ H) as ([r|] & Hn & Hf); [|discriminate].
  apply andb_true_iff in Hf as [H1 H2].
  apply compare_memory_eq in H2. apply msg_type_eqb_eq in H1. exists r; auto.
Qed.

Lemma unoccupied_lt t : length t = 3%nat -> ((find_unoccupied_index t < 3)%nat <-> In None t).
Proof.
  intros HL. unfold find_unoccupied_index. rewrite <- HL, find_index_lt. split.
  - intros ([r|] & Hi & Hf); [discriminate|assumption].
  - intros H. exists None; auto.
Qed.

Lemma unoccupied_nth t : length t = 3%nat -> (find_unoccupied_index t < 3)%nat ->
  nth_error t (find_unoccupied_index t) = Some None.
Proof.
  intros HL H. unfold find_unoccupied_index in *. rewrite <- HL in H.
  destruct (find_index_found _ _ H) as ([r|] & Hn & Hf); [discriminate|assumption].
Qed.

Lemma sizes_spec r :
  (MAX_TOKEN_LEN <? lenN (i_token r)) || (OSCORE_MAX_URI_PATH_LEN <? lenN (i_uri r)) ||
  (MAX_PIV_LEN <? lenN (i_piv r)) || (MAX_KID_LEN <? lenN (i_kid r)) = false <-> inter_sizes r.
Proof.
  unfold inter_sizes, MAX_TOKEN_LEN, OSCORE_MAX_URI_PATH_LEN, MAX_PIV_LEN, MAX_KID_LEN.
  rewrite !orb_false_iff, !N.ltb_ge. tauto.
Qed.

Definition slot_of (t : itable) (r : inter) : option nat :=
  if (find_by_resource t (i_uri r) (i_type r) <? 3)%nat then Some (find_by_resource t (i_uri r) (i_type r))
  else if (find_unoccupied_index t <? 3)%nat then Some (find_unoccupied_index t) else None.

Lemma set_record_eq t r :
  set_record t r =
    if negb ((lenN (i_token r) <=? 8) && (lenN (i_uri r) <=? 30) && (lenN (i_piv r) <=? 5) && (lenN (i_kid r) <=? 8))
    then Err wrong_parameter
    else match slot_of t r with
         | None => Err oscore_max_interactions
         | Some i => if (find_by_token t (i_token r) <? 3)%nat && negb (find_by_token t (i_token r) =? i)%nat
                     then Err oscore_interaction_duplicated_token else Ok (set_nth t i (Some r))
         end.
Proof.
  unfold set_record, slot_of, MAX_TOKEN_LEN, OSCORE_MAX_URI_PATH_LEN, MAX_PIV_LEN, MAX_KID_LEN, OSCORE_INTERACTIONS_COUNT.
  rewrite !N.ltb_antisym, <- !negb_andb.
  destruct (negb _); [reflexivity|].
  destruct (find_by_resource t (i_uri r) (i_type r) <? 3)%nat; cbn [bind]; [reflexivity|].
  destruct (find_unoccupied_index t <? 3)%nat; reflexivity.
Qed.

Lemma sizes_dec r :
  negb ((lenN (i_token r) <=? 8) && (lenN (i_uri r) <=? 30) && (lenN (i_piv r) <=? 5) && (lenN (i_kid r) <=? 8)) = false
  <-> inter_sizes r.
Proof.
  unfold inter_sizes. rewrite negb_false_iff, !andb_true_iff, !N.leb_le. tauto.
Qed.

Lemma slot_of_spec t r i : table_ok t -> slot_of t r = Some i ->
  (i < 3)%nat /\
  ((exists s, nth_error t i = Some (Some s) /\ same_resource s r) \/
   (nth_error t i = Some None /\ forall s, held t s -> ~ same_resource s r)).
Proof.
  intros (HL & _ & HU). unfold slot_of.
  destruct (Nat.ltb_spec (find_by_resource t (i_uri r) (i_type r)) 3) as [H|H].
  - intros E. injection E as <-. split; [assumption|]. left.
    destruct (by_resource_nth _ _ _ HL H) as (s & Hn & H1 & H2). exists s. split; [assumption|]. split; congruence.
  - destruct (Nat.ltb_spec (find_unoccupied_index t) 3) as [H'|H']; [|discriminate].
    intros E. injection E as <-. split; [assumption|]. right. split; [apply unoccupied_nth; assumption|].
    intros s Hs [E1 E2]. assert ((find_by_resource t (i_uri r) (i_type r) < 3)%nat); [|lia].
    apply by_resource_lt; [assumption|]. exists s. auto.
Qed.

Lemma slot_of_none t r : table_ok t ->
  (slot_of t r = None <-> full t /\ forall s, held t s -> ~ same_resource s r).
Proof.
  intros (HL & _). unfold slot_of, full.
  pose proof (by_resource_lt t (i_uri r) (i_type r) HL) as A. pose proof (unoccupied_lt t HL) as B.
  destruct (Nat.ltb_spec (find_by_resource t (i_uri r) (i_type r)) 3) as [H|H].
  - split; [discriminate|]. intros [_ Hc]. apply A in H as (s & Hs & E1 & E2). exfalso. apply (Hc s Hs). split; auto.
  - assert (X : forall s, held t s -> ~ same_resource s r).
    { intros s Hs [E1 E2]. assert ((find_by_resource t (i_uri r) (i_type r) < 3)%nat); [|lia]. apply A. eauto. }
    destruct (Nat.ltb_spec (find_unoccupied_index t) 3) as [H'|H'].
    + split; [discriminate|]. intros [F _]. tauto.
    + split; [|reflexivity]. intros _. split; [|exact X]. intros N. apply B in N. lia.
Qed.

(** Which slot already holds the token. *)
Lemma token_clash t r i : table_ok t -> slot_of t r = Some i ->
  ((find_by_token t (i_token r) <? 3)%nat && negb (find_by_token t (i_token r) =? i)%nat = true <->
   exists s, held t s /\ i_token s = i_token r /\ ~ same_resource s r).
Proof.
  intros HT Hi. pose proof HT as (HL & _ & HU). destruct (slot_of_spec _ _ _ HT Hi) as (Hlt & Hc).
  rewrite andb_true_iff, negb_true_iff, Nat.ltb_lt, Nat.eqb_neq. split.
  - intros [H1 H2]. destruct (by_token_nth _ _ HL H1) as (s & Hn & Ht). exists s. split; [eapply nth_error_In; eassumption|].
    split; [assumption|]. intros HS. apply H2. destruct Hc as [(s' & Hs' & HR)|(Hs' & HR)].
    + eapply HU; [eassumption|eassumption|]. right. destruct HS, HR. split; congruence.
    + exfalso. eapply HR; [eapply nth_error_In; eassumption|assumption].
  - intros (s & Hs & Ht & HS). assert (H1 : (find_by_token t (i_token r) < 3)%nat) by (apply by_token_lt; eauto).
    split; [assumption|]. intros <-. destruct (by_token_nth _ _ HL H1) as (s' & Hn & Ht').
    apply In_nth_error in Hs as (j & Hj). assert (find_by_token t (i_token r) = j).
    { eapply HU; [eassumption|eassumption|]. left; congruence. }
    subst j. rewrite Hj in Hn. injection Hn as <-.
    destruct Hc as [(s' & Hs' & HR)|(Hs' & HR)]; congruence.
Qed.

Lemma set_record_held t r t' : table_ok t -> set_record t r = Ok t' ->
  table_ok t' /\ inter_sizes r /\
  forall s, held t' s <-> s = r \/ (held t s /\ ~ same_resource s r).
Proof.
  intros HT H. pose proof HT as (HL & HS & HU). rewrite set_record_eq in H.
  destruct (negb _) eqn:Z in H; [discriminate|]. apply sizes_dec in Z.
  destruct (slot_of t r) as [i|] eqn:Hi; [|discriminate].
  pose proof (token_clash t r i HT Hi) as TC.
  destruct (_ && _) in *; [discriminate|]. injection H as <-.
  assert (NC : forall s, held t s -> i_token s = i_token r -> same_resource s r).
  { intros s Hs Ht. destruct TC as [_ TC].
    assert (D : same_resource s r \/ ~ same_resource s r).
    { unfold same_resource. destruct (msg_type_eqb (i_type s) (i_type r)) eqn:E1.
      - apply msg_type_eqb_eq in E1. destruct (beqb (i_uri s) (i_uri r)) eqn:E2.
        + apply beqb_eq in E2. auto.
        + apply beqb_neq in E2. tauto.
      - right. intros [E _]. apply msg_type_eqb_eq in E. congruence. }
    destruct D as [D|D]; [assumption|]. discriminate TC. eauto. }
  destruct (slot_of_spec _ _ _ HT Hi) as (Hlt & Hc).
  assert (HH : forall s, held (set_nth t i (Some r)) s <-> s = r \/ (held t s /\ ~ same_resource s r)).
  { intros s. unfold held. rewrite set_nth_in by lia. split.
    - intros [E|(m & Hm & Hn)]; [left; congruence|right]. split; [eapply nth_error_In; eassumption|].
      intros HR. destruct Hc as [(s' & Hs' & HR')|(Hs' & HR')].
      + apply Hm. eapply HU; [eassumption|eassumption|]. right. destruct HR, HR'. split; congruence.
      + eapply HR'; [eapply nth_error_In; eassumption|assumption].
    - intros [->|[Hs HR]]; [left; reflexivity|right]. apply In_nth_error in Hs as (m & Hm). exists m. split; [|assumption].
      intros ->. destruct Hc as [(s' & Hs' & HR')|(Hs' & HR')]; congruence. }
  split; [|split; [assumption|exact HH]].
  split; [rewrite set_nth_length; assumption|]. split.
  - intros s Hs. apply HH in Hs as [->|[Hs _]]; [assumption|]. apply HS; assumption.
  - assert (NEW : forall j s, j <> i -> nth_error t j = Some (Some s) ->
       i_token s = i_token r \/ same_resource s r -> False).
    { intros j s Hj Hn HX. assert (HR : same_resource s r).
      { destruct HX as [HX|HX]; [|assumption]. apply NC; [eapply nth_error_In; eassumption|assumption]. }
      destruct Hc as [(s' & Hs' & HR')|(Hs' & HR')].
      - apply Hj. eapply HU; [eassumption|eassumption|]. right. destruct HR, HR'. split; congruence.
      - eapply HR'; [eapply nth_error_In; eassumption|assumption]. }
    intros a b x y Ha Hb HX.
    destruct (Nat.eq_dec a i) as [->|Da], (Nat.eq_dec b i) as [->|Db]; [reflexivity| | |].
    + rewrite set_nth_same in Ha by lia. rewrite set_nth_other in Hb by congruence. injection Ha as <-.
      exfalso. apply (NEW b y Db Hb). destruct HX as [HX|[X1 X2]]; [left; congruence|right; split; congruence].
    + rewrite set_nth_same in Hb by lia. rewrite set_nth_other in Ha by congruence. injection Hb as <-.
      exfalso. apply (NEW a x Da Ha). exact HX.
    + rewrite set_nth_other in Ha, Hb by congruence. eapply HU; eassumption.
Qed.

Lemma get_record_held t tok r : table_ok t ->
  (get_record t tok = Ok r <-> held t r /\ i_token r = tok).
Proof.
  intros (HL & HS & HU). unfold get_record, MAX_TOKEN_LEN. split.
  - destruct (N.ltb_spec 8 (lenN tok)); [discriminate|].
    destruct (nth_error t (find_by_token t tok)) as [[x|]|] eqn:E; try discriminate.
    intros H'. injection H' as <-. split; [eapply nth_error_In; eassumption|].
    assert (Hl : (find_by_token t tok < 3)%nat) by (rewrite <- HL; apply nth_error_Some; congruence).
    destruct (by_token_nth _ _ HL Hl) as (y & Hy & Ht). congruence.
  - intros [Hh <-]. destruct (N.ltb_spec 8 (lenN (i_token r))) as [H|H].
    + apply HS in Hh as [Hh _]. lia.
    + assert (Hl : (find_by_token t (i_token r) < 3)%nat) by (apply by_token_lt; eauto).
      destruct (by_token_nth _ _ HL Hl) as (y & Hy & Ht). rewrite Hy.
      apply In_nth_error in Hh as (j & Hj). assert (find_by_token t (i_token r) = j).
      { eapply HU; [eassumption|eassumption|]. left; assumption. }
      subst j. congruence.
Qed.

Lemma remove_record_held t tok t' : table_ok t -> remove_record t tok = Ok t' ->
  table_ok t' /\ (exists r, held t r /\ i_token r = tok) /\
  forall s, held t' s <-> held t s /\ i_token s <> tok.
Proof.
  intros (HL & HS & HU) H. unfold remove_record, MAX_TOKEN_LEN, OSCORE_INTERACTIONS_COUNT in H.
  destruct (N.ltb_spec 8 (lenN tok)); [discriminate|].
  destruct (Nat.ltb_spec (find_by_token t tok) 3) as [Hl|]; [|discriminate]. injection H as <-.
  destruct (by_token_nth _ _ HL Hl) as (r & Hr & Ht).
  set (i := find_by_token t tok) in *.
  assert (HH : forall s, held (set_nth t i None) s <-> held t s /\ i_token s <> tok).
  { intros s. unfold held. rewrite set_nth_in by lia. split.
    - intros [E|(m & Hm & Hn)]; [discriminate|]. split; [eapply nth_error_In; eassumption|].
      intros E. apply Hm. eapply HU; [eassumption|eassumption|]. left; congruence.
    - intros [Hs Hd]. right. apply In_nth_error in Hs as (m & Hm). exists m. split; [|assumption].
      intros ->. rewrite Hr in Hm. congruence. }
  split; [|split; [exists r; split; [eapply nth_error_In; eassumption|assumption]|exact HH]].
  split; [rewrite set_nth_length; assumption|]. split.
  - intros s Hs. apply HH in Hs as [Hs _]. auto.
  - intros a b x y Ha Hb HX.
    assert (a <> i) by (intros ->; rewrite set_nth_same in Ha by lia; discriminate).
    assert (b <> i) by (intros ->; rewrite set_nth_same in Hb by lia; discriminate).
    rewrite set_nth_other in Ha, Hb by congruence. eapply HU; eassumption.
Qed.

Lemma get_remove_err t tok : table_ok t ->
  (forall r, held t r -> i_token r <> tok) ->
  get_record t tok = (if 8 <? lenN tok then Err wrong_parameter else Err oscore_interaction_not_found) /\
  remove_record t tok = (if 8 <? lenN tok then Err wrong_parameter else Err oscore_interaction_not_found).
Proof.
  intros (HL & HS & HU) H. unfold get_record, remove_record, MAX_TOKEN_LEN, OSCORE_INTERACTIONS_COUNT.
  destruct (8 <? lenN tok); [auto|].
  assert (E : ~ (find_by_token t tok < 3)%nat).
  { intros Hl. apply by_token_lt in Hl as (r & Hr & Ht); [|assumption]. eapply H; eassumption. }
  destruct (Nat.ltb_spec (find_by_token t tok) 3); [lia|].
  replace (nth_error t (find_by_token t tok)) with (@None (option inter)); [auto|].
  symmetry. apply nth_error_None. lia.
Qed.

Lemma update_wrapper_ok ty tok uri t piv kid t' : table_ok t ->
  update_wrapper ty tok uri t piv kid = Ok t' -> table_ok t'.
Proof.
  intros HT H. unfold update_wrapper in H.
  destruct ty; try (injection H as <-; assumption);
    try (apply remove_record_held in H; [tauto|assumption]);
    repeat (apply bind_ok in H as (? & _ & H)); apply set_record_held in H; tauto.
Qed.
