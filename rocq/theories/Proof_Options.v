(** Lemmas about option splitting, insertion of the OSCORE option and merging. *)
From Coq Require Import Permutation Sorted.
From Verif Require Import Base Proof_Base Model_Common Model_Coap Model_Context Model_Send Model_Recv
  Spec_Coap Proof_Coap Spec_Options.

Lemma is_class_e_spec n : is_class_e n = true <-> goes_inside n.
Proof.
  unfold is_class_e, goes_inside, class_u_numbers, OPT_URI_HOST, OPT_URI_PORT, OPT_OSCORE, OPT_PROXY_URI,
    OPT_PROXY_SCHEME, OPT_EDHOC. rewrite negb_true_iff, !orb_false_iff, !N.eqb_neq. cbn [In].
  split; intros H; [intros [|[|[|[|[|[|[]]]]]]]; subst; tauto|].
  repeat split; intros ->; apply H; tauto.
Qed.

Lemma goes_inside_dec n : goes_inside n \/ ~ goes_inside n.
Proof. rewrite <- is_class_e_spec. destruct (is_class_e n); auto. Qed.

Lemma goes_outside_spec n : goes_outside n <-> n = 6 \/ is_class_e n = false.
Proof.
  unfold goes_outside. rewrite <- not_true_iff_false, is_class_e_spec. unfold goes_inside.
  split; [intros [?|?]; auto|]. intros [->|H]; [auto|]. right. unfold class_u_numbers in *.
  destruct (in_dec N.eq_dec n [3; 7; 9; 21; 35; 39]); tauto.
Qed.

Lemma wrap_delta nr s : nr < 2 ^ 16 -> s < 2 ^ 16 ->
  u16 (s + u16 (nr + 2 ^ 16 - s)) = nr.
Proof. unfold u16. change (2 ^ 16) with 65536. lia. Qed.

Lemma split_loop_spec req opts : forall nr esum usum elen E U l,
  num_chain nr opts -> nr < 2 ^ 16 -> esum < 2 ^ 16 -> usum < 2 ^ 16 ->
  split_loop req opts nr esum usum elen = (E, U, l) ->
  exists inner,
    selects (fun p => goes_inside (fst p)) (map nv opts) inner /\
    map nv E = map (inner_value req) inner /\
    selects (fun p => goes_outside (fst p)) (map nv opts) (map nv U) /\
    num_chain esum E /\ num_chain usum U.
Proof.
  induction opts as [|o opts IH]; intros nr esum usum elen E U l HC Hn He Hu H.
  - cbn in H. injection H as <- <- <-. exists []. repeat split; try constructor.
  - destruct HC as [HN HC]. cbn [split_loop] in H. cbn [map].
    set (nr' := u16 (nr + o_delta o)) in *.
    assert (Hnr : nr' < 2 ^ 16) by (apply u16_lt).
    assert (NV : nv o = (nr', o_val o)) by (unfold nv; rewrite HN; reflexivity). rewrite NV.
    rewrite HN in HC.
    set (ed := u16 (nr' + 2 ^ 16 - esum)) in *. set (ud := u16 (nr' + 2 ^ 16 - usum)) in *.
    assert (W1 : u16 (esum + ed) = nr') by (apply wrap_delta; assumption).
    assert (W2 : u16 (usum + ud) = nr') by (apply wrap_delta; assumption).
    destruct (N.eqb_spec nr' OPT_OBSERVE) as [EO|NO].
    + destruct (split_loop req opts nr' (u16 (esum + ed)) (u16 (usum + ud)) _) as [[e u] l'] eqn:R in H.
      injection H as <- <- <-. rewrite W1, W2 in R.
      apply IH in R as (inner & S1 & S2 & S3 & C1 & C2); [|assumption..].
      exists ((nr', o_val o) :: inner). split; [|split; [|split]].
      * apply sel_take; [|exact S1]. cbn [fst]. apply is_class_e_spec. rewrite EO. reflexivity.
      * cbn [map]. rewrite S2. f_equal. unfold nv, inner_value; cbn [o_num o_val fst].
        change 6 with OPT_OBSERVE. rewrite EO, N.eqb_refl. destruct req; reflexivity.
      * cbn [map]. unfold nv at 2; cbn [o_num o_val]. apply sel_take; [|exact S3]. left. cbn [fst]. exact EO.
      * cbn [num_chain o_num o_delta]. rewrite W1, W2. auto.
    + destruct (is_class_e nr') eqn:EC.
      * destruct (split_loop req opts nr' (u16 (esum + ed)) usum _) as [[e u] l'] eqn:R in H.
        injection H as <- <- <-. rewrite W1 in R.
        apply IH in R as (inner & S1 & S2 & S3 & C1 & C2); [|assumption..].
        exists ((nr', o_val o) :: inner). split; [|split; [|split]].
        -- apply sel_take; [|exact S1]. cbn [fst]. apply is_class_e_spec. exact EC.
        -- cbn [map]. rewrite S2. f_equal. unfold nv, inner_value; cbn [o_num o_val fst].
           destruct (N.eqb_spec nr' 6); [contradiction|reflexivity].
        -- apply sel_skip; [|exact S3]. cbn [fst]. rewrite goes_outside_spec. intros [X|X]; [apply NO; exact X|congruence].
        -- cbn [num_chain o_num o_delta]. rewrite W1. auto.
      * destruct (split_loop req opts nr' esum (u16 (usum + ud)) _) as [[e u] l'] eqn:R in H.
        injection H as <- <- <-. rewrite W2 in R.
        apply IH in R as (inner & S1 & S2 & S3 & C1 & C2); [|assumption..].
        exists inner. split; [|split; [exact S2|split]].
        -- apply sel_skip; [|exact S1]. cbn [fst]. rewrite <- is_class_e_spec. congruence.
        -- cbn [map]. unfold nv at 2; cbn [o_num o_val]. apply sel_take; [|exact S3]. apply goes_outside_spec. right; exact EC.
        -- cbn [num_chain o_num o_delta]. rewrite W2. auto.
Qed.

(** Ascending input gives ascending outputs with consistent deltas. *)
Lemma split_loop_asc req opts : forall nr esum usum elen E U l,
  delta_consistent nr opts -> Forall (fun o => o_num o < 2 ^ 16) opts ->
  nr < 2 ^ 16 -> esum <= nr -> usum <= nr ->
  split_loop req opts nr esum usum elen = (E, U, l) ->
  delta_consistent esum E /\ delta_consistent usum U.
Proof.
  induction opts as [|o opts IH]; intros nr esum usum elen E U l HC HF Hn He Hu H.
  - cbn in H. injection H as <- <- <-. split; constructor.
  - inversion HC as [|? ? ? Hle Hd HC']; subst. inversion HF as [|? ? Ho HF']; subst.
    cbn [split_loop] in H.
    assert (HN : u16 (nr + o_delta o) = o_num o).
    { rewrite Hd. replace (nr + (o_num o - nr)) with (o_num o) by lia. apply N.mod_small. exact Ho. }
    rewrite HN in H.
    assert (W : forall s, s <= nr -> u16 (o_num o + 2 ^ 16 - s) = o_num o - s).
    { intros s Hs. unfold u16. change (2 ^ 16) with 65536 in *. lia. }
    rewrite !W in H by assumption.
    assert (W' : forall s, s <= nr -> u16 (s + (o_num o - s)) = o_num o).
    { intros s Hs. unfold u16. change (2 ^ 16) with 65536 in *. lia. }
    rewrite !W' in H by assumption.
    assert (forall (d : N) (v : bytes) s t, s <= nr -> d = o_num o - s -> delta_consistent (o_num o) t ->
      delta_consistent s ({| o_delta := d; o_num := o_num o; o_val := v; o_tail := [] |} :: t)) as K.
    { intros d v s t Hs -> Ht. constructor; cbn [o_num o_delta]; [lia|reflexivity|exact Ht]. }
    destruct (o_num o =? OPT_OBSERVE).
    + destruct (split_loop req opts (o_num o) (o_num o) (o_num o) _) as [[e u] l'] eqn:R in H.
      injection H as <- <- <-. apply IH in R as [R1 R2]; try assumption; try lia. split; apply K; auto.
    + destruct (is_class_e (o_num o)).
      * destruct (split_loop req opts (o_num o) (o_num o) usum _) as [[e u] l'] eqn:R in H.
        injection H as <- <- <-. apply IH in R as [R1 R2]; try assumption; try lia. split; [apply K|]; auto.
      * destruct (split_loop req opts (o_num o) esum (o_num o) _) as [[e u] l'] eqn:R in H.
        injection H as <- <- <-. apply IH in R as [R1 R2]; try assumption; try lia. split; [|apply K]; auto.
Qed.

(** ** Merging on reception *)

Lemma exchange_pass_spec rest : forall c m r, exchange_pass c rest = (m, r) ->
  Permutation (c :: rest) (m :: r) /\ o_num m <= o_num c /\ Forall (fun x => o_num m <= o_num x) r.
Proof.
  induction rest as [|x t IH]; intros c m r H; cbn [exchange_pass] in H.
  - injection H as <- <-. repeat split; [apply Permutation_refl|lia|constructor].
  - destruct (N.ltb_spec (o_num x) (o_num c)) as [L|L].
    + destruct (exchange_pass x t) as [m' t'] eqn:R. injection H as <- <-.
      apply IH in R as (P & Q & S). repeat split.
      * eapply Permutation_trans; [apply perm_swap|]. eapply Permutation_trans; [apply perm_swap|].
        eapply Permutation_trans; [apply perm_skip; exact P|]. apply perm_swap.
      * lia.
      * constructor; [lia|exact S].
    + destruct (exchange_pass c t) as [m' t'] eqn:R. injection H as <- <-.
      apply IH in R as (P & Q & S). repeat split.
      * eapply Permutation_trans; [apply perm_swap|]. eapply Permutation_trans; [apply perm_skip; exact P|]. apply perm_swap.
      * lia.
      * constructor; [lia|exact S].
Qed.

Lemma exchange_pass_len c rest m r : exchange_pass c rest = (m, r) -> length r = length rest.
Proof.
  intros H. apply exchange_pass_spec in H as (P & _). apply Permutation_length in P. cbn in P. lia.
Qed.

Lemma exchange_sort_perm n : forall l d, length l = n ->
  Permutation (map nv l) (map nv (exchange_sort n l d)).
Proof.
  induction n as [|n IH]; intros [|c rest] d HL; try discriminate; [apply perm_nil|].
  cbn [exchange_sort]. destruct (exchange_pass c rest) as [m r] eqn:R.
  pose proof (exchange_pass_len _ _ _ _ R) as RL.
  apply exchange_pass_spec in R as (P & _ & _). apply (Permutation_map nv) in P.
  eapply Permutation_trans; [exact P|]. cbn [map]. unfold nv at 1 3; cbn [o_num o_val].
  apply perm_skip. apply IH. injection HL as HL. congruence.
Qed.

Lemma exchange_sort_sorted n : forall l d, length l = n ->
  Forall (fun o => o_num o < 2 ^ 16) l -> Forall (fun o => d <= o_num o) l ->
  delta_consistent d (exchange_sort n l d).
Proof.
  induction n as [|n IH]; intros [|c rest] d HL HF HD; try discriminate; [constructor|].
  cbn [exchange_sort]. destruct (exchange_pass c rest) as [m r] eqn:R.
  pose proof (exchange_pass_len _ _ _ _ R) as RL.
  apply exchange_pass_spec in R as (P & _ & S).
  assert (Hm : In m (c :: rest)) by (eapply Permutation_in; [symmetry; exact P|left; reflexivity]).
  assert (Hr : Forall (fun o => o_num o < 2 ^ 16) r).
  { rewrite Forall_forall in HF |- *. intros x Hx. apply HF. eapply Permutation_in; [symmetry; exact P|right; exact Hx]. }
  rewrite Forall_forall in HF, HD. pose proof (HF _ Hm). pose proof (HD _ Hm).
  constructor; cbn [o_num o_delta].
  - lia.
  - unfold u16. change (2 ^ 16) with 65536 in *. lia.
  - apply IH; [injection HL as HL; congruence|exact Hr|exact S].
Qed.

Lemma exchange_sort_nums n : forall l d, length l = n -> Forall (fun o => o_num o < 2 ^ 16) l ->
  Forall (fun o => o_num o < 2 ^ 16) (exchange_sort n l d).
Proof.
  intros l d HL HF. pose proof (exchange_sort_perm n l d HL) as P.
  rewrite Forall_forall in *. intros x Hx.
  assert (In (nv x) (map nv l)).
  { eapply Permutation_in; [symmetry; exact P|]. apply in_map; exact Hx. }
  apply in_map_iff in H as (y & E & Hy). unfold nv in E. injection E as E _. rewrite <- E. apply HF; exact Hy.
Qed.

(** The decrypted options leave the sort in their original order. *)
Lemma exchange_pass_tail e : forall c, asc 0 (map nv e) -> (forall x, In x e -> o_num c <= o_num x) ->
  exchange_pass c e = (c, e).
Proof.
  induction e as [|x e IH]; intros c HA HC; [reflexivity|]. cbn [exchange_pass].
  destruct (N.ltb_spec (o_num x) (o_num c)) as [L|L]; [specialize (HC x (or_introl eq_refl)); lia|].
  rewrite IH; [reflexivity| |intros y Hy; apply HC; right; exact Hy].
  inversion HA as [|? ? ? ? _ HA']; subst. clear - HA'. destruct e as [|y e]; [constructor|].
  inversion HA'; subst. constructor; [lia|assumption].
Qed.

Lemma asc_lower p l : asc p l -> forall n v, In (n, v) l -> p <= n.
Proof.
  induction 1 as [|p n v l Hp HA IH]; intros n' v' [].
  - congruence.
  - apply IH in H. lia.
Qed.

Lemma asc_weaken p q l : asc p l -> q <= p -> asc q l.
Proof. intros H Hq. inversion H; subst; constructor; [lia|assumption]. Qed.

Lemma exchange_pass_app d e : asc 0 (map nv e) -> forall c m r,
  exchange_pass c (d ++ e) = (m, r) ->
  (exists d', r = d' ++ e /\ Permutation (c :: d) (m :: d')) \/
  (exists e', e = m :: e' /\ exists d', r = d' ++ e' /\ Permutation (c :: d) d').
Proof.
  intros HA. induction d as [|x d IH]; intros c m r H.
  - cbn [app] in H. destruct e as [|y e].
    + cbn in H. injection H as <- <-. left. exists []. split; [reflexivity|apply Permutation_refl].
    + cbn [exchange_pass] in H.
      assert (HA' : asc (o_num y) (map nv e)) by (inversion HA; subst; assumption).
      assert (LY : forall z, In z e -> o_num y <= o_num z).
      { intros z Hz. apply (asc_lower _ _ HA' (o_num z) (o_val z)). exact (in_map nv _ _ Hz). }
      destruct (N.ltb_spec (o_num y) (o_num c)) as [L|L].
      * rewrite exchange_pass_tail in H; [|apply asc_weaken with (o_num y); [assumption|lia]|exact LY].
        injection H as <- <-. right. exists e. split; [reflexivity|]. exists [c]. split; [reflexivity|apply Permutation_refl].
      * rewrite exchange_pass_tail in H; [|apply asc_weaken with (o_num y); [assumption|lia]|intros z Hz; specialize (LY z Hz); lia].
        injection H as <- <-. left. exists []. split; [reflexivity|apply Permutation_refl].
  - cbn [app exchange_pass] in H. destruct (N.ltb_spec (o_num x) (o_num c)).
    + destruct (exchange_pass x (d ++ e)) as [m' t'] eqn:R. injection H as <- <-.
      apply IH in R as [(d' & -> & P)|(e' & He & d' & -> & P)].
      * left. exists (c :: d'). split; [reflexivity|]. eapply Permutation_trans; [apply perm_skip; exact P|apply perm_swap].
      * right. exists e'. split; [exact He|]. exists (c :: d'). split; [reflexivity|]. apply perm_skip; exact P.
    + destruct (exchange_pass c (d ++ e)) as [m' t'] eqn:R. injection H as <- <-.
      apply IH in R as [(d' & -> & P)|(e' & He & d' & -> & P)].
      * left. exists (x :: d'). split; [reflexivity|].
        eapply Permutation_trans; [apply perm_swap|]. eapply Permutation_trans; [apply perm_skip; exact P|]. apply perm_swap.
      * right. exists e'. split; [exact He|]. exists (x :: d'). split; [reflexivity|].
        eapply Permutation_trans; [apply perm_swap|]. apply perm_skip; exact P.
Qed.

Lemma shuffle_left_nil {A} (e : list A) : shuffle [] e e.
Proof. induction e; constructor; assumption. Qed.

Lemma exchange_sort_shuffle n : forall d e delta, length (d ++ e) = n -> asc 0 (map nv e) ->
  exists a, Permutation a (map nv d) /\ shuffle a (map nv e) (map nv (exchange_sort n (d ++ e) delta)).
Proof.
  induction n as [|n IH]; intros d e delta HL HA.
  - destruct d, e; try discriminate. exists []. split; constructor.
  - destruct d as [|c d].
    + destruct e as [|c e]; [discriminate|]. cbn [app exchange_sort].
      assert (HA' : asc (o_num c) (map nv e)) by (inversion HA; subst; assumption).
      rewrite exchange_pass_tail;
        [|apply asc_weaken with (o_num c); [assumption|lia]|intros z Hz; apply (asc_lower _ _ HA' (o_num z) (o_val z)); exact (in_map nv _ _ Hz)].
      destruct (IH [] e (o_num c)) as (a & P & S);
        [cbn in HL |- *; lia|apply asc_weaken with (o_num c); [assumption|lia]|].
      exists a. split; [exact P|]. cbn [map app] in *. unfold nv at 1 3; cbn [o_num o_val]. apply sh_right; exact S.
    + cbn [app exchange_sort]. destruct (exchange_pass c (d ++ e)) as [m r] eqn:R.
      pose proof (exchange_pass_len _ _ _ _ R) as RL.
      apply exchange_pass_app in R as [(d' & -> & P)|(e' & -> & d' & -> & P)]; [| |assumption].
      * destruct (IH d' e (o_num m)) as (a & P' & S); [cbn in HL |- *; lia|assumption|].
        exists (nv m :: a). split.
        -- apply (Permutation_map nv) in P. cbn [map] in P |- *. rewrite P. apply perm_skip; exact P'.
        -- cbn [map]. unfold nv at 3; cbn [o_num o_val]. apply sh_left; exact S.
      * destruct (IH d' e' (o_num m)) as (a & P' & S);
          [cbn in HL |- *; lia|inversion HA; subst; apply asc_weaken with (o_num m); [assumption|lia]|].
        exists a. split.
        -- apply (Permutation_map nv) in P. cbn [map] in P |- *. rewrite P. exact P'.
        -- cbn [map]. unfold nv at 1 3; cbn [o_num o_val]. apply sh_right; exact S.
Qed.

(** ** Insertion of the OSCORE option *)

Lemma insert_placed u : forall val s, delta_consistent s u -> Forall (fun o => o_num o < 256) u ->
  s < 256 ->
  map nv (insert_oscore u true val s) = map nv u /\ delta_consistent s (insert_oscore u true val s).
Proof.
  induction u as [|o u IH]; intros val s HD HF Hs; [split; [reflexivity|constructor]|].
  inversion HD as [|? ? ? Hle Hd HD']; subst. inversion HF as [|? ? Ho HF']; subst.
  cbn [insert_oscore negb andb].
  assert (E1 : u16 (o_num o + 2 ^ 16 - s) = o_num o - s) by (unfold u16; change (2 ^ 16) with 65536; lia).
  cbn [o_delta]. rewrite E1.
  assert (E2 : u8 (s + (o_num o - s)) = o_num o) by (unfold u8; change (2 ^ 8) with 256; lia).
  rewrite E2. destruct (IH val (o_num o) HD' HF' Ho) as [A B]. cbn [map]. rewrite A.
  split; [reflexivity|]. constructor; cbn [o_num o_delta]; auto.
Qed.

(** Where the OSCORE option goes. *)
Lemma insert_oscore_spec u val : forall s, delta_consistent s u -> Forall (fun o => o_num o < 256) u ->
  s <= 9 ->
  exists before after, u = before ++ after /\
    Forall (fun o => o_num o <= 9) before /\ (match after with [] => True | o :: _ => 9 < o_num o end) /\
    map nv (insert_oscore u false val s) = map nv before ++ (9, val) :: map nv after /\
    delta_consistent s (insert_oscore u false val s).
Proof.
  induction u as [|o u IH]; intros s HD HF Hs.
  - exists [], []. cbn [insert_oscore]. change OPT_OSCORE with 9. repeat split; try constructor; cbn [o_num o_delta]; try lia.
    + unfold u16. change (2 ^ 16) with 65536. lia.
    + constructor.
  - inversion HD as [|? ? ? Hle Hd HD']; subst. inversion HF as [|? ? Ho HF']; subst.
    cbn [insert_oscore negb andb]. change OPT_OSCORE with 9.
    destruct (N.ltb_spec 9 (o_num o)) as [L|L].
    + exists [], (o :: u). cbn [o_delta].
      assert (E0 : u16 (9 + 2 ^ 16 - s) = 9 - s) by (unfold u16; change (2 ^ 16) with 65536; lia). rewrite E0.
      assert (E1 : u8 (s + (9 - s)) = 9) by (unfold u8; change (2 ^ 8) with 256; lia). rewrite E1.
      assert (E2 : u16 (o_num o + 2 ^ 16 - 9) = o_num o - 9) by (unfold u16; change (2 ^ 16) with 65536; lia). rewrite E2.
      assert (E3 : u8 (9 + (o_num o - 9)) = o_num o) by (unfold u8; change (2 ^ 8) with 256; lia). rewrite E3.
      destruct (insert_placed u val (o_num o) HD' HF' Ho) as [A B].
      split; [reflexivity|]. split; [constructor|]. split; [exact L|]. split.
      * cbn [map app]. rewrite A. reflexivity.
      * constructor; cbn [o_num o_delta]; [lia|reflexivity|]. constructor; cbn [o_num o_delta]; [lia|reflexivity|exact B].
    + cbn [o_delta].
      assert (E1 : u16 (o_num o + 2 ^ 16 - s) = o_num o - s) by (unfold u16; change (2 ^ 16) with 65536; lia). rewrite E1.
      assert (E2 : u8 (s + (o_num o - s)) = o_num o) by (unfold u8; change (2 ^ 8) with 256; lia). rewrite E2.
      destruct (IH (o_num o) HD' HF' L) as (b & a & -> & F & Ha & A & B).
      exists (o :: b), a. split; [reflexivity|]. split; [constructor; assumption|]. split; [exact Ha|].
      cbn [map app]. rewrite A. split; [reflexivity|]. constructor; cbn [o_num o_delta]; auto.
Qed.

(** Class-U options and Observe have small numbers. *)
Lemma outside_small n : goes_outside n -> n < 256.
Proof. unfold goes_outside, class_u_numbers; cbn [In]. intros [H|[H|[H|[H|[H|[H|[H|[]]]]]]]]; subst; reflexivity. Qed.

Lemma selects_forall {A} (P : A -> Prop) l r : selects P l r -> Forall P r.
Proof. induction 1; auto. Qed.
Lemma selects_incl {A} (P : A -> Prop) l r : selects P l r -> forall x, In x r -> In x l.
Proof. induction 1; cbn; intros y Hy; auto. destruct Hy; auto. Qed.
Lemma selects_len {A} (P : A -> Prop) l r : selects P l r -> (length r <= length l)%nat.
Proof. induction 1; cbn; lia. Qed.
Lemma selects_in {A} (P : A -> Prop) l r : selects P l r -> forall x, In x l -> P x -> In x r.
Proof. induction 1; intros y Hy Hp; cbn in *; [contradiction|destruct Hy as [->|Hy]; auto..]. contradiction. Qed.
