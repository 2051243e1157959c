(** A protected message opens to the original. *)
From Coq Require Import Permutation.
From Verif Require Import Base Proof_Base Model_Common Model_Crypto Model_Cbor Proof_Cbor Model_OscorePrims Spec_OscorePrims Proof_OscorePrims
  Model_Coap Spec_Coap Proof_Coap Model_Interactions Model_Context Spec_Options Proof_Options
  Spec_OscoreOption Proof_OscoreOption Prop_Options Prop_Interactions
  Model_Send Model_Recv Model_Run Spec_Interactions Proof_Interactions Proof_Send Proof_Recv
  Spec_Session Proof_Run Proof_Session Proof_Nonce Proof_Wire Spec_UriPath Proof_UriPath Spec_RoundTrip.

(** Limits of the implementation; [parsable], [delta_ok] (Proof_Coap.v) are those of
    the parser (C12). *)
Definition nearly_supported (m : message) (bs : bytes) : Prop :=
  parsable m bs /\
  Forall delta_ok (deltas 0 (inside_opts m)) /\ lenN (inside_opts m) <= 10 /\
  ~ In 9 (map fst (m_opts m)) /\ NoDup (map fst (outside_opts m)) /\
  opts_size (m_opts m) <= 100.
Definition supported (m : message) (bs : bytes) : Prop :=
  parsable m bs /\
  Forall delta_ok (deltas 0 (inside_opts m)) /\ lenN (inside_opts m) <= 10 /\
  ~ In 9 (map fst (m_opts m)) /\ NoDup (map fst (outside_opts m)) /\
  opts_size (m_opts m) <= 100 /\
  (m_payload m = [] \/ lenN (class_u_opts m) <= lenN (m_payload m)).

Lemma supported_nearly m bs : supported m bs -> nearly_supported m bs.
Proof. unfold supported, nearly_supported. tauto. Qed.

(** ** Lists of options *)
Lemma class_u_spec n : is_class_u n = negb (is_class_e n).
Proof.
  unfold is_class_u, is_class_e, class_u_numbers, OPT_URI_HOST, OPT_URI_PORT, OPT_OSCORE, OPT_PROXY_URI, OPT_PROXY_SCHEME, OPT_EDHOC.
  cbn [existsb]. rewrite negb_involutive.
  repeat match goal with |- context [n =? ?x] => destruct (N.eqb_spec n x); subst; cbn [orb]; try reflexivity; try lia end.
Qed.
Lemma inside_dec n : negb (is_class_u n) = true <-> goes_inside n.
Proof. rewrite class_u_spec, negb_involutive. apply is_class_e_spec. Qed.
Lemma outside_dec n : (n =? 6) || is_class_u n = true <-> goes_outside n.
Proof.
  rewrite goes_outside_spec, class_u_spec, orb_true_iff, N.eqb_eq, negb_true_iff. tauto.
Qed.

Lemma selects_filter {A} (P : A -> Prop) (f : A -> bool) l r : (forall x, f x = true <-> P x) -> selects P l r -> r = filter f l.
Proof.
  intros HF. induction 1 as [|x l r p S IH|x l r p S IH]; cbn [filter]; [reflexivity| |].
  - apply HF in p. rewrite p, IH. reflexivity.
  - destruct (f x) eqn:E; [apply HF in E; contradiction|exact IH].
Qed.

Definition num_is (n : N) (p : N * bytes) : bool := fst p =? n.

Lemma num_same n v : num_is n (n, v) = true.
Proof. unfold num_is. cbn [fst]. apply N.eqb_refl. Qed.
Lemma num_diff n x v : x <> n -> num_is n (x, v) = false.
Proof. intros H. unfold num_is. cbn [fst]. apply N.eqb_neq. exact H. Qed.

Lemma asc_unique a : forall p q b, asc p a -> asc q b -> (forall n, filter (num_is n) a = filter (num_is n) b) -> a = b.
Proof.
  assert (LOW : forall p l n, asc p l -> n < p -> filter (num_is n) l = []).
  { induction 1 as [|p' n' v l L S IH]; intros H; [reflexivity|]. cbn [filter]. rewrite num_diff by lia.
    apply IH. lia. }
  induction a as [|[n v] a IH]; intros p q b HA HB HF.
  - destruct b as [|[n v] b]; [reflexivity|]. specialize (HF n). cbn [filter] in HF. rewrite num_same in HF. discriminate.
  - inversion HA as [|? ? ? ? L1 A1]; subst. destruct b as [|[n' v'] b].
    { specialize (HF n). cbn [filter] in HF. rewrite num_same in HF. discriminate. }
    inversion HB as [|? ? ? ? L2 B1]; subst.
    assert (n = n').
    { destruct (N.lt_trichotomy n n') as [L|[L|L]]; [|exact L|]; exfalso.
      - specialize (HF n). cbn [filter] in HF. rewrite num_same, num_diff in HF by lia. rewrite (LOW _ _ _ B1 L) in HF. discriminate.
      - specialize (HF n'). cbn [filter] in HF. rewrite num_same, num_diff in HF by lia. rewrite (LOW _ _ _ A1 L) in HF. discriminate. }
    subst n'. assert (v = v').
    { specialize (HF n). cbn [filter] in HF. rewrite !num_same in HF. congruence. }
    subst v'. f_equal. eapply IH; [exact A1|exact B1|]. intros x. specialize (HF x). cbn [filter] in HF.
    destruct (num_is x (n, v)); congruence.
Qed.

Lemma shuffle_filter {A} (f : A -> bool) a b l : shuffle a b l -> shuffle (filter f a) (filter f b) (filter f l).
Proof.
  induction 1 as [|x a b l S IH|x a b l S IH]; cbn [filter]; [constructor| |]; destruct (f x); auto; constructor; exact IH.
Qed.
Lemma shuffle_nil_l {A} (b l : list A) : shuffle [] b l -> l = b.
Proof. intros H. remember [] as a. induction H; try discriminate; [reflexivity|]. f_equal. auto. Qed.
Lemma shuffle_nil_r {A} (a l : list A) : shuffle a [] l -> l = a.
Proof. intros H. remember [] as b. induction H; try discriminate; [reflexivity|]. f_equal. auto. Qed.

Lemma perm_filter_short {A} (f : A -> bool) a b : Permutation a b -> (length (filter f b) <= 1)%nat -> filter f a = filter f b.
Proof.
  intros P L. assert (P' : Permutation (filter f a) (filter f b)).
  { clear L. induction P; cbn [filter]; [constructor|destruct (f x); auto|destruct (f x), (f y); auto; constructor|etransitivity; eassumption]. }
  destruct (filter f b) as [|x [|y r]]; cbn in L; [| |lia].
  - apply Permutation_sym, Permutation_nil in P'. exact P'.
  - apply Permutation_sym, Permutation_length_1_inv in P'. exact P'.
Qed.

Lemma nodup_filter_num l n : NoDup (map fst l) -> (length (filter (num_is n) l) <= 1)%nat.
Proof.
  induction l as [|[x v] l IH]; cbn [map filter fst length]; intros H; [lia|]. inversion H as [|? ? NI ND]; subst.
  destruct (N.eq_dec x n) as [->|D]; [rewrite num_same|rewrite num_diff by assumption; auto].
  assert (E : filter (num_is n) l = []).
  { clear - NI. induction l as [|[y w] l IH]; [reflexivity|]. cbn [map fst] in NI. cbn [filter].
    rewrite num_diff; [|intros ->; apply NI; left; reflexivity]. apply IH. intros X. apply NI. right; exact X. }
  cbn [length]. rewrite E. cbn. lia.
Qed.

Lemma filter_filter_num (f : N -> bool) n l : filter (num_is n) (filter (fun p : N * bytes => f (fst p)) l) =
  if f n then filter (num_is n) l else [].
Proof.
  induction l as [|[x v] l IH]; cbn [filter fst]; [destruct (f n); reflexivity|].
  destruct (N.eq_dec x n) as [->|D].
  - destruct (f n) eqn:E; cbn [filter]; rewrite ?num_same, IH, ?E; reflexivity.
  - rewrite (num_diff n x v D). destruct (f x) eqn:E; cbn [filter]; rewrite ?(num_diff n x v D), IH; reflexivity.
Qed.

Lemma inner_fst req p : fst (inner_value req p) = fst p.
Proof. unfold inner_value. destruct (_ && _); reflexivity. Qed.
Lemma filter_map_inner req n l : filter (num_is n) (map (inner_value req) l) = map (inner_value req) (filter (num_is n) l).
Proof.
  induction l as [|x l IH]; [reflexivity|]. cbn [map filter].
  assert (E : num_is n (inner_value req x) = num_is n x) by (unfold num_is; rewrite inner_fst; reflexivity).
  rewrite E. destruct (num_is n x); cbn [map]; rewrite IH; reflexivity.
Qed.
Lemma map_inner_id req n l : n <> 6 -> map (inner_value req) (filter (num_is n) l) = filter (num_is n) l.
Proof.
  intros H. induction l as [|[x v] l IH]; [reflexivity|]. cbn [filter].
  destruct (N.eq_dec x n) as [->|D]; [rewrite num_same|rewrite num_diff by assumption; exact IH].
  cbn [map]. rewrite IH. unfold inner_value; cbn [fst].
  destruct (N.eqb_spec n 6); [contradiction|reflexivity].
Qed.

Lemma asc_map_inner req p l : asc p l -> asc p (map (inner_value req) l).
Proof.
  induction 1 as [|p n v l L S IH]; [constructor|]. cbn [map]. unfold inner_value at 1; cbn [fst].
  destruct (_ && _); constructor; assumption.
Qed.

Lemma delta_asc p l : delta_consistent p l -> asc p (map nv l).
Proof. induction 1; cbn [map]; constructor; auto. Qed.

Lemma nodup_outside_len l : NoDup (map fst l) -> Forall (fun p : N * bytes => goes_outside (fst p)) l -> ~ In 9 (map fst l) -> lenN l <= 6.
Proof.
  intros H F N9. assert (I : incl (map fst l) [6; 3; 7; 21; 35; 39]).
  { intros x Hx. rewrite Forall_forall in F. pose proof Hx as Hx'. apply in_map_iff in Hx as (p & <- & Hp). specialize (F p Hp).
    unfold goes_outside, class_u_numbers in F. cbn [In] in *. destruct F as [E|[E|[E|[E|[E|[E|[E|[]]]]]]]]; rewrite <- ?E in *; auto 8.
    }
  apply NoDup_incl_length in I; [|exact H]. rewrite map_length in I. cbn [length] in I. unfold lenN. lia.
Qed.

(** Merging the received options restores the original list. *)
Lemma merge_restores req l u e opts :
  asc 0 l -> ~ In 9 (map fst l) -> NoDup (map fst (filter (fun p => (fst p =? 6) || is_class_u (fst p)) l)) ->
  filter (fun p => negb (fst p =? 9) && negb (fst p =? 6)) (map nv u) = filter (fun p => is_class_u (fst p)) l ->
  map nv e = map (inner_value req) (filter (fun p => negb (is_class_u (fst p))) l) ->
  Forall (fun o => o_num o < 2 ^ 16) u -> Forall (fun o => o_num o < 2 ^ 16) e ->
  options_reorder u e = Ok opts ->
  map nv opts = map (inner_value req) l /\ delta_consistent 0 opts.
Proof.
  intros HA H9 HN HU HE Fu Fe H. destruct (C17_merge u e opts Fu Fe H) as (P & AO & DC & SH). split; [|exact DC].
  assert (AE : ascending 0 (map nv e)).
  { rewrite HE. assert (Q : asc 0 (filter (fun p => negb (is_class_u (fst p))) l)).
    { clear - HA. generalize (fun p : N * bytes => negb (is_class_u (fst p))). intros f. revert HA. generalize 0.
      induction l as [|[n v] l IH]; intros p HA; [constructor|]. inversion HA; subst. cbn [filter]. destruct (f (n, v)).
      - constructor; auto.
      - eapply asc_weaken; [apply IH; eassumption|assumption]. }
    apply (asc_map_inner req) in Q. clear - Q. induction Q; constructor; auto. }
  destruct (SH AE) as (kept' & PK & S).
  assert (AO' : asc 0 (map nv opts)) by (apply delta_asc; exact DC).
  eapply asc_unique; [exact AO'|apply asc_map_inner; exact HA|]. intros n.
  apply (shuffle_filter (num_is n)) in S. rewrite filter_map_inner.
  rewrite HE, filter_map_inner, (filter_filter_num (fun x => negb (is_class_u x)) n l) in S.
  assert (FK : filter (num_is n) kept' = if is_class_u n then filter (num_is n) l else []).
  { rewrite <- (filter_filter_num is_class_u n l), <- HU. apply perm_filter_short; [exact PK|].
    rewrite HU, filter_filter_num. destruct (is_class_u n) eqn:EU; [|cbn; lia].
    pose proof (nodup_filter_num _ n HN) as L. rewrite (filter_filter_num (fun x => (x =? 6) || is_class_u x)) in L.
    rewrite EU, orb_true_r in L. exact L. }
  rewrite FK in S. destruct (is_class_u n) eqn:EU; cbn [negb] in S.
  - cbn [map] in S. apply shuffle_nil_r in S. rewrite S. symmetry. apply map_inner_id. intros ->. discriminate EU.
  - apply shuffle_nil_l in S. exact S.
Qed.

(** ** The plaintext *)
Lemma extra_plus d x : x < 256 -> opt_extra_bytes (d + x) <= opt_extra_bytes d + 1.
Proof.
  unfold opt_extra_bytes. intros H. destruct (N.ltb_spec d 13), (N.ltb_spec (d + x) 13), (N.ltb_spec d 269), (N.ltb_spec (d + x) 269); lia.
Qed.

Lemma u16_small x : x < 2 ^ 16 -> u16 x = x.
Proof. intros. apply N.mod_small. assumption. Qed.

(** e_options_len and the real length of the encoded inner options. *)
Lemma split_elen req opts : forall nr esum usum elen E U l,
  delta_consistent nr opts -> Forall (fun o => o_num o < 2 ^ 16) opts -> nr < 2 ^ 16 -> esum <= nr -> usum <= nr ->
  (esum = nr \/ nr < 256) -> elen + opt_sum opts < 2 ^ 16 ->
  split_loop req opts nr esum usum elen = (E, U, l) ->
  lenN (ser_opts E) + elen <= l + lenN (filter (fun p => is_class_u (fst p)) (map nv opts)) + (if esum =? nr then 0 else 1).
Proof.
  induction opts as [|o opts IH]; intros nr esum usum elen E U l HD HF Hn He Hu Hi Hs H.
  - cbn in H. injection H as <- <- <-. change (ser_opts []) with (@nil N); rewrite !lenN_nil; destruct (esum =? nr); lia.
  - inversion HD as [|? ? ? Hle Hd HD']; subst. inversion HF as [|? ? Ho HF']; subst.
    cbn [split_loop] in H. cbn [opt_sum] in Hs. cbn [map filter].
    assert (HN : u16 (nr + o_delta o) = o_num o).
    { rewrite Hd. replace (nr + (o_num o - nr)) with (o_num o) by lia. apply u16_small. exact Ho. }
    rewrite HN in H.
    assert (W : forall s, s <= nr -> u16 (o_num o + 2 ^ 16 - s) = o_num o - s).
    { intros s Hs'. unfold u16. change (2 ^ 16) with 65536 in *. replace (o_num o + 65536 - s) with (o_num o - s + 1 * 65536) by lia.
      rewrite N.mod_add by lia. apply N.mod_small. lia. }
    rewrite !W in H by assumption.
    assert (W' : forall s, s <= nr -> u16 (s + (o_num o - s)) = o_num o).
    { intros s Hs'. replace (s + (o_num o - s)) with (o_num o) by lia. apply u16_small. exact Ho. }
    rewrite !W' in H by assumption.
    pose proof (opt_extra_le (o_delta o)) as X1. pose proof (opt_extra_le (lenN (o_val o))) as X2.
    assert (FULL : u16 (elen + 1 + (opt_extra_bytes (o_delta o) + opt_extra_bytes (lenN (o_val o))) + lenN (o_val o)) =
       elen + 1 + (opt_extra_bytes (o_delta o) + opt_extra_bytes (lenN (o_val o))) + lenN (o_val o)).
    { apply u16_small. lia. }
    rewrite FULL in H.
    assert (EXT : opt_extra_bytes (o_num o - esum) <= opt_extra_bytes (o_delta o) + (if esum =? nr then 0 else 1)).
    { destruct (N.eqb_spec esum nr) as [->|NE].
      - rewrite Hd. lia.
      - destruct Hi as [?|Hi]; [contradiction|]. replace (o_num o - esum) with (o_delta o + (nr - esum)) by lia.
        apply extra_plus. lia. }
    unfold nv at 1; cbn [fst].
    destruct (N.eqb_spec (o_num o) OPT_OBSERVE) as [E6|E6].
    + assert (UC : is_class_u (o_num o) = false) by (rewrite E6; reflexivity). cbn [fst] in *. rewrite UC.
      destruct (split_loop req opts (o_num o) (o_num o) (o_num o) _) as [[e u] l'] eqn:R in H.
      injection H as <- <- <-. unfold ser_opts. cbn [flat_map]. fold (ser_opts e). rewrite lenN_app, ser_opt_len. cbn [o_delta o_val].
      change OPT_OBSERVE with 6 in E6.
      assert (Z : opt_extra_bytes (o_num o - esum) = 0) by (unfold opt_extra_bytes; destruct (N.ltb_spec (o_num o - esum) 13); [reflexivity|lia]).
      destruct req.
      * apply IH in R; try assumption; try lia. rewrite N.eqb_refl in R. lia.
      * rewrite (u16_small (elen + 1)) in R by lia. apply IH in R; try assumption; try lia.
        rewrite N.eqb_refl in R. change (opt_extra_bytes (lenN (@nil N))) with 0. change (lenN (@nil N)) with 0. destruct (esum =? nr); lia.
    + destruct (is_class_e (o_num o)) eqn:EC.
      * assert (UC : is_class_u (o_num o) = false) by (rewrite class_u_spec, EC; reflexivity). rewrite UC.
        destruct (split_loop req opts (o_num o) (o_num o) usum _) as [[e u] l'] eqn:R in H.
        injection H as <- <- <-. unfold ser_opts. cbn [flat_map]. fold (ser_opts e). rewrite lenN_app, ser_opt_len. cbn [o_delta o_val].
        apply IH in R; try assumption; try lia. rewrite N.eqb_refl in R. lia.
      * assert (UC : is_class_u (o_num o) = true) by (rewrite class_u_spec, EC; reflexivity). rewrite UC.
        destruct (split_loop req opts (o_num o) esum (o_num o) _) as [[e u] l'] eqn:R in H.
        injection H as <- <- <-. rewrite lenN_cons.
        apply IH in R; try assumption; try lia.
        -- destruct (esum =? o_num o), (esum =? nr); lia.
        -- right. apply outside_small. apply goes_outside_spec. right; exact EC.
Qed.

(** On success the plaintext is complete, unless there are more class-U options than
    payload bytes. *)
Lemma plaintext_exact code e payload elen nu pt :
  lenN (ser_opts e) <= elen + nu -> elen < 2 ^ 16 -> lenN payload < 2 ^ 31 -> (payload = [] \/ nu <= lenN payload) ->
  plaintext_setup code e payload (if lenN payload =? 0 then 1 + elen else u32 (1 + elen + 1 + lenN payload)) = Ok pt ->
  pt = code :: ser_opts e ++ marked payload.
Proof.
  intros HS HE HP HN H. unfold plaintext_setup in H.
  apply bind_ok in H as (s & ES & H). apply serialize_ok in ES. subst s.
  apply bind_ok in H as ([] & EC & H). apply bind_ok in H as (w & EW & H).
  destruct (N.ltb_spec (lenN w) (if lenN payload =? 0 then 1 + elen else u32 (1 + elen + 1 + lenN payload))) as [?|LW]; [discriminate|].
  assert (E : forall a b : bytes, Ok a = Ok b -> b = a) by (intros a b Q; inversion Q; reflexivity).
  apply E in H. subst pt. change (2 ^ 16) with 65536 in HE. change (2 ^ 31) with 2147483648 in HP.
  destruct (N.eqb_spec (lenN payload) 0) as [Z|Z].
  - apply lenN_0 in Z. subst payload. cbn [marked]. apply E in EW. subst w. rewrite app_nil_r. apply takeN_all.
    rewrite lenN_cons. rewrite lenN_cons in LW.
    destruct (lenN (ser_opts e) =? 0) eqn:Z0; [apply N.eqb_eq in Z0; lia|].
    unfold check_buffer_size in EC. rewrite sub32_small in EC by lia. destruct (N.ltb_spec (1 + elen - 1) (lenN (ser_opts e))); [discriminate|]. lia.
  - assert (NP : nu <= lenN payload) by (destruct HN as [->|?]; [destruct Z; reflexivity|assumption]).
    assert (U : u32 (1 + elen + 1 + lenN payload) = 2 + elen + lenN payload).
    { unfold u32. rewrite N.mod_small; lia. }
    rewrite U in *. cbv iota in *.
    destruct (MAX_PLAINTEXT_LEN <=? lenN (code :: ser_opts e)) eqn:X; [discriminate|].
    apply bind_ok in EW as ([] & EB & EW). destruct (_ <? _) in EW; [discriminate|]. apply E in EW. subst w.
    assert (M : marked payload = 255 :: payload) by (destruct payload; [destruct Z; reflexivity|reflexivity]). rewrite M.
    change ((code :: ser_opts e) ++ [255] ++ payload) with (code :: ser_opts e ++ 255 :: payload) in *.
    apply takeN_all. unfold check_buffer_size in EB. rewrite lenN_cons in EB.
    rewrite sub32_small in EB by lia.
    destruct (N.ltb_spec (2 + elen + lenN payload - (1 + lenN (ser_opts e) + 1)) (lenN payload)); [discriminate|].
    rewrite lenN_cons, lenN_app, lenN_cons in *. lia.
Qed.

(** ** Opening *)
Lemma parser_loop_skip l : forall cur, Forall (fun o => o_num o <> 9) l -> oscore_option_parser_loop l cur = cur.
Proof.
  induction l as [|o l IH]; intros cur F; [reflexivity|]. inversion F as [|? ? H F']; subst. cbn [oscore_option_parser_loop].
  change OPT_OSCORE with 9. destruct (N.eqb_spec (o_num o) 9); [contradiction|]. auto.
Qed.
Lemma parser_one a o b : Forall (fun o => o_num o <> 9) a -> Forall (fun o => o_num o <> 9) b -> o_num o = 9 ->
  oscore_option_parser (a ++ o :: b) = oscore_value_parse (o_val o ++ o_tail o) (lenN (o_val o)).
Proof.
  intros Fa Fb E. unfold oscore_option_parser. generalize (Err not_oscore_pkt : res coscore).
  induction a as [|x a IH]; intros cur.
  - cbn [app oscore_option_parser_loop]. change OPT_OSCORE with 9. rewrite E, N.eqb_refl.
    destruct (oscore_value_parse _ _); cbn [bind]; [|reflexivity|reflexivity]. apply parser_loop_skip. exact Fb.
  - inversion Fa as [|? ? H F']; subst. cbn [app oscore_option_parser_loop]. change OPT_OSCORE with 9.
    destruct (N.eqb_spec (o_num x) 9); [contradiction|]. auto.
Qed.

Lemma deltas_map_inner req l : forall p, deltas p (map (inner_value req) l) = deltas p l.
Proof.
  induction l as [|[n v] l IH]; intros p; [reflexivity|]. cbn [map]. unfold inner_value at 1; cbn [fst].
  destruct (_ && _); cbn [deltas]; rewrite IH; reflexivity.
Qed.
Lemma deltas_small l : forall p, Forall (fun q : N * bytes => fst q < 256) l -> Forall delta_ok (deltas p l).
Proof.
  induction l as [|[n v] l IH]; intros p F; [constructor|]. inversion F; subst. cbn [deltas fst] in *. constructor; [left; lia|auto].
Qed.
Lemma forall_nums (P : N -> Prop) l : Forall (fun o => P (o_num o)) l <-> Forall (fun p : N * bytes => P (fst p)) (map nv l).
Proof. rewrite Forall_map. reflexivity. Qed.
Lemma forall_vals (P : bytes -> Prop) l : Forall (fun o => P (o_val o)) l <-> Forall (fun p : N * bytes => P (snd p)) (map nv l).
Proof. rewrite Forall_map. reflexivity. Qed.
Lemma forall_filter {A} (P : A -> Prop) f l : Forall P l -> Forall P (filter f l).
Proof. rewrite !Forall_forall. intros H x Hx. apply filter_In in Hx. apply H. apply Hx. Qed.
Lemma opt_sum_size l : opt_sum l = opts_size (map nv l).
Proof. induction l as [|o l IH]; [reflexivity|]. cbn [opt_sum map opts_size fold_right nv snd]. rewrite IH. reflexivity. Qed.
Lemma opts_size_inner req l : opts_size (map (inner_value req) l) <= opts_size l.
Proof.
  induction l as [|[n v] l IH]; [reflexivity|]. cbn [map opts_size fold_right]. fold (opts_size l). fold (opts_size (map (inner_value req) l)).
  unfold inner_value at 1; cbn [fst]. destruct (_ && _); cbn [snd]; [change (lenN (@nil N)) with 0|]; lia.
Qed.
Lemma existsb_map {A B} (f : B -> bool) (g : A -> B) l : existsb f (map g l) = existsb (fun x => f (g x)) l.
Proof. induction l as [|x l IH]; [reflexivity|]. cbn. rewrite IH. reflexivity. Qed.
Lemma is_observe_nv l : is_observe l = existsb (fun p : N * bytes => fst p =? 6) (map nv l).
Proof. rewrite existsb_map. reflexivity. Qed.
Lemma is_request_code k : is_request k = (h_code (k_hdr k) <? 32).
Proof.
  unfold is_request. destruct (N.ltb_spec (h_code (k_hdr k)) 32) as [L|L].
  - rewrite N.div_small by lia. reflexivity.
  - apply N.eqb_neq. intros E. apply N.div_small_iff in E; lia.
Qed.

Lemma filter_le {A} (f : A -> bool) l : lenN (filter f l) <= lenN l.
Proof. induction l as [|x l IH]; [reflexivity|]. cbn [filter]. destruct (f x); rewrite !lenN_cons; lia. Qed.

Lemma opens_gen m input k e u elen pt ct piv kid kctx opt out q :
  rfc_message m input -> nearly_supported m input -> is_bytes input -> coap_deserialize input = Ok k ->
  inner_outer_option_split k = Ok (e, u, elen) ->
  pt = m_code m :: ser_opts e ++ marked q -> lenN q <= lenN (m_payload m) ->
  lenN pt <= 1024 -> lenN piv <= 5 -> gen_len piv kid kctx < 256 ->
  oscore_option_generate piv kid kctx = Ok opt -> oscore_pkg_generate k u ct opt = Ok out ->
  pkt_wf out -> hdr_wf (k_hdr out) -> lenN (pkt_bytes out) < 2 ^ 16 ->
  msg_of k = m /\
  exists k' o r, coap_deserialize (pkt_bytes out) = Ok k' /\ oscore_option_parser (k_opts k') = Ok o /\
    co_piv o = piv /\ kid_view o = Ok kid /\
    k_token k' = m_token m /\ k_payload k' = ct /\ is_request k' = (m_code m <? 32) /\
    is_observe (k_opts k') = existsb (fun p => fst p =? 6) (m_opts m) /\
    o_coap_pkg_generate pt k' = Ok r /\ msg_of r = received (with_payload m q) /\
    pkt_wf r /\ hdr_wf (k_hdr r) /\ delta_consistent 0 (k_opts r) /\ Forall (fun o => o_num o < 2 ^ 16) (k_opts r) /\ opts_fit r /\
    exists eo, oscore_decrypted_payload_parser pt MAX_E_OPTION_COUNT = Ok (m_code m, eo, q) /\
      map nv eo = map (inner_value (m_code m <? 32)) (inside_opts m).
Proof.
  intros HM SUP HB EK ES PT LQ LPT LPIV GL OG EG PW HW LW.
  destruct SUP as (PA & DI & LI & N9 & ND & SZ).
  destruct (coap_parse_rfc m input HM PA) as (k0 & EK0 & EM & TK & DC). rewrite EK in EK0. injection EK0 as <-.
  split; [exact EM|].
  destruct PA as (PD & PV & PN & PC & PB).
  assert (EO : map nv (k_opts k) = m_opts m) by (rewrite <- EM; reflexivity).
  assert (ETK : k_token k = m_token m) by (rewrite <- EM; reflexivity).
  assert (EPL : k_payload k = m_payload m) by (rewrite <- EM; reflexivity).
  assert (ECD : h_code (k_hdr k) = m_code m) by (rewrite <- EM; reflexivity).
  assert (FN : Forall (fun o => o_num o < 2 ^ 16) (k_opts k)) by (apply (forall_nums (fun n => n < 2 ^ 16)); rewrite EO; exact PN).
  destruct (coap_parse_sound _ _ EK HB ltac:(change (2^32) with 4294967296; change (2 ^ 16) with 65536 in PB; lia)) as (W & HWk & L19 & OW & NC & _).
  unfold inner_outer_option_split in ES. destruct (_ <? _) in ES; [discriminate|]. injection ES as ES.
  destruct (split_loop_spec (is_request k) (k_opts k) 0 0 0 0 e u elen NC eq_refl eq_refl eq_refl ES) as (inner & SI & EI & SU & _ & _).
  rewrite EO in SI, SU.
  apply (selects_filter _ (fun p => negb (is_class_u (fst p)))) in SI; [|intros x; apply inside_dec].
  apply (selects_filter _ (fun p => (fst p =? 6) || is_class_u (fst p))) in SU; [|intros x; apply outside_dec].
  fold (inside_opts m) in SI. fold (outside_opts m) in SU. subst inner.
  destruct (split_loop_asc (is_request k) (k_opts k) 0 0 0 0 e u elen DC FN ltac:(reflexivity) ltac:(lia) ltac:(lia) ES) as [DE DU].
  assert (SK : opt_sum (k_opts k) <= 100) by (rewrite opt_sum_size, EO; exact SZ).
  (* the outer packet *)
  assert (FUO : Forall (fun p : N * bytes => goes_outside (fst p)) (outside_opts m)).
  { rewrite Forall_forall. intros p Hp. apply filter_In in Hp. apply outside_dec. apply Hp. }
  assert (N9U : ~ In 9 (map fst (outside_opts m))).
  { intros X. apply N9. apply in_map_iff in X as (p & E & Hp). apply filter_In in Hp as [Hp _]. apply in_map_iff. eauto. }
  pose proof (nodup_outside_len _ ND FUO N9U) as LU.
  assert (FU256 : Forall (fun o => o_num o < 256) u).
  { apply (forall_nums (fun n => n < 256)). rewrite SU. rewrite Forall_forall in *. intros p Hp. apply outside_small. auto. }
  destruct (insert_oscore_spec u opt 0 DU FU256 ltac:(lia)) as (before & after & EU & _ & _ & EIN & DIN).
  pose proof (option_generate_len _ _ _ _ OG) as LO.
  assert (LUU : lenN u <= 6). { rewrite <- SU in LU. unfold lenN in *. rewrite map_length in LU. exact LU. }
  unfold oscore_pkg_generate in EG. destruct (_ <? _) in EG; [discriminate|]. injection EG as <-.
  assert (FIN : Forall (fun p : N * bytes => fst p < 256 /\ len_ok (lenN (snd p)))
      (map nv before ++ (9, opt) :: map nv after)).
  { assert (FX : Forall (fun p : N * bytes => fst p < 256 /\ len_ok (lenN (snd p))) (map nv (before ++ after))).
    { rewrite <- EU, SU. rewrite Forall_forall in *. intros p Hp. split; [apply outside_small; auto|].
      apply PV. apply filter_In in Hp. apply Hp. }
    rewrite map_app in FX. apply Forall_app in FX as [FX1 FX2]. apply Forall_app. split; [exact FX1|]. constructor; [|exact FX2].
    cbn [fst snd]. split; [reflexivity|]. left. lia. }
  set (out := {| k_hdr := _; k_token := _; k_opts := _; k_payload := _ |}) in *.
  assert (OUTN : Forall (fun o => o_num o < 2 ^ 16) (k_opts out)).
  { apply (forall_nums (fun n => n < 2 ^ 16)). cbn [out k_opts]. rewrite EIN. eapply Forall_impl; [|exact FIN].
    cbn. intros p [H _]. change (2 ^ 16) with 65536. lia. }
  pose proof (pkt_bytes_rfc out PW HW DIN OUTN) as RO.
  assert (PO : parsable (msg_of out) (pkt_bytes out)).
  { unfold parsable, msg_of; cbn [m_opts]. cbn [out k_opts]. rewrite EIN. split; [|split; [|split; [|split]]].
    - apply deltas_small. eapply Forall_impl; [|exact FIN]. cbn. tauto.
    - eapply Forall_impl; [|exact FIN]. cbn. tauto.
    - eapply Forall_impl; [|exact FIN]. cbn. intros p [H _]. change (2 ^ 16) with 65536. lia.
    - assert (E : lenN (map nv before ++ (9, opt) :: map nv after) = lenN u + 1).
      { rewrite EU. unfold lenN. rewrite !app_length. cbn [length]. rewrite !map_length. lia. }
      rewrite E. lia.
    - exact LW. }
  destruct (coap_parse_rfc _ _ RO PO) as (k' & EK' & EM' & TK' & DC').
  assert (EO' : map nv (k_opts k') = map nv before ++ (9, opt) :: map nv after).
  { transitivity (m_opts (msg_of out)); [rewrite <- EM'; reflexivity|]. exact EIN. }
  assert (ET' : k_token k' = m_token m) by (transitivity (m_token (msg_of out)); [rewrite <- EM'; reflexivity|exact ETK]).
  assert (EP' : k_payload k' = ct) by (transitivity (m_payload (msg_of out)); [rewrite <- EM'; reflexivity|reflexivity]).
  assert (N9U' : Forall (fun o => o_num o <> 9) before /\ Forall (fun o => o_num o <> 9) after).
  { apply Forall_app. rewrite <- EU. apply (forall_nums (fun n => n <> 9)). rewrite SU, Forall_forall. intros p Hp E.
    apply N9U. rewrite <- E. apply in_map. exact Hp. }
  destruct N9U' as [N9B N9A].
  (* OSCORE option *)
  destruct (map_eq_app nv _ _ _ EO') as (ka & kb & EKO & EA & EB).
  apply map_eq_cons in EB as (x & kc & -> & EX & EB).
  unfold nv in EX. injection EX as EX1 EX2.
  assert (N9K : Forall (fun o => o_num o <> 9) ka /\ Forall (fun o => o_num o <> 9) kc).
  { split; apply (forall_nums (fun n => n <> 9)); [rewrite EA|rewrite EB]; apply (forall_nums (fun n => n <> 9)); assumption. }
  destruct N9K as [N9KA N9KC].
  destruct (C15_round_trip piv kid kctx opt (o_tail x) LPIV GL OG) as (o & OP & OP1 & _ & OP2).
  (* inner options *)
  assert (FE : Forall (fun p : N * bytes => len_ok (lenN (snd p)) /\ fst p < 2 ^ 16) (map nv e)).
  { rewrite EI, Forall_map, Forall_forall. intros [n v] Hp. rewrite inner_fst. apply filter_In in Hp as [Hp _].
    rewrite Forall_forall in PV, PN. specialize (PV _ Hp). specialize (PN _ Hp). cbn [fst snd] in *. split; [|exact PN].
    unfold inner_value. cbn [fst]. destruct (_ && _); [left; reflexivity|exact PV]. }
  assert (LEN_E : lenN (map nv e) <= 10). { rewrite EI. unfold lenN in *. rewrite map_length. exact LI. }
  destruct (options_parse (map nv e) q (ser_opts e ++ marked q) MAX_E_OPTION_COUNT) as (eo & EEO & NEO & DEO).
  { exists (ser_opts e). split; [|reflexivity]. apply ser_opts_rfc; [exact DE|].
    assert (X : Forall (fun p : N * bytes => fst p < 2 ^ 16 /\ lenN (snd p) < 2 ^ 16) (map nv e)); [|rewrite Forall_map in X; exact X].
    rewrite EI, Forall_map, Forall_forall. intros [n v] Hp. rewrite inner_fst. apply filter_In in Hp as [Hp _].
    rewrite Forall_forall in PN. specialize (PN _ Hp). cbn [fst] in *. split; [exact PN|].
    assert (LV : lenN v < 2 ^ 16).
    { rewrite <- EO in Hp. apply in_map_iff in Hp as (y & Ey & Hy). rewrite Forall_forall in OW. destruct (OW y Hy) as (? & ? & ? & ?).
      unfold nv in Ey. injection Ey as _ <-. assumption. }
    unfold inner_value; cbn [fst]. destruct (_ && _); [reflexivity|exact LV]. }
  { rewrite EI, deltas_map_inner. exact DI. }
  { eapply Forall_impl; [|exact FE]. cbn. tauto. }
  { eapply Forall_impl; [|exact FE]. cbn. tauto. }
  { rewrite PT in LPT. rewrite lenN_cons in LPT. change (2 ^ 16) with 65536. lia. }
  { lia. }
  { exact LEN_E. }
  assert (LKU : lenN (k_opts k') = lenN u + 1).
  { assert (E : lenN (map nv (k_opts k')) = lenN u + 1).
    { rewrite EO', EU. unfold lenN. rewrite !app_length. cbn [length]. rewrite !map_length. lia. }
    unfold lenN in *. rewrite map_length in E. exact E. }
  assert (LEO : lenN eo <= 10). { rewrite <- NEO in LEN_E. unfold lenN in *. rewrite map_length in LEN_E. exact LEN_E. }
  assert (RE : exists opts, options_reorder (k_opts k') eo = Ok opts).
  { unfold options_reorder. set (l := filter _ _ ++ eo).
    assert (LL : lenN l <= 17).
    { unfold l. rewrite lenN_app.
      pose proof (filter_le (fun o0 : copt => negb (o_num o0 =? OPT_OSCORE) && negb (o_num o0 =? OPT_OBSERVE)) (k_opts k')). lia. }
    assert (U8 : u8 (lenN (k_opts k') + lenN eo + 2 ^ 8 - 1) <= 20).
    { unfold u8. change (2 ^ 8) with 256. replace (lenN (k_opts k') + lenN eo + 256 - 1) with (lenN (k_opts k') + lenN eo - 1 + 1 * 256) by lia.
      rewrite N.mod_add by lia. rewrite N.mod_small by lia. lia. }
    unfold check_buffer_size, MAX_OPTION_COUNT. destruct (N.ltb_spec 20 (u8 (lenN (k_opts k') + lenN eo + 2 ^ 8 - 1))); [lia|]. cbn [bind].
    destruct (N.ltb_spec 20 (lenN l)); [lia|]. eauto. }
  destruct RE as (opts & RE).
  assert (FKU : Forall (fun o => o_num o < 2 ^ 16) (k_opts k')).
  { apply (forall_nums (fun n => n < 2 ^ 16)). rewrite EO'. eapply Forall_impl; [|exact FIN]. cbn. intros p [H _]. change (2 ^ 16) with 65536. lia. }
  assert (FKE : Forall (fun o => o_num o < 2 ^ 16) eo).
  { apply (forall_nums (fun n => n < 2 ^ 16)). rewrite NEO. eapply Forall_impl; [|exact FE]. cbn. tauto. }
  assert (AM : asc 0 (m_opts m)) by (rewrite <- EO; apply delta_asc; exact DC).
  destruct (merge_restores (is_request k) (m_opts m) (k_opts k') eo opts AM N9 ND) as [MO MD]; [|rewrite NEO, EI; reflexivity|assumption..|].
  { rewrite EO', filter_app. cbn [filter fst]. change (negb (9 =? 9) && negb (9 =? 6)) with false. cbv iota.
    rewrite <- filter_app, <- map_app, <- EU, SU. unfold outside_opts.
    clear - N9. induction (m_opts m) as [|[n v] l IH]; [reflexivity|]. cbn [map fst In] in N9.
    cbn [filter fst]. destruct (N.eqb_spec n 6) as [->|D6].
    - cbn [orb filter fst]. change (is_class_u 6) with false. cbv iota. apply IH. tauto.
    - cbn [orb]. destruct (is_class_u n) eqn:EUn; [|apply IH; tauto]. cbn [filter fst].
      destruct (N.eqb_spec n 9) as [->|]; [tauto|]. destruct (N.eqb_spec n 6); [contradiction|]. cbn [negb andb]. f_equal. apply IH. tauto. }
  assert (RQ : is_request k = (m_code m <? 32)) by (rewrite is_request_code, ECD; reflexivity).
  set (r := {| k_hdr := {| h_ver := h_ver (k_hdr k'); h_type := h_type (k_hdr k'); h_tkl := h_tkl (k_hdr k');
                           h_code := m_code m; h_mid := h_mid (k_hdr k') |};
               k_token := k_token k'; k_opts := opts; k_payload := q |}).
  assert (EHV : h_ver (k_hdr k') = m_ver m) by (transitivity (m_ver (msg_of out)); [rewrite <- EM'; reflexivity|]; rewrite <- EM; reflexivity).
  assert (EHT : h_type (k_hdr k') = m_type m) by (transitivity (m_type (msg_of out)); [rewrite <- EM'; reflexivity|]; rewrite <- EM; reflexivity).
  assert (EHM : h_mid (k_hdr k') = m_mid m) by (transitivity (m_mid (msg_of out)); [rewrite <- EM'; reflexivity|]; rewrite <- EM; reflexivity).
  assert (TKE : h_tkl (k_hdr k') = lenN (m_token m)).
  { rewrite TK'. unfold msg_of; cbn [m_token out k_token]. rewrite ETK. reflexivity. }
  destruct HM as (M1 & M2 & M3 & M4 & M5 & _).
  exists k', o, r. conj.
  - exact EK'.
  - rewrite EKO. rewrite parser_one by assumption. rewrite EX2. exact OP.
  - exact OP1.
  - exact OP2.
  - exact ET'.
  - exact EP'.
  - rewrite is_request_code. assert (EC' : h_code (k_hdr k') = h_code (k_hdr out)) by (transitivity (m_code (msg_of out)); [rewrite <- EM'; reflexivity|reflexivity]).
    rewrite EC'. cbn [out k_hdr h_code]. rewrite RQ. destruct (m_code m <? 32), (is_observe u); reflexivity.
  - rewrite is_observe_nv, EO', existsb_app. cbn [existsb fst]. change (9 =? 6) with false. cbn [orb].
    rewrite <- existsb_app, <- map_app, <- EU, SU. unfold outside_opts.
    clear. induction (m_opts m) as [|[n v] l IH]; [reflexivity|]. cbn [filter existsb fst]. destruct (N.eqb_spec n 6) as [->|D6].
    + reflexivity.
    + cbn [orb]. destruct (is_class_u n); [|exact IH]. cbn [existsb fst]. destruct (N.eqb_spec n 6); [contradiction|exact IH].
  - unfold o_coap_pkg_generate. rewrite PT. cbn [oscore_decrypted_payload_parser]. rewrite EEO. cbn [bind]. rewrite RE. reflexivity.
  - unfold msg_of, received, with_payload, r; cbn [m_ver m_type m_code m_mid m_token m_opts m_payload k_hdr h_ver h_type h_code h_mid k_token k_opts k_payload].
    rewrite EHV, EHT, EHM, ET', MO, RQ. reflexivity.
  - assert (LOP : lenN opts = lenN (m_opts m)).
    { apply (f_equal lenN) in MO. unfold lenN in *. rewrite !map_length in MO. exact MO. }
    unfold pkt_wf, r; cbn [k_hdr h_tkl k_token k_opts k_payload]. conj.
    + rewrite ET', TKE. reflexivity.
    + lia.
    + apply (forall_vals (fun v => lenN v < 2 ^ 16)). rewrite MO, Forall_map, Forall_forall. intros [n v] Hp.
      unfold inner_value; cbn [fst]. destruct (_ && _); [reflexivity|]. cbn [snd]. rewrite <- EO in Hp. apply in_map_iff in Hp as (y & Ey & Hy). rewrite Forall_forall in OW. destruct (OW y Hy) as (? & ? & ? & ?).
      unfold nv in Ey. injection Ey as _ <-. assumption.
    + rewrite <- EPL in LQ. pose proof (coap_payload_len _ _ EK HB). change (2 ^ 32) with 4294967296. change (2 ^ 16) with 65536 in PB. lia.
    + lia.
  - unfold hdr_wf, r; cbn [k_hdr h_ver h_type h_tkl h_code h_mid]. rewrite EHV, EHT, EHM, TKE. auto.
  - exact MD.
  - apply (forall_nums (fun n => n < 2 ^ 16)). cbn [r k_opts]. rewrite MO, Forall_map. eapply Forall_impl; [|exact PN]. intros p Hp. rewrite inner_fst. exact Hp.
  - unfold opts_fit. rewrite opt_sum_size. cbn [r k_opts]. rewrite MO. pose proof (opts_size_inner (is_request k) (m_opts m)). lia.
  - exists eo. split; [|rewrite NEO, EI, RQ; reflexivity]. rewrite PT. cbn [oscore_decrypted_payload_parser]. rewrite EEO. reflexivity.
Qed.

Lemma plaintext_supported m input k e u elen pt :
  rfc_message m input -> supported m input -> is_bytes input -> coap_deserialize input = Ok k ->
  inner_outer_option_split k = Ok (e, u, elen) ->
  plaintext_setup (h_code (k_hdr k)) e (k_payload k)
      (if lenN (k_payload k) =? 0 then 1 + elen else u32 (1 + elen + 1 + lenN (k_payload k))) = Ok pt ->
  pt = m_code m :: ser_opts e ++ marked (m_payload m).
Proof.
  intros HM SUP HB EK ES EP.
  destruct SUP as (PA & DI & LI & N9 & ND & SZ & PL).
  destruct (coap_parse_rfc m input HM PA) as (k0 & EK0 & EM & TK & DC). rewrite EK in EK0. injection EK0 as <-.
  destruct PA as (PD & PV & PN & PC & PB).
  assert (EO : map nv (k_opts k) = m_opts m) by (rewrite <- EM; reflexivity).
  assert (EPL : k_payload k = m_payload m) by (rewrite <- EM; reflexivity).
  assert (ECD : h_code (k_hdr k) = m_code m) by (rewrite <- EM; reflexivity).
  assert (FN : Forall (fun o => o_num o < 2 ^ 16) (k_opts k)) by (apply (forall_nums (fun n => n < 2 ^ 16)); rewrite EO; exact PN).
  unfold inner_outer_option_split in ES. destruct (_ <? _) in ES; [discriminate|]. injection ES as ES.
  assert (SK : opt_sum (k_opts k) <= 100) by (rewrite opt_sum_size, EO; exact SZ).
  rewrite <- ECD, <- EPL.
  pose proof (split_elen (is_request k) (k_opts k) 0 0 0 0 e u elen DC FN ltac:(reflexivity) ltac:(lia) ltac:(lia)
    ltac:(left; reflexivity) ltac:(change (2 ^ 16) with 65536; lia) ES) as SL.
  rewrite EO in SL. change (0 =? 0) with true in SL. cbv iota in SL.
  eapply plaintext_exact with (nu := lenN (class_u_opts m)) (elen := elen); [unfold class_u_opts; lia| | | |exact EP].
  - eapply split_loop_elen; [|exact ES]. reflexivity.
  - pose proof (coap_payload_len _ _ EK HB). change (2 ^ 31) with 2147483648. change (2 ^ 16) with 65536 in PB. lia.
  - rewrite EPL. exact PL.
Qed.
Lemma with_own m : with_payload m (m_payload m) = m.
Proof. destruct m; reflexivity. Qed.

(** ** Sessions *)
(** Numbers, values and order of Uri-Path decide the path; the first Observe decides
    the type of the message. *)
Lemma uri_loop_ext max : forall a b cur, filter (num_is 11) (map nv a) = filter (num_is 11) (map nv b) ->
  uri_path_loop a max cur = uri_path_loop b max cur.
Proof.
  assert (STRIP : forall a cur, uri_path_loop a max cur = uri_path_loop (filter (fun o => o_num o =? 11) a) max cur).
  { induction a as [|o a IH]; intros cur; [reflexivity|]. cbn [uri_path_loop filter]. change OPT_URI_PATH with 11.
    destruct (o_num o =? 11) eqn:E; [|apply IH]. cbn [uri_path_loop]. change OPT_URI_PATH with 11. rewrite E.
    destruct (buffer_append cur max (o_val o)) as [c1| |]; [|reflexivity..]. cbn [bind].
    destruct (buffer_append c1 max [47]) as [c2| |]; [|reflexivity..]. cbn [bind]. apply IH. }
  assert (FM : forall a, filter (num_is 11) (map nv a) = map nv (filter (fun o => o_num o =? 11) a)).
  { induction a as [|o a IH]; [reflexivity|]. cbn [map filter]. unfold num_is at 1; cbn [nv fst]. destruct (o_num o =? 11); cbn [map]; rewrite IH; reflexivity. }
  intros a b cur H. rewrite (STRIP a), (STRIP b). rewrite !FM in H. clear FM STRIP. revert cur H.
  generalize (filter (fun o => o_num o =? 11) a), (filter (fun o => o_num o =? 11) b). clear a b.
  induction l as [|o l IH]; intros [|o' l'] cur H; try discriminate; [reflexivity|]. cbn [map] in H. injection H as H1 H2 H3.
  cbn [uri_path_loop]. rewrite H1, H2. destruct (o_num o' =? OPT_URI_PATH); [|apply IH; exact H3].
  destruct (buffer_append cur max (o_val o')) as [c1| |]; [|reflexivity..]. cbn [bind].
  destruct (buffer_append c1 max [47]) as [c2| |]; [|reflexivity..]. cbn [bind]. apply IH. exact H3.
Qed.
Lemma uri_path_ext max k r m : msg_of k = m -> m_opts (msg_of r) = m_opts (received m) ->
  uri_path_create (k_opts r) max = uri_path_create (k_opts k) max.
Proof.
  intros H H'. unfold uri_path_create. rewrite (uri_loop_ext max (k_opts r) (k_opts k)); [reflexivity|].
  transitivity (filter (num_is 11) (m_opts (msg_of r))); [reflexivity|]. rewrite H'. cbn [received m_opts].
  rewrite filter_map_inner, map_inner_id by lia. rewrite <- H. reflexivity.
Qed.

Lemma observe_nv l : get_observe_value l = match find (fun p : N * bytes => fst p =? 6) (map nv l) with Some p => Some (snd p) | None => None end.
Proof.
  unfold get_observe_value. induction l as [|o l IH]; [reflexivity|]. cbn [find map nv fst]. change OPT_OBSERVE with 6.
  destruct (o_num o =? 6); [reflexivity|exact IH].
Qed.
Lemma received_request m : m_code m < 32 -> received m = m.
Proof.
  intros H. unfold received. replace (m_code m <? 32) with true by (symmetry; apply N.ltb_lt; exact H).
  assert (E : map (inner_value true) (m_opts m) = m_opts m).
  { induction (m_opts m) as [|p l IH]; [reflexivity|]. cbn [map]. rewrite IH. unfold inner_value. rewrite andb_false_r. reflexivity. }
  rewrite E. destruct m; reflexivity.
Qed.
Lemma type_same k r : m_opts (msg_of k) = m_opts (msg_of r) -> m_code (msg_of k) = m_code (msg_of r) -> coap_get_message_type k = coap_get_message_type r.
Proof.
  intros H H'. unfold coap_get_message_type. rewrite !observe_nv, !is_request_code.
  change (map nv (k_opts k)) with (m_opts (msg_of k)). change (map nv (k_opts r)) with (m_opts (msg_of r)).
  change (h_code (k_hdr k)) with (m_code (msg_of k)). change (h_code (k_hdr r)) with (m_code (msg_of r)). rewrite H, H'. reflexivity.
Qed.
Lemma type_by_observe k : is_request k = false -> coap_get_message_type k = if is_observe (k_opts k) then MNOTIFICATION else MRESPONSE.
Proof.
  intros H. unfold coap_get_message_type. rewrite H. unfold get_observe_value, is_observe.
  induction (k_opts k) as [|o l IH]; [reflexivity|]. cbn [find existsb]. destruct (o_num o =? OPT_OBSERVE); [reflexivity|exact IH].
Qed.

Lemma path_of_message k m : msg_of k = m -> path_segments (k_opts k) = message_path m.
Proof.
  intros <-. unfold path_segments, message_path, msg_of; cbn [m_opts]. induction (k_opts k) as [|o l IH]; [reflexivity|].
  cbn [map filter nv fst]. destruct (o_num o =? 11); cbn [map snd nv]; rewrite IH; reflexivity.
Qed.

Lemma path_string_len segs : segs_size segs < 30 -> lenN (path_string segs) <= 30.
Proof.
  intros H. destruct segs as [|v segs]; [apply N.leb_le; reflexivity|]. rewrite <- cat_segs_len in H. rewrite cat_segs_join in H by discriminate.
  rewrite lenN_app in H. cbn [path_string]. change (path_string (v :: segs)) with (join_path (v :: segs)). lia.
Qed.

(** ** The table of outstanding requests *)
Lemma kind_of_request k m : msg_of k = m -> is_request k = true ->
  match coap_get_message_type k with MCANCELLATION => MREGISTRATION | ty => ty end = request_kind m.
Proof.
  intros <- RQ. unfold coap_get_message_type, request_kind. rewrite RQ, observe_nv. change (m_opts (msg_of k)) with (map nv (k_opts k)).
  destruct (find _ _) as [[n [|v [|w l]]]|]; try reflexivity. cbn [snd].
  destruct (N.eqb_spec v 0) as [->|A]; [reflexivity|]. destruct (N.eqb_spec v 1) as [->|B]; [reflexivity|].
  destruct (N.leb_spec v 1); [lia|reflexivity].
Qed.
Lemma update_request k m t uri piv kid : table_ok t -> msg_of k = m -> is_request k = true -> uri = path_string (message_path m) ->
  (forall t', update_wrapper (coap_get_message_type k) (k_token k) uri t piv kid = Ok t' ->
     inter_sizes (record_for m piv kid) /\ forall x, held t' x <-> x = record_for m piv kid \/ held t x /\ ~ concerns x m) /\
  (room t m -> inter_sizes (record_for m piv kid) ->
     exists t', update_wrapper (coap_get_message_type k) (k_token k) uri t piv kid = Ok t').
Proof.
  intros T EM RQ ->. assert (TK : k_token k = m_token m) by (rewrite <- EM; reflexivity).
  pose proof (kind_of_request k m EM RQ) as KD.
  assert (U : update_wrapper (coap_get_message_type k) (k_token k) (path_string (message_path m)) t piv kid =
    let* _ := check_buffer_size MAX_PIV_LEN (lenN piv) in let* _ := check_buffer_size MAX_KID_LEN (lenN kid) in
    let* _ := check_buffer_size MAX_TOKEN_LEN (lenN (m_token m)) in
    let* _ := check_buffer_size OSCORE_MAX_URI_PATH_LEN (lenN (path_string (message_path m))) in
    set_record t (record_for m piv kid)).
  { unfold record_for. rewrite <- KD, TK. unfold update_wrapper. destruct (type_request k RQ) as [-> | [-> | ->]]; reflexivity. }
  rewrite U. split.
  - intros t' H. repeat (apply bind_ok in H as (? & _ & H)). apply set_record_held in H as (_ & SZ & G); [|exact T]. auto.
  - intros [R1 R2] SZ. pose proof SZ as (L1 & L2 & L3 & L4). cbn [record_for i_token i_uri i_piv i_kid] in L1, L2, L3, L4.
    unfold check_buffer_size, MAX_PIV_LEN, MAX_KID_LEN, MAX_TOKEN_LEN, OSCORE_MAX_URI_PATH_LEN.
    repeat match goal with |- context [?a <? ?b] => destruct (N.ltb_spec a b); [lia|] end. cbn [bind].
    destruct (C24_set_result t (record_for m piv kid) T) as (_ & _ & _ & G). destruct G as [G _].
    assert (Y : is_ok (set_record t (record_for m piv kid)) = true).
    { apply G. split; [exact SZ|]. split.
      - intros [F N]. apply N. destruct (R1 F) as (x & Hx & C). exists x. auto.
      - intros (x & Hx & Ex & N). apply N. apply R2; assumption. }
    destruct (set_record t (record_for m piv kid)); try discriminate. eauto.
Qed.
Lemma uri_of_message k m uri : msg_of k = m -> uri_path_create (k_opts k) OSCORE_MAX_URI_PATH_LEN = Ok uri -> uri = path_string (message_path m).
Proof.
  intros EM. rewrite uri_path_create_exact by reflexivity. cbv zeta. rewrite (path_of_message k m EM).
  destruct (_ <? _); [intros H; injection H as <-; reflexivity|]. destruct (_ =? _); discriminate.
Qed.

Lemma kid_view_len o kid : kid_view o = Ok kid -> co_kid_len o = lenN kid /\ takeN (co_kid_len o) (co_kid_mem o) = kid.
Proof.
  unfold kid_view, slice. rewrite N.add_0_l. destruct (N.leb_spec (co_kid_len o) (lenN (co_kid_mem o))) as [L|L]; [|discriminate].
  intros H. injection H as <-. change (dropN 0 (co_kid_mem o)) with (co_kid_mem o). rewrite lenN_takeN. split; [lia|reflexivity].
Qed.

Lemma context_short cr c : reachable cr c -> lenN (c_id_context c) <= 50.
Proof.
  apply (reachable_inv cr (fun c => lenN (c_id_context c) <= 50)).
  - intros p nvm gn ge gf c0 H. unfold oscore_context_init in H.
    destruct (negb _) in H; [discriminate|]. destruct (negb _) in H; [discriminate|].
    apply bind_ok in H as (iv & EI & H). destruct (_ <? _) in H; [discriminate|].
    apply bind_ok in H as (rk & _ & H). apply bind_ok in H as (ssn & _ & H). apply bind_ok in H as (sk & _ & H).
    injection H as <-. cbn [c_id_context]. unfold derive in EI. apply bind_ok in EI as (info & EF & _).
    unfold oscore_create_hkdf_info in EF. apply cbor_put_ok in EF as [_ L].
    rewrite !lenN_app in L. destruct (N.eqb_spec (lenN (ip_id_context p)) 0); [lia|].
    unfold enc_bstr in L. rewrite !lenN_app in L. unfold MAX_INFO_LEN in L. lia.
  - intros c0 a c' o T H. apply exec_keys in H as (K & _). destruct K as (_ & E & _). rewrite E. exact T.
Qed.

Section WithCrypto.
Variable cr : crypto.

Lemma encrypt_wrapper_nonce nw s pt k s' x nonce aad pt' : encrypt_wrapper cr nw s pt k = (s', Ok x) ->
  s_enc s' = Some (nonce, aad, pt') -> c_nonce (s_ctx s') = nonce.
Proof.
  intros H. unfold encrypt_wrapper in H. set (new := needs_new_piv (coap_get_message_type k) (c_echo (s_ctx s))) in *.
  apply callc_ok in H as (s1 & [[[n piv] kid] kctx] & HX & H).
  assert (NN : new = false -> n = c_nonce (s_ctx s1)).
  { intros E. rewrite E in HX. injection HX as <- <- _ _ _. reflexivity. }
  apply tryc_ok in H as (o & EO & H). apply tryc_ok in H as ([rpiv rkid] & ER & H).
  apply tryc_ok in H as (a & EA & H). apply tryc_ok in H as (ct' & EC & H).
  apply tryc_ok in H as (uri & EU & H). apply tryc_ok in H as (t & ET & H). injection H as <- _.
  cbn [s_enc s_set s_ctx set_inter c_nonce]. intros X. injection X as <- _ _. destruct new; [reflexivity|]. symmetry. auto.
Qed.

(** All values computed while a message is protected. *)
Lemma send_full nw c input k buf s b n : crypto_ok cr -> is_bytes input -> lenN input < 2 ^ 32 -> lenN buf < 2 ^ 32 ->
  coap_deserialize input = Ok k -> h_code (k_hdr k) <> 0 -> coap2oscore cr nw c input buf = (s, b, Ok n) ->
  exists e u elen pt ct opt nonce aad piv kid kctx rpiv rkid uri out,
    inner_outer_option_split k = Ok (e, u, elen) /\
    plaintext_setup (h_code (k_hdr k)) e (k_payload k)
      (if lenN (k_payload k) =? 0 then 1 + elen else u32 (1 + elen + 1 + lenN (k_payload k))) = Ok pt /\
    lenN pt <= 1024 /\
    wire_ids (uses_new_piv c k) c piv kid kctx /\
    (if uses_new_piv c k then create_nonce (c_sid c) piv (c_iv c) = Ok nonce else nonce = c_nonce c) /\
    oscore_option_generate piv kid kctx = Ok opt /\
    read_wrapper (coap_get_message_type k) (k_token k) (c_inter c) (Some (piv, kid)) = Ok (rpiv, rkid) /\
    create_aad (c_alg c) rkid rpiv MAX_AAD_LEN = Ok aad /\
    oscore_cose_encrypt cr pt nonce aad (c_skey c) = Ok ct /\ lenN ct = lenN pt + 8 /\
    uri_path_create (k_opts k) OSCORE_MAX_URI_PATH_LEN = Ok uri /\
    update_wrapper (coap_get_message_type k) (k_token k) uri (c_inter c) rpiv rkid = Ok (c_inter (s_ctx s)) /\
    c_nonce (s_ctx s) = nonce /\
    oscore_pkg_generate k u ct opt = Ok out /\ pkt_wf out /\ hdr_wf (k_hdr out) /\
    takeN n b = pkt_bytes out /\ lenN (pkt_bytes out) <= lenN buf /\ c_ssn c < OSCORE_SSN_OVERFLOW_VALUE.
Proof.
  intros OK HB HL HBL EK CZ H.
  destruct (send_result cr nw c input k buf s b n OK HB HL HBL EK H) as [SL _].
  unfold coap2oscore in H. destruct (coap2oscore_core cr nw c input) as [s' rc] eqn:C.
  destruct rc as [[out|w]|e|u]; try discriminate.
  2:{ apply core_inr in C as (_ & _ & k' & EK' & _ & Z). rewrite EK in EK'. injection EK' as <-. congruence. }
  destruct (coap_serialize out (lenN buf)) as [w [[]|er|ur]] eqn:SR; try discriminate. injection H as <- <- <-.
  apply core_inl in C as (k' & e & u & elen & pt & s1 & ct & opt & _ & EK' & NA & ES & EP & EE & EW & EG & PL).
  rewrite EK in EK'. injection EK' as <-.
  apply echo_stage_spec in EE as (_ & _ & EE).
  assert (I : c_inter (s_ctx s1) = c_inter c /\ c_sid (s_ctx s1) = c_sid c /\ c_ssn (s_ctx s1) = c_ssn c /\ c_iv (s_ctx s1) = c_iv c /\
    c_alg (s_ctx s1) = c_alg c /\ c_skey (s_ctx s1) = c_skey c /\ c_id_context (s_ctx s1) = c_id_context c /\ c_nonce (s_ctx s1) = c_nonce c /\
    c_echo (s_ctx s1) = c_echo c).
  { destruct EE as [->|(bb & m & _ & _ & ->)]; cbn; auto 12. }
  destruct I as (I1 & I2 & I3 & I4 & I5 & I6 & I7 & I8 & I9).
  pose proof (fun n a p => encrypt_wrapper_nonce nw s1 pt k s' _ n a p EW) as ENN.
  apply encrypt_wrapper_ok in EW as (piv & kid & kctx & nonce & rpiv & rkid & aad & uri & t & WI & NN & OG & RW & AA & CE & UR & UW & IT & SE).
  specialize (ENN _ _ _ SE).
  unfold wire_ids, uses_new_piv in *. rewrite I1, I2, I3, I4, I5, I6, I7, I8, I9 in *.
  pose proof (plaintext_setup_len _ _ _ _ _ EP) as LP.
  pose proof (cose_encrypt_rfc cr _ _ _ _ _ _ _ _ AA CE) as AE.
  pose proof (ok_aead_enc_len _ OK _ _ _ _ _ _ AE) as LC.
  destruct (fun X => pkg_out_wf nw _ _ _ _ _ _ _ _ HB HL EK ES X (option_generate_len _ _ _ _ OG) EG) as [W HW]; [rewrite LC, LP; lia|].
  apply coap_serialize_ok in SR as (-> & LW & _); [|assumption..].
  exists e, u, elen, pt, ct, opt, nonce, aad, piv, kid, kctx, rpiv, rkid, uri, out.
  unfold wire_ids, uses_new_piv. conj; try assumption; try reflexivity; try lia.
  - rewrite UW. f_equal. congruence.
  - apply written_take.
Qed.

Lemma serialize_back r cap : pkt_wf r -> cap < 2 ^ 32 -> opts_fit r -> lenN (pkt_bytes r) <= cap ->
  coap_serialize r cap = (pkt_bytes r, Ok tt).
Proof.
  intros W C F L. rewrite pkt_bytes_len in L by exact W. rewrite marked_len in L.
  destruct (coap_serialize_spec r cap W C) as (_ & H). destruct H as [_ H]; [lia|]. destruct H as [_ H]; [lia|].
  specialize (H F). destruct H as (_ & H1 & _ & _ & H2).
  destruct (N.eqb_spec (lenN (k_payload r)) 0) as [Z|Z].
  - apply H1; [lia|]. apply lenN_0. exact Z.
  - apply H2; [lia|lia|]. intros E. rewrite E in Z. apply Z. reflexivity.
Qed.

Lemma cose_inverse pt nonce aad key ct : crypto_ok cr -> oscore_cose_encrypt cr pt nonce aad key = Ok ct ->
  oscore_cose_decrypt cr ct nonce aad key = Ok pt.
Proof.
  intros OK. unfold oscore_cose_encrypt, oscore_cose_decrypt. destruct (byte_array_new _ _); cbn [bind]; [|discriminate..].
  destruct (oscore_enc_structure _ _); cbn [bind]; [|discriminate..]. intros H.
  destruct (cr_aead_enc cr key nonce a0 AUTH_TAG_LEN pt) eqn:E; [|discriminate]. injection H as <-.
  rewrite (ok_aead _ OK _ _ _ _ _ _ E). reflexivity.
Qed.

Lemma decrypt_opens d nn k' r rpiv rkid nonce aad pt ct uri t :
  read_wrapper (coap_get_message_type k') (k_token k') (c_inter d)
      (match nn with Some o => Some (co_piv o, takeN (co_kid_len o) (co_kid_mem o)) | None => None end) = Ok (rpiv, rkid) ->
  match nn with Some o => let* kid := kid_view o in create_nonce kid (co_piv o) (c_iv d) | None => Ok (c_nonce d) end = Ok nonce ->
  create_aad (c_alg d) rkid rpiv MAX_AAD_LEN = Ok aad ->
  k_payload k' = ct -> oscore_cose_decrypt cr ct nonce aad (c_rkey d) = Ok pt ->
  o_coap_pkg_generate pt k' = Ok r ->
  uri_path_create (k_opts r) OSCORE_MAX_URI_PATH_LEN = Ok uri ->
  update_wrapper (coap_get_message_type r) (k_token k') uri (c_inter d) rpiv rkid = Ok t ->
  decrypt_wrapper cr d nn k' = (set_inter (match nn with Some _ => set_nonce d nonce | None => d end) t, Ok (pt, r)).
Proof.
  intros RW NO AA <- DE PG UR UW. unfold decrypt_wrapper. rewrite RW. cbn [tryc]. rewrite NO. cbn [tryc]. rewrite AA. cbn [tryc].
  rewrite DE. cbn [tryc]. rewrite PG. cbn [tryc]. rewrite UR. cbn [tryc].
  assert (I : c_inter (match nn with Some _ => set_nonce d nonce | None => d end) = c_inter d) by (destruct nn; reflexivity).
  rewrite I, UW. reflexivity.
Qed.

(** Peers: the recipient side of [d] matches the sender side of [c]. *)
Definition hears (c d : ctx) : Prop :=
  c_skey c = c_rkey d /\ c_sid c = c_rid d /\ c_iv c = c_iv d /\ c_alg c = c_alg d.

(** What the following needs of a context; true of every reachable one, and kept. *)
Definition usable (c : ctx) : Prop := table_ok (c_inter c) /\ lenN (c_id_context c) <= 50.
Lemma reachable_usable c : reachable cr c -> usable c.
Proof. intros H. split; [apply reachable_table with cr; exact H|apply context_short with cr; exact H]. Qed.
Lemma usable_step c a c' o : usable c -> exec cr c a = (c', o) -> usable c'.
Proof. intros [A B] H. apply exec_keys in H as ((_ & E & _) & T). split; [auto|]. rewrite E. exact B. Qed.

Lemma new_piv_facts c k piv kid kctx : usable c -> c_ssn c < OSCORE_SSN_OVERFLOW_VALUE ->
  wire_ids (uses_new_piv c k) c piv kid kctx -> (uses_new_piv c k = true -> lenN (c_sid c) <= 7) ->
  lenN piv <= 5 /\ gen_len piv kid kctx < 256.
Proof.
  intros HR HS W K. unfold wire_ids in W. destruct (uses_new_piv c k).
  - destruct W as (P & -> & ->). specialize (K eq_refl).
    destruct (ssn2piv_spec (c_ssn c)) as (p & E & _ & L); [unfold OSCORE_SSN_OVERFLOW_VALUE in HS; change (2 ^ 40) with 1099511627776; lia|].
    assert (p = piv) as -> by congruence. split; [exact L|].
    pose proof (proj2 HR) as LC. unfold gen_len.
    repeat match goal with |- context [match ?x with _ => _ end] => destruct x end; rewrite ?lenN_cons in *; change (lenN (@nil N)) with 0 in *; lia.
  - destruct W as (-> & -> & ->). split; [apply N.leb_le; reflexivity|reflexivity].
Qed.

Lemma nonce_id_short id piv iv n : lenN piv <= 5 -> create_nonce id piv iv = Ok n -> lenN id <= 7.
Proof. intros L H. destruct (N.le_gt_cases (lenN id) 7) as [?|G]; [assumption|]. rewrite create_nonce_ub in H by assumption. discriminate. Qed.

(** A protected request arrives, in each of the three states of the Echo exchange. *)
Lemma request_received_gen nw c d s m input buf buf1 n buf2 q input2 :
  crypto_ok cr -> usable c -> usable d -> hears c d ->
  rfc_message m input -> nearly_supported m input ->
  (forall k e u elen pt, coap_deserialize input = Ok k -> inner_outer_option_split k = Ok (e, u, elen) ->
     plaintext_setup (h_code (k_hdr k)) e (k_payload k)
       (if lenN (k_payload k) =? 0 then 1 + elen else u32 (1 + elen + 1 + lenN (k_payload k))) = Ok pt ->
     pt = m_code m :: ser_opts e ++ marked q) -> lenN q <= lenN (m_payload m) ->
  rfc_message (with_payload m q) input2 -> is_bytes input -> 0 < m_code m < 32 ->
  lenN buf < 2 ^ 16 -> lenN buf2 < 2 ^ 32 -> lenN input2 <= lenN buf2 ->
  coap2oscore cr nw c input buf = (s, buf1, Ok n) ->
  c_ssn d < OSCORE_SSN_OVERFLOW_VALUE -> (c_echo d = ECHO_SYNCHRONIZED -> Model_Replay.rw_valid (c_ssn c) (c_win d) = true) ->
  room (c_inter d) m ->
  exists t pt eo piv,
    let d1 := set_inter (set_nonce d (c_nonce (s_ctx s))) t in
    ssn2piv (c_ssn c) = Ok piv /\
    (forall x, held (c_inter (s_ctx s)) x <-> x = record_for m piv (c_sid c) \/ held (c_inter c) x /\ ~ concerns x m) /\
    (forall x, held t x <-> x = record_for m piv (c_sid c) \/ held (c_inter d) x /\ ~ concerns x m) /\
    oscore_decrypted_payload_parser pt 10 = Ok (m_code m, eo, q) /\ map nv eo = map (inner_value (m_code m <? 32)) (inside_opts m) /\
    match c_echo d with
    | ECHO_REBOOT => oscore2coap cr d (takeN n buf1) buf2 = (set_echo d1 ECHO_VERIFY, buf2, Err first_request_after_reboot)
    | ECHO_VERIFY =>
        (echo_val_is_fresh (takeN (c_echo_len d) (c_echo_buf d)) pt = Ok tt ->
         oscore2coap cr d (takeN n buf1) buf2 =
           (set_echo (set_win d1 (Model_Replay.rw_reinit (c_ssn c))) ECHO_SYNCHRONIZED, written input2 buf2, Ok (lenN input2))) /\
        (forall er, echo_val_is_fresh (takeN (c_echo_len d) (c_echo_buf d)) pt = Err er ->
         oscore2coap cr d (takeN n buf1) buf2 = (d1, buf2, Err echo_validation_failed))
    | ECHO_SYNCHRONIZED => exists b, b <= c_ssn c /\
        oscore2coap cr d (takeN n buf1) buf2 = (set_win d1 (snd (Model_Replay.rw_update b (c_win d))), written input2 buf2, Ok (lenN input2))
    end.
Proof.
  intros OK HRC HRD (H1 & H2 & H3 & H4) HM SUP PTQ LQ HM2 HB HC LB LB2 LI HS SD SW NF.
  destruct (coap_parse_rfc m input HM (proj1 SUP)) as (k & EK & EM & _ & _).
  assert (ECD : h_code (k_hdr k) = m_code m) by (rewrite <- EM; reflexivity).
  assert (ETK : k_token k = m_token m) by (rewrite <- EM; reflexivity).
  assert (LIN : lenN input < 2 ^ 32). { destruct SUP as ((_ & _ & _ & _ & L) & _). change (2 ^ 32) with 4294967296. change (2 ^ 16) with 65536 in L. lia. }
  destruct (send_full nw c input k buf s buf1 n OK HB LIN ltac:(change (2 ^ 32) with 4294967296; change (2 ^ 16) with 65536 in LB; lia) EK ltac:(lia) HS)
    as (e & u & elen & pt & ct & opt & nonce & aad & piv & kid & kctx & rpiv & rkid & uri & out & ES & EP & LPT & WI & NN & OG & RW & AA & CE & LC & UR & UW & CN & EG & W & HW & TK & LO & SSN).
  assert (RQ : is_request k = true) by (rewrite is_request_code, ECD; apply N.ltb_lt; lia).
  assert (NEW : uses_new_piv c k = true).
  { unfold uses_new_piv, needs_new_piv. destruct (type_request k RQ) as [-> | [-> | ->]]; reflexivity. }
  assert (PIV5 : lenN piv <= 5).
  { pose proof WI as WI'. unfold wire_ids in WI'. rewrite NEW in WI'. destruct WI' as (P & _).
    destruct (ssn2piv_spec (c_ssn c)) as (p & E & _ & L); [unfold OSCORE_SSN_OVERFLOW_VALUE in SSN; change (2 ^ 40) with 1099511627776; lia|]. congruence. }
  destruct (new_piv_facts c k piv kid kctx HRC SSN WI) as [_ GL].
  { intros _. rewrite NEW in NN. eapply nonce_id_short; eassumption. }
  unfold wire_ids in WI. rewrite NEW in WI, NN. destruct WI as (PV & -> & ->).
  destruct (opens_gen m input k e u elen pt ct piv (c_sid c) (c_id_context c) opt out q HM SUP HB EK ES (PTQ _ _ _ _ _ EK ES EP) LQ LPT PIV5 GL OG EG W HW) as
    (_ & k' & o & r & EK' & EO & OP & OK' & TK' & PL' & RQ' & OB' & PG & MR & WR & HWR & DR & NR & FR & eo & PO & NO).
  { change (2 ^ 16) with 65536 in *. lia. }
  rewrite TK. rewrite received_request in MR by (cbn [with_payload m_code]; lia).
  assert (BR : pkt_bytes r = input2).
  { apply (message_unique (with_payload m q)); [|exact HM2]. rewrite <- MR. apply pkt_bytes_rfc; assumption. }
  assert (RQK : is_request k' = true) by (rewrite RQ'; apply N.ltb_lt; lia).
  destruct (kid_view_len _ _ OK') as [KL KT].
  assert (RR : rpiv = piv /\ rkid = c_sid c).
  { destruct (type_request k RQ) as [T | [T | T]]; rewrite T in RW; cbn [read_wrapper] in RW; injection RW as <- <-; auto. }
  destruct RR as [-> ->].
  pose proof (proj1 HRD) as TD. pose proof (proj1 HRC) as TC.
  pose proof (uri_of_message k m uri EM UR) as EU.
  destruct (update_request k m (c_inter c) uri piv (c_sid c) TC EM RQ EU) as [UC _]. destruct (UC _ UW) as [SZ HELD].
  destruct (update_request k m (c_inter d) uri piv (c_sid c) TD EM RQ EU) as [UD1 UD2].
  assert (UWD : exists t, update_wrapper (coap_get_message_type r) (k_token k') uri (c_inter d) piv (c_sid c) = Ok t).
  { rewrite (type_same r k) by (rewrite MR, EM; reflexivity). rewrite TK', <- ETK. exact (UD2 NF SZ). }
  destruct UWD as (t & UWD).
  assert (DW : decrypt_wrapper cr d (Some o) k' = (set_inter (set_nonce d nonce) t, Ok (pt, r))).
  { eapply decrypt_opens with (nn := Some o); try eassumption.
    - rewrite OP, KT. destruct (type_request k' RQK) as [-> | [-> | ->]]; reflexivity.
    - rewrite OK'. cbn [bind]. rewrite OP, <- H3. exact NN.
    - rewrite <- H4. exact AA.
    - rewrite <- H1. apply cose_inverse; assumption.
    - rewrite (uri_path_ext _ k r m); [exact UR|exact EM|]. rewrite received_request by lia. rewrite MR. reflexivity. }
  assert (PIV2 : piv2ssn piv = Ok (c_ssn c)) by (apply ssn_piv_round_trip; exact PV).
  assert (B0 : exists b0 piv', piv = b0 :: piv' /\ b0 <= c_ssn c).
  { destruct piv as [|b0 piv'].
    - exfalso. destruct (ssn2piv_spec (c_ssn c)) as (p & E & M & _); [unfold OSCORE_SSN_OVERFLOW_VALUE in SSN; change (2 ^ 40) with 1099511627776; lia|].
      assert (p = []) as -> by congruence. destruct M as (_ & _ & M & _). change (lenN (@nil N)) with 0 in M. lia.
    - exists b0, piv'. split; [reflexivity|]. apply ssn2piv_ok in PV as (_ & (_ & V & _) & _).
      rewrite be_val_cons in V. pose proof (N.pow_nonzero 256 (lenN piv') ltac:(discriminate)). nia. }
  assert (CORE : oscore2coap_core cr d (pkt_bytes out) =
    let c1 := set_inter (set_nonce d nonce) t in
    match c_echo d with
    | ECHO_REBOOT => (set_echo c1 ECHO_VERIFY, Err first_request_after_reboot)
    | ECHO_VERIFY =>
        match echo_val_is_fresh (takeN (c_echo_len d) (c_echo_buf d)) pt with
        | Ok _ => (set_echo (set_win c1 (Model_Replay.rw_reinit (c_ssn c))) ECHO_SYNCHRONIZED, Ok r)
        | Err _ => (c1, Err echo_validation_failed)
        | UB u => (c1, UB u)
        end
    | ECHO_SYNCHRONIZED => match piv with [] => (c1, UB NullDeref) | b :: _ => (set_win c1 (snd (Model_Replay.rw_update b (c_win d))), Ok r) end
    end).
  { unfold oscore2coap_core, check_context_freshness. destruct (N.leb_spec OSCORE_SSN_OVERFLOW_VALUE (c_ssn d)); [lia|]. cbn [tryc].
    rewrite EK'. cbn [tryc]. rewrite EO. cbn [tryc]. rewrite PL', LC. change AUTH_TAG_LEN with 8. rewrite sub32_small by lia.
    unfold byte_array_new. replace (lenN pt + 8 - 8) with (lenN pt) by lia. unfold check_buffer_size, MAX_PLAINTEXT_LEN.
    destruct (N.ltb_spec 1024 (lenN pt)); [lia|]. cbn [tryc]. rewrite RQK. unfold recv_request.
    rewrite KL, <- H2, N.eqb_refl. cbn [negb]. rewrite OK'. cbn [tryc].
    assert (AE : array_equals (c_sid c) (c_sid c) = true).
    { unfold array_equals. rewrite N.eqb_refl. cbn [negb]. clear. induction (c_sid c) as [|x l IH]; [reflexivity|].
      cbn [combine forallb fst snd]. rewrite N.eqb_refl. exact IH. }
    rewrite AE. cbn [negb]. rewrite OP, PIV2. cbn [tryc].
    assert (WV : match c_echo d with ECHO_SYNCHRONIZED => negb (Model_Replay.rw_valid (c_ssn c) (c_win d)) | _ => false end = false).
    { destruct (c_echo d); try reflexivity. rewrite SW by reflexivity. reflexivity. }
    rewrite WV, DW. cbn [callc].
    change (c_echo (set_inter (set_nonce d nonce) t)) with (c_echo d). reflexivity. }
  assert (SER : coap_serialize r (lenN buf2) = (input2, Ok tt)).
  { rewrite serialize_back; [|assumption..|rewrite BR; exact LI]. rewrite BR. reflexivity. }
  rewrite (type_same r k) in UWD by (rewrite MR, EM; reflexivity). rewrite TK', <- ETK in UWD.
  exists t, pt, eo, piv. cbv zeta. rewrite CN.
  split; [exact PV|]. split; [exact HELD|]. split; [apply (UD1 _ UWD)|]. split; [exact PO|]. split; [exact NO|].
  unfold oscore2coap. rewrite CORE. cbv zeta. destruct B0 as (b0 & piv' & -> & Lb). destruct (c_echo d).
  - reflexivity.
  - split.
    + intros ->. rewrite SER. reflexivity.
    + intros er ->. reflexivity.
  - exists b0. split; [exact Lb|]. rewrite SER. reflexivity.
Qed.

Lemma request_received nw c d s m input buf buf1 n buf2 :
  crypto_ok cr -> usable c -> usable d -> hears c d ->
  rfc_message m input -> supported m input -> is_bytes input -> 0 < m_code m < 32 ->
  lenN buf < 2 ^ 16 -> lenN buf2 < 2 ^ 32 -> lenN input <= lenN buf2 ->
  coap2oscore cr nw c input buf = (s, buf1, Ok n) ->
  c_ssn d < OSCORE_SSN_OVERFLOW_VALUE -> (c_echo d = ECHO_SYNCHRONIZED -> Model_Replay.rw_valid (c_ssn c) (c_win d) = true) ->
  room (c_inter d) m ->
  exists t pt eo piv,
    let d1 := set_inter (set_nonce d (c_nonce (s_ctx s))) t in
    ssn2piv (c_ssn c) = Ok piv /\
    (forall x, held (c_inter (s_ctx s)) x <-> x = record_for m piv (c_sid c) \/ held (c_inter c) x /\ ~ concerns x m) /\
    (forall x, held t x <-> x = record_for m piv (c_sid c) \/ held (c_inter d) x /\ ~ concerns x m) /\
    oscore_decrypted_payload_parser pt 10 = Ok (m_code m, eo, m_payload m) /\ map nv eo = map (inner_value (m_code m <? 32)) (inside_opts m) /\
    match c_echo d with
    | ECHO_REBOOT => oscore2coap cr d (takeN n buf1) buf2 = (set_echo d1 ECHO_VERIFY, buf2, Err first_request_after_reboot)
    | ECHO_VERIFY =>
        (echo_val_is_fresh (takeN (c_echo_len d) (c_echo_buf d)) pt = Ok tt ->
         oscore2coap cr d (takeN n buf1) buf2 =
           (set_echo (set_win d1 (Model_Replay.rw_reinit (c_ssn c))) ECHO_SYNCHRONIZED, written input buf2, Ok (lenN input))) /\
        (forall er, echo_val_is_fresh (takeN (c_echo_len d) (c_echo_buf d)) pt = Err er ->
         oscore2coap cr d (takeN n buf1) buf2 = (d1, buf2, Err echo_validation_failed))
    | ECHO_SYNCHRONIZED => exists b, b <= c_ssn c /\
        oscore2coap cr d (takeN n buf1) buf2 = (set_win d1 (snd (Model_Replay.rw_update b (c_win d))), written input buf2, Ok (lenN input))
    end.
Proof.
  intros OK HRC HRD HH HM SUP HB HC LB LB2 LI HS SD SW NF.
  apply (request_received_gen nw c d s m input buf buf1 n buf2 (m_payload m) input); try assumption; rewrite ?with_own; try assumption.
  - apply supported_nearly. exact SUP.
  - intros k e u elen pt EK ES EP. apply (plaintext_supported m input k e u elen pt); assumption.
  - lia.
Qed.

Lemma request_round_trip_state nw c d s m input buf buf1 n buf2 :
  crypto_ok cr -> usable c -> usable d -> hears c d ->
  rfc_message m input -> supported m input -> is_bytes input -> 0 < m_code m < 32 ->
  lenN buf < 2 ^ 16 -> lenN buf2 < 2 ^ 32 -> lenN input <= lenN buf2 ->
  coap2oscore cr nw c input buf = (s, buf1, Ok n) ->
  c_ssn d < OSCORE_SSN_OVERFLOW_VALUE -> c_echo d = ECHO_SYNCHRONIZED -> Model_Replay.rw_valid (c_ssn c) (c_win d) = true ->
  room (c_inter d) m ->
  exists d', oscore2coap cr d (takeN n buf1) buf2 = (d', written input buf2, Ok (lenN input)) /\
    c_nonce d' = c_nonce (s_ctx s) /\
    exists piv, ssn2piv (c_ssn c) = Ok piv /\
    (forall x, held (c_inter (s_ctx s)) x <-> x = record_for m piv (c_sid c) \/ held (c_inter c) x /\ ~ concerns x m) /\
    (forall x, held (c_inter d') x <-> x = record_for m piv (c_sid c) \/ held (c_inter d) x /\ ~ concerns x m) /\
    (exists b, b <= c_ssn c /\ c_win d' = snd (Model_Replay.rw_update b (c_win d))) /\ c_echo d' = ECHO_SYNCHRONIZED /\
    c_notif_init d' = c_notif_init d /\ c_notif d' = c_notif d.
Proof.
  intros OK HRC HRD HH HM SUP HB HC LB LB2 LI HS SD SE SW NF.
  destruct (request_received nw c d s m input buf buf1 n buf2 OK HRC HRD HH HM SUP HB HC LB LB2 LI HS SD (fun _ => SW) NF)
    as (t & pt & eo & piv & PV & X & Y & _ & _ & R). rewrite SE in R. destruct R as (b & Lb & R).
  eexists. split; [exact R|]. split; [reflexivity|]. exists piv. split; [exact PV|]. split; [exact X|]. split; [exact Y|].
  split; [exists b; auto|]. split; [exact SE|]. split; reflexivity.
Qed.

Lemma request_round_trip nw c d s m input buf buf1 n buf2 :
  crypto_ok cr -> usable c -> usable d -> hears c d ->
  rfc_message m input -> supported m input -> is_bytes input -> 0 < m_code m < 32 ->
  lenN buf < 2 ^ 16 -> lenN buf2 < 2 ^ 32 -> lenN input <= lenN buf2 ->
  coap2oscore cr nw c input buf = (s, buf1, Ok n) ->
  c_ssn d < OSCORE_SSN_OVERFLOW_VALUE -> c_echo d = ECHO_SYNCHRONIZED -> Model_Replay.rw_valid (c_ssn c) (c_win d) = true ->
  room (c_inter d) m ->
  exists d', oscore2coap cr d (takeN n buf1) buf2 = (d', written input buf2, Ok (lenN input)) /\
    c_nonce d' = c_nonce (s_ctx s) /\
    exists piv, ssn2piv (c_ssn c) = Ok piv /\
    (exists x, held (c_inter (s_ctx s)) x /\ i_token x = m_token m /\ i_piv x = piv /\ i_kid x = c_sid c) /\
    (exists x, held (c_inter d') x /\ i_token x = m_token m /\ i_piv x = piv /\ i_kid x = c_sid c).
Proof.
  intros OK HRC HRD HH HM SUP HB HC LB LB2 LI HS SD SE SW NF.
  destruct (request_round_trip_state nw c d s m input buf buf1 n buf2 OK HRC HRD HH HM SUP HB HC LB LB2 LI HS SD SE SW NF)
    as (d' & E & NE & piv & PV & X & Y & _). exists d'. split; [exact E|]. split; [exact NE|]. exists piv. split; [exact PV|].
  split; exists (record_for m piv (c_sid c)); (split; [|repeat split]); [apply X|apply Y]; left; reflexivity.
Qed.

Lemma response_round_trip_gen nw c d s m input buf buf1 n buf2 q :
  crypto_ok cr -> usable c -> usable d -> hears c d ->
  rfc_message m input -> nearly_supported m input ->
  (forall k e u elen pt, coap_deserialize input = Ok k -> inner_outer_option_split k = Ok (e, u, elen) ->
     plaintext_setup (h_code (k_hdr k)) e (k_payload k)
       (if lenN (k_payload k) =? 0 then 1 + elen else u32 (1 + elen + 1 + lenN (k_payload k))) = Ok pt ->
     pt = m_code m :: ser_opts e ++ marked q) -> lenN q <= lenN (m_payload m) ->
  is_bytes input -> 32 <= m_code m ->
  lenN buf < 2 ^ 16 -> lenN buf2 < 2 ^ 32 ->
  coap2oscore cr nw c input buf = (s, buf1, Ok n) ->
  c_ssn d < OSCORE_SSN_OVERFLOW_VALUE ->
  (forall x, held (c_inter c) x -> i_token x = m_token m ->
     exists y, held (c_inter d) y /\ i_token y = m_token m /\ i_piv y = i_piv x /\ i_kid y = i_kid x) ->
  (plain_response c input -> c_nonce c = c_nonce d) ->
  (existsb (fun p => fst p =? 6) (m_opts m) = true -> c_notif_init d = true -> c_notif d < c_ssn c) ->
  exists out, rfc_message (received (with_payload m q)) out /\
   (lenN out <= lenN buf2 ->
    exists d', oscore2coap cr d (takeN n buf1) buf2 = (d', written out buf2, Ok (lenN out)) /\
      c_win d' = c_win d /\ c_echo d' = c_echo d /\
      (let gone x := existsb (fun p => fst p =? 6) (m_opts m) = false /\ i_token x = m_token m in
        (forall x, held (c_inter d') x <-> held (c_inter d) x /\ ~ gone x) /\
        (forall x, held (c_inter (s_ctx s)) x <-> held (c_inter c) x /\ ~ gone x)) /\
      (if existsb (fun p => fst p =? 6) (m_opts m) then c_notif_init d' = true /\ c_notif d' = c_ssn c
       else c_notif_init d' = c_notif_init d /\ c_notif d' = c_notif d)).
Proof.
  intros OK HRC HRD (H1 & H2 & H3 & H4) HM SUP PTQ LQ HB HC LB LB2 HS SD REC PN FN.
  destruct (coap_parse_rfc m input HM (proj1 SUP)) as (k & EK & EM & _ & _).
  assert (ECD : h_code (k_hdr k) = m_code m) by (rewrite <- EM; reflexivity).
  assert (ETK : k_token k = m_token m) by (rewrite <- EM; reflexivity).
  assert (LIN : lenN input < 2 ^ 32). { destruct SUP as ((_ & _ & _ & _ & L) & _). change (2 ^ 32) with 4294967296. change (2 ^ 16) with 65536 in L. lia. }
  destruct (send_full nw c input k buf s buf1 n OK HB LIN ltac:(change (2 ^ 32) with 4294967296; change (2 ^ 16) with 65536 in LB; lia) EK ltac:(lia) HS)
    as (e & u & elen & pt & ct & opt & nonce & aad & piv & kid & kctx & rpiv & rkid & uri & out & ES & EP & LPT & WI & NN & OG & RW & AA & CE & LC & UR & UW & CN & EG & W & HW & TK & LO & SSN).
  assert (RQ : is_request k = false) by (rewrite is_request_code, ECD; apply N.ltb_ge; lia).
  assert (PIV5 : lenN piv <= 5).
  { pose proof WI as WI'. unfold wire_ids in WI'. destruct (uses_new_piv c k).
    - destruct WI' as (P & _). apply ssn2piv_ok in P. tauto.
    - destruct WI' as (-> & _). apply N.leb_le. reflexivity. }
  destruct (new_piv_facts c k piv kid kctx HRC SSN WI) as [_ GL].
  { intros E. rewrite E in NN. eapply nonce_id_short; eassumption. }
  destruct (opens_gen m input k e u elen pt ct piv kid kctx opt out q HM SUP HB EK ES (PTQ _ _ _ _ _ EK ES EP) LQ LPT PIV5 GL OG EG W HW) as
    (_ & k' & o & r & EK' & EO & OP & OK' & TK' & PL' & RQ' & OB' & PG & MR & WR & HWR & DR & NR & FR & eo & PO & NO).
  { change (2 ^ 16) with 65536 in *. lia. }
  rewrite TK.
  exists (pkt_bytes r). split; [rewrite <- MR; apply pkt_bytes_rfc; assumption|]. intros LR.
  assert (RQK : is_request k' = false) by (rewrite RQ'; apply N.ltb_ge; lia).
  assert (RQR : is_request r = false).
  { rewrite is_request_code. change (h_code (k_hdr r)) with (m_code (msg_of r)). rewrite MR. apply N.ltb_ge. cbn [received with_payload m_code]. lia. }
  destruct (kid_view_len _ _ OK') as [KL KT].
  pose proof (proj1 HRD) as TD. pose proof (proj1 HRC) as TC.
  set (ob := existsb (fun p : N * bytes => fst p =? 6) (m_opts m)) in *.
  assert (OBK : is_observe (k_opts k) = ob) by (rewrite is_observe_nv; unfold ob; rewrite <- EM; reflexivity).
  assert (OBR : is_observe (k_opts r) = ob).
  { rewrite is_observe_nv. change (map nv (k_opts r)) with (m_opts (msg_of r)). rewrite MR. cbn [received with_payload m_opts m_code]. rewrite existsb_map. unfold ob.
    clear. induction (m_opts m) as [|p l IH]; [reflexivity|]. cbn [existsb]. rewrite inner_fst, IH. reflexivity. }
  pose proof (type_by_observe k RQ) as TYK. rewrite OBK in TYK.
  pose proof (type_by_observe k' RQK) as TYK'. rewrite OB' in TYK'.
  pose proof (type_by_observe r RQR) as TYR. rewrite OBR in TYR.
  (* records *)
  assert (GR : exists x, get_record (c_inter c) (k_token k) = Ok x /\ rpiv = i_piv x /\ rkid = i_kid x).
  { assert (X : (let* r0 := get_record (c_inter c) (k_token k) in Ok (i_piv r0, i_kid r0)) = Ok (rpiv, rkid)).
    { rewrite TYK in RW. destruct ob; exact RW. }
    apply bind_ok in X as (x & E & X). injection X as <- <-. eauto. }
  destruct GR as (x & GR & -> & ->).
  apply (C24_get _ _ TC) in GR as [HX TX]. rewrite ETK in TX. destruct (REC x HX TX) as (y & HY & TY & PY & KY).
  assert (GD : get_record (c_inter d) (k_token k') = Ok y) by (apply (C24_get _ _ TD); rewrite TK'; auto).
  assert (RWD : forall cur, read_wrapper (coap_get_message_type k') (k_token k') (c_inter d) cur = Ok (i_piv x, i_kid x)).
  { intros cur. rewrite TYK'. destruct ob; cbn [read_wrapper]; rewrite GD; cbn [bind]; rewrite PY, KY; reflexivity. }
  assert (UWD : exists t, update_wrapper (coap_get_message_type r) (k_token k') uri (c_inter d) (i_piv x) (i_kid x) = Ok t).
  { rewrite TYR. destruct ob; cbn [update_wrapper]; [eauto|]. unfold remove_record. unfold get_record in GD.
    destruct (MAX_TOKEN_LEN <? lenN (k_token k')); [discriminate|].
    destruct (nth_error (c_inter d) (find_by_token (c_inter d) (k_token k'))) eqn:NE; [|discriminate].
    assert (L : (find_by_token (c_inter d) (k_token k') < length (c_inter d))%nat) by (apply nth_error_Some; congruence).
    destruct TD as (L3 & _). rewrite L3 in L. apply Nat.ltb_lt in L. change OSCORE_INTERACTIONS_COUNT with 3%nat. rewrite L. eauto. }
  destruct UWD as (t & UWD).
  set (nn := match piv with [] => None | _ => Some o end).
  assert (NEWP : uses_new_piv c k = true -> piv <> []).
  { intros E. unfold wire_ids in WI. rewrite E in WI. destruct WI as (P & _). apply ssn2piv_ok in P as (_ & (_ & _ & M & _) & _).
    intros ->. change (lenN (@nil N)) with 0 in M. lia. }
  assert (DW : decrypt_wrapper cr d nn k' = (set_inter (match nn with Some _ => set_nonce d nonce | None => d end) t, Ok (pt, r))).
  { eapply decrypt_opens; try eassumption.
    - apply RWD.
    - destruct (uses_new_piv c k) eqn:NU.
      + specialize (NEWP eq_refl). unfold nn. destruct piv as [|b0 pv]; [congruence|]. rewrite OK'. cbn [bind]. rewrite OP, <- H3.
        unfold wire_ids in WI. destruct WI as (_ & -> & _). exact NN.
      + unfold wire_ids in WI. destruct WI as (-> & _). cbn [nn]. rewrite NN. f_equal. symmetry. apply PN.
        apply (plain_spec c input k EK). exact NU.
    - rewrite <- H4. exact AA.
    - rewrite <- H1. apply cose_inverse; assumption.
    - rewrite (uri_path_ext _ k r m); [exact UR|exact EM|rewrite MR; reflexivity]. }
  assert (CORE : exists d', oscore2coap_core cr d (pkt_bytes out) = (d', Ok r) /\ c_win d' = c_win d /\ c_echo d' = c_echo d /\ c_inter d' = t /\
    (if ob then c_notif_init d' = true /\ c_notif d' = c_ssn c else c_notif_init d' = c_notif_init d /\ c_notif d' = c_notif d)).
  { unfold oscore2coap_core, check_context_freshness. destruct (N.leb_spec OSCORE_SSN_OVERFLOW_VALUE (c_ssn d)); [lia|]. cbn [tryc].
    rewrite EK'. cbn [tryc]. rewrite EO. cbn [tryc]. rewrite PL', LC. change AUTH_TAG_LEN with 8. rewrite sub32_small by lia.
    unfold byte_array_new. replace (lenN pt + 8 - 8) with (lenN pt) by lia. unfold check_buffer_size, MAX_PLAINTEXT_LEN.
    destruct (N.ltb_spec 1024 (lenN pt)); [lia|]. cbn [tryc]. rewrite RQK. unfold recv_response. rewrite OB'. fold ob. rewrite OP.
    destruct ob eqn:EOB.
    - assert (NU : uses_new_piv c k = true) by (unfold uses_new_piv, needs_new_piv; rewrite TYK; reflexivity).
      specialize (NEWP NU). unfold wire_ids in WI. rewrite NU in WI. destruct WI as (P & _).
      assert (PIV2 : piv2ssn piv = Ok (c_ssn c)) by (apply ssn_piv_round_trip; exact P).
      destruct piv as [|b0 pv]; [congruence|]. unfold check_notification. rewrite PIV2. cbn [bind].
      assert (F : c_notif_init d && (c_ssn c <=? c_notif d) = false).
      { destruct (c_notif_init d) eqn:NI; [|reflexivity]. cbn [andb]. apply N.leb_gt. apply FN; reflexivity. }
      rewrite F. cbn [tryc]. unfold nn in DW; cbv iota in DW. rewrite DW. cbn [callc]. rewrite ?PIV2. cbn [tryc]. eexists. split; [reflexivity|]. repeat split.
    - assert (X : match piv with [] => None | _ :: _ => Some o end = nn) by reflexivity. rewrite X, DW. cbn [callc]. eexists. split; [reflexivity|]. destruct nn; repeat split. }
  destruct CORE as (d' & CORE & CW & CE' & CI & CNT). exists d'.
  unfold oscore2coap. rewrite CORE. rewrite serialize_back by assumption. split; [reflexivity|]. split; [exact CW|]. split; [exact CE'|].
  split; [|exact CNT]. cbv zeta. fold ob. rewrite TYR in UWD. rewrite TYK in UW.
  destruct ob; cbn [update_wrapper] in UWD, UW.
  - injection UWD as UWD. injection UW as UW. rewrite CI, <- UWD, <- UW. split; intros z; (split; [intros Hz; split; [exact Hz|intros [G _]; discriminate G]|tauto]).
  - split; intros z.
    + rewrite CI. apply remove_record_held in UWD as (_ & _ & G); [|exact TD]. rewrite <- TK'. rewrite (G z).
      split; (intros [A B]; split; [exact A|]); [intros [_ E]; contradiction|]. intros E. apply B. auto.
    + apply remove_record_held in UW as (_ & _ & G); [|exact TC]. rewrite <- ETK. rewrite (G z).
      split; (intros [A B]; split; [exact A|]); [intros [_ E]; contradiction|]. intros E. apply B. auto.
Qed.
Lemma response_round_trip_state nw c d s m input buf buf1 n buf2 :
  crypto_ok cr -> usable c -> usable d -> hears c d ->
  rfc_message m input -> supported m input -> is_bytes input -> 32 <= m_code m ->
  lenN buf < 2 ^ 16 -> lenN buf2 < 2 ^ 32 ->
  coap2oscore cr nw c input buf = (s, buf1, Ok n) ->
  c_ssn d < OSCORE_SSN_OVERFLOW_VALUE ->
  (forall x, held (c_inter c) x -> i_token x = m_token m ->
     exists y, held (c_inter d) y /\ i_token y = m_token m /\ i_piv y = i_piv x /\ i_kid y = i_kid x) ->
  (plain_response c input -> c_nonce c = c_nonce d) ->
  (existsb (fun p => fst p =? 6) (m_opts m) = true -> c_notif_init d = true -> c_notif d < c_ssn c) ->
  exists out, rfc_message (received m) out /\
   (lenN out <= lenN buf2 ->
    exists d', oscore2coap cr d (takeN n buf1) buf2 = (d', written out buf2, Ok (lenN out)) /\
      c_win d' = c_win d /\ c_echo d' = c_echo d /\
      (let gone x := existsb (fun p => fst p =? 6) (m_opts m) = false /\ i_token x = m_token m in
        (forall x, held (c_inter d') x <-> held (c_inter d) x /\ ~ gone x) /\
        (forall x, held (c_inter (s_ctx s)) x <-> held (c_inter c) x /\ ~ gone x)) /\
      (if existsb (fun p => fst p =? 6) (m_opts m) then c_notif_init d' = true /\ c_notif d' = c_ssn c
       else c_notif_init d' = c_notif_init d /\ c_notif d' = c_notif d)).
Proof.
  intros OK HRC HRD HH HM SUP HB HC LB LB2 HS SD REC PN FN.
  pose proof (response_round_trip_gen nw c d s m input buf buf1 n buf2 (m_payload m)) as G. rewrite with_own in G.
  apply G; try assumption.
  - apply supported_nearly. exact SUP.
  - intros k e u elen pt EK ES EP. apply (plaintext_supported m input k e u elen pt); assumption.
  - lia.
Qed.
Lemma response_round_trip nw c d s m input buf buf1 n buf2 :
  crypto_ok cr -> usable c -> usable d -> hears c d ->
  rfc_message m input -> supported m input -> is_bytes input -> 32 <= m_code m ->
  lenN buf < 2 ^ 16 -> lenN buf2 < 2 ^ 32 ->
  coap2oscore cr nw c input buf = (s, buf1, Ok n) ->
  c_ssn d < OSCORE_SSN_OVERFLOW_VALUE ->
  (forall x, held (c_inter c) x -> i_token x = m_token m ->
     exists y, held (c_inter d) y /\ i_token y = m_token m /\ i_piv y = i_piv x /\ i_kid y = i_kid x) ->
  (plain_response c input -> c_nonce c = c_nonce d) ->
  (existsb (fun p => fst p =? 6) (m_opts m) = true -> c_notif_init d = true -> c_notif d < c_ssn c) ->
  exists out, rfc_message (received m) out /\
   (lenN out <= lenN buf2 ->
    exists d', oscore2coap cr d (takeN n buf1) buf2 = (d', written out buf2, Ok (lenN out))).
Proof.
  intros OK HRC HRD HH HM SUP HB HC LB LB2 HS SD REC PN FN.
  destruct (response_round_trip_state nw c d s m input buf buf1 n buf2 OK HRC HRD HH HM SUP HB HC LB LB2 HS SD REC PN FN)
    as (out & RO & F). exists out. split; [exact RO|]. intros L. destruct (F L) as (d' & E & _). eauto.
Qed.
End WithCrypto.
