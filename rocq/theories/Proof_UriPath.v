(** Lemmas about uri_path_create. *)
From Verif Require Import Base Proof_Base Model_Common Model_Coap Spec_UriPath.

Definition cat_segs (segs : list bytes) : bytes := concat (map (fun v => v ++ [47]) segs).

Lemma cat_segs_len segs : lenN (cat_segs segs) = segs_size segs.
Proof.
  induction segs as [|v segs IH]; [reflexivity|]. unfold cat_segs in *. cbn [map concat segs_size].
  rewrite lenN_app, lenN_app, IH. change (lenN [47]) with 1. lia.
Qed.

Lemma cat_segs_join segs : segs <> [] -> cat_segs segs = join_path segs ++ [47].
Proof.
  induction segs as [|v segs IH]; [congruence|]. intros _. destruct segs as [|w segs].
  - unfold cat_segs. cbn [map concat join_path]. apply app_nil_r.
  - unfold cat_segs in *. cbn [map concat]. cbn [map concat] in IH. rewrite IH by discriminate.
    change (join_path (v :: w :: segs)) with (v ++ 47 :: join_path (w :: segs)).
    rewrite <- !app_assoc. reflexivity.
Qed.

Lemma buffer_append_exact cur max sub : max < 2 ^ 32 -> lenN cur <= max ->
  buffer_append cur max sub = if lenN cur + lenN sub <=? max then Ok (cur ++ sub) else Err buffer_to_small.
Proof.
  intros Hm Hc. unfold buffer_append, check_buffer_size, sub32.
  replace ((max + 2 ^ 32 - lenN cur) mod 2 ^ 32) with (max - lenN cur)
    by (change (2 ^ 32) with 4294967296 in *; lia).
  destruct (N.eqb_spec (lenN sub) 0) as [E|E].
  - apply lenN_0 in E. subst. rewrite app_nil_r. rewrite lenN_nil.
    destruct (N.leb_spec (lenN cur + 0) max); [reflexivity|lia].
  - destruct (N.ltb_spec (max - lenN cur) (lenN sub)); cbn [bind];
      destruct (N.leb_spec (lenN cur + lenN sub) max); try lia; try reflexivity.
    destruct (N.ltb_spec max (lenN cur + lenN sub)); [lia|reflexivity].
Qed.

Lemma uri_path_loop_exact opts max : max < 2 ^ 32 -> forall cur, lenN cur <= max ->
  uri_path_loop opts max cur =
    if lenN cur + segs_size (path_segments opts) <=? max then Ok (cur ++ cat_segs (path_segments opts))
    else Err buffer_to_small.
Proof.
  intros Hm. induction opts as [|o opts IH]; intros cur Hc.
  - cbn. rewrite app_nil_r. rewrite N.add_0_r. destruct (N.leb_spec (lenN cur) max); [reflexivity|lia].
  - cbn [uri_path_loop]. unfold path_segments in *. cbn [filter].
    change OPT_URI_PATH with 11. destruct (o_num o =? 11); [|apply IH; assumption].
    cbn [map segs_size]. rewrite buffer_append_exact by assumption.
    destruct (N.leb_spec (lenN cur + lenN (o_val o)) max) as [H|H]; cbn [bind].
    + rewrite buffer_append_exact by (rewrite ?lenN_app; assumption).
      rewrite lenN_app. change (lenN [47]) with 1.
      destruct (N.leb_spec (lenN cur + lenN (o_val o) + 1) max) as [H'|H']; cbn [bind].
      * rewrite IH by (rewrite !lenN_app; change (lenN [47]) with 1; lia).
        rewrite !lenN_app. change (lenN [47]) with 1.
        replace (lenN cur + lenN (o_val o) + 1 + segs_size (map o_val (filter (fun o0 => o_num o0 =? 11) opts)))
          with (lenN cur + (lenN (o_val o) + 1 + segs_size (map o_val (filter (fun o0 => o_num o0 =? 11) opts)))) by lia.
        destruct (_ <=? max); [|reflexivity]. unfold cat_segs. cbn [map concat]. rewrite <- !app_assoc. reflexivity.
      * destruct (N.leb_spec (lenN cur + (lenN (o_val o) + 1 + segs_size (map o_val (filter (fun o0 => o_num o0 =? 11) opts)))) max); [lia|reflexivity].
    + destruct (N.leb_spec (lenN cur + (lenN (o_val o) + 1 + segs_size (map o_val (filter (fun o0 => o_num o0 =? 11) opts)))) max); [lia|reflexivity].
Qed.

Lemma uri_path_create_exact opts max : 0 < max -> max < 2 ^ 32 ->
  uri_path_create opts max =
    let segs := path_segments opts in
    if segs_size segs <? max then Ok (path_string segs)
    else if segs_size segs =? max then UB OobWrite else Err buffer_to_small.
Proof.
  intros H0 Hm. unfold uri_path_create. rewrite uri_path_loop_exact by (rewrite ?lenN_nil; lia).
  cbn zeta. rewrite lenN_nil, N.add_0_l. cbn [app]. set (segs := path_segments opts).
  destruct (N.leb_spec (segs_size segs) max) as [H|H]; cbn [bind].
  - destruct segs as [|v segs].
    + cbn [cat_segs map concat segs_size path_string]. destruct (N.ltb_spec 0 max); [|lia].
      change (cat_segs []) with (@nil N). cbn iota. destruct (N.eqb_spec max 0); [lia|reflexivity].
    + pose proof (cat_segs_len (v :: segs)) as L. rewrite (cat_segs_join (v :: segs)) in * by discriminate.
      rewrite lenN_app in L. change (lenN [47]) with 1 in L.
      destruct (join_path (v :: segs) ++ [47]) as [|x l] eqn:E.
      { apply app_eq_nil in E as [_ E]. discriminate. }
      rewrite <- E. rewrite lenN_app. change (lenN [47]) with 1. rewrite L.
      destruct (N.leb_spec max (segs_size (v :: segs))) as [G|G].
      * destruct (N.ltb_spec (segs_size (v :: segs)) max); [lia|].
        destruct (N.eqb_spec (segs_size (v :: segs)) max); [reflexivity|lia].
      * destruct (N.ltb_spec (segs_size (v :: segs)) max); [|lia].
        replace (segs_size (v :: segs) - 1) with (lenN (join_path (v :: segs))) by lia.
        rewrite takeN_app. reflexivity.
  - destruct (N.ltb_spec (segs_size segs) max); [lia|].
    destruct (N.eqb_spec (segs_size segs) max); [lia|reflexivity].
Qed.

(** Splitting at '/' is unambiguous for slash-free segments. *)
Lemma split_unique a b r s : ~ In 47 a -> ~ In 47 b -> a ++ 47 :: r = b ++ 47 :: s -> a = b /\ r = s.
Proof.
  revert b; induction a as [|x a IH]; intros [|y b] Ha Hb H; cbn in *.
  - injection H as ->. auto.
  - injection H as <- H. tauto.
  - injection H as -> H. tauto.
  - injection H as -> H. destruct (IH b) as [-> ->]; auto.
Qed.

Lemma no_slash_split a b r : ~ In 47 a -> a = b ++ 47 :: r -> False.
Proof. intros H ->. apply H. apply in_or_app. right; left; reflexivity. Qed.

Lemma join_path_inj : forall a b, Forall (fun v => ~ In 47 v) a -> Forall (fun v => ~ In 47 v) b ->
  a <> [] -> b <> [] -> join_path a = join_path b -> a = b.
Proof.
  induction a as [|v a IH]; intros [|w b] Ha Hb Na Nb H; try congruence.
  inversion Ha as [|? ? Ha1 Ha2]; inversion Hb as [|? ? Hb1 Hb2]; subst.
  destruct a as [|v' a], b as [|w' b].
  - cbn in H. congruence.
  - exfalso. eapply (no_slash_split v); [exact Ha1|exact H].
  - exfalso. eapply (no_slash_split w); [exact Hb1|symmetry; exact H].
  - change (v ++ 47 :: join_path (v' :: a) = w ++ 47 :: join_path (w' :: b)) in H.
    apply split_unique in H as [-> H]; [|assumption..]. f_equal. apply IH; auto; discriminate.
Qed.

Lemma path_string_inj a b :
  Forall (fun v => v <> [] /\ ~ In 47 v) a -> Forall (fun v => v <> [] /\ ~ In 47 v) b ->
  path_string a = path_string b -> a = b.
Proof.
  intros Ha Hb H.
  assert (X : forall c, Forall (fun v => v <> [] /\ ~ In 47 v) c -> c <> [] -> join_path c <> [47]).
  { intros [|v [|w c]] Hc Nc E; [congruence| |].
    - inversion Hc as [|? ? [_ Hv] _]; subst. cbn in E. subst. apply Hv. left; reflexivity.
    - inversion Hc as [|? ? [Hn _] Hc2]; subst. change (v ++ 47 :: join_path (w :: c) = [47]) in E.
      destruct v as [|x v]; [congruence|]. cbn in E. injection E as _ E. symmetry in E. apply app_cons_not_nil in E. exact E. }
  assert (Y : forall c, Forall (fun v => v <> [] /\ ~ In 47 v) c -> Forall (fun v => ~ In 47 v) c)
    by (intros c Hc; eapply Forall_impl; [|exact Hc]; cbn; tauto).
  destruct a as [|v a], b as [|w b]; [reflexivity| | |].
  - exfalso. apply (X (w :: b) Hb); [discriminate|]. symmetry; exact H.
  - exfalso. apply (X (v :: a) Ha); [discriminate|]. exact H.
  - apply join_path_inj; auto; discriminate.
Qed.
