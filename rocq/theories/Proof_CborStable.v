(** A decoder that succeeded does the same when more bytes follow. *)
From Verif Require Import Base Proof_Base Model_Common Model_Cbor Proof_Cbor Model_EdhocCfg Model_EdhocCbor.

Definition stable {A} (dec : bytes -> option (A * bytes)) : Prop :=
  forall l v r t, dec l = Some (v, r) -> dec (l ++ t) = Some (v, r ++ t).

Lemma takeN_more k (l t : bytes) : k <= lenN l -> takeN k (l ++ t) = takeN k l /\ dropN k (l ++ t) = dropN k l ++ t.
Proof.
  unfold takeN, dropN, lenN. intros H. rewrite firstn_app, skipn_app.
  replace (N.to_nat k - length l)%nat with O by lia. cbn. rewrite app_nil_r. auto.
Qed.
Lemma head_stable : stable dec_head.
Proof.
  intros l [mt v] r t. unfold dec_head. destruct l as [|b l]; [discriminate|]. cbn [app]. cbv zeta.
  destruct (_ <? 24).
  - intros H. injection H as <- <- <-. reflexivity.
  - set (w := match b mod 32 with 24 => 1 | 25 => 2 | 26 => 4 | 27 => 8 | _ => 0 end).
    destruct (w =? 0); [discriminate|]. unfold dec_arg.
    destruct (N.leb_spec w (lenN l)) as [L|L]; [|discriminate].
    assert (L' : (w <=? lenN (l ++ t)) = true) by (apply N.leb_le; rewrite lenN_app; lia).
    rewrite L'. destruct (takeN_more w l t L) as [-> ->]. intros H. injection H as <- <- <-. reflexivity.
Qed.
Lemma bstr_stable : stable dec_bstr.
Proof.
  intros l b r t. unfold dec_bstr. destruct (dec_head l) as [[[mt v] x]|] eqn:E; [|discriminate].
  apply (head_stable _ _ _ t) in E. rewrite E. destruct mt as [|[p|[p|p|]|]]; try discriminate.
  destruct (N.leb_spec v (lenN x)) as [L|L]; [|discriminate].
  assert (L' : (v <=? lenN (x ++ t)) = true) by (apply N.leb_le; rewrite lenN_app; lia).
  rewrite L'. destruct (takeN_more v x t L) as [-> ->]. intros H. injection H as <- <-. reflexivity.
Qed.
Lemma tstr_stable : stable dec_tstr.
Proof.
  intros l b r t. unfold dec_tstr. destruct (dec_head l) as [[[mt v] x]|] eqn:E; [|discriminate].
  apply (head_stable _ _ _ t) in E. rewrite E. destruct mt as [|[[p|p|]|p|]]; try discriminate.
  destruct (N.leb_spec v (lenN x)) as [L|L]; [|discriminate].
  assert (L' : (v <=? lenN (x ++ t)) = true) by (apply N.leb_le; rewrite lenN_app; lia).
  rewrite L'. destruct (takeN_more v x t L) as [-> ->]. intros H. injection H as <- <-. reflexivity.
Qed.
Lemma uint_stable : stable dec_uint.
Proof.
  intros l b r t. unfold dec_uint. destruct (dec_head l) as [[[mt v] x]|] eqn:E; [|discriminate].
  apply (head_stable _ _ _ t) in E. rewrite E. destruct mt as [|p]; [|discriminate].
  destruct (v <? 2 ^ 32); [|discriminate]. intros H. injection H as <- <-. reflexivity.
Qed.
Lemma int_stable : stable dec_int.
Proof.
  intros l b r t. unfold dec_int. destruct (dec_head l) as [[[mt v] x]|] eqn:E; [|discriminate].
  apply (head_stable _ _ _ t) in E. rewrite E. destruct mt as [|[p|p|]]; try discriminate;
  (destruct (v <? 2 ^ 31); [|discriminate]; intros H; injection H as <- <-; reflexivity).
Qed.
Lemma list_stable : stable dec_list.
Proof.
  intros l b r t. unfold dec_list. destruct (dec_head l) as [[[mt v] x]|] eqn:E; [|discriminate].
  apply (head_stable _ _ _ t) in E. rewrite E. destruct mt as [|[p|[p|[p|p|]|]|]]; try discriminate.
  intros H. injection H as <- <-. reflexivity.
Qed.
Lemma map_stable : stable dec_map.
Proof.
  intros l b r t. unfold dec_map. destruct (dec_head l) as [[[mt v] x]|] eqn:E; [|discriminate].
  apply (head_stable _ _ _ t) in E. rewrite E. destruct mt as [|[[p|[p|p|]|]|p|]]; try discriminate.
  intros H. injection H as <- <-. reflexivity.
Qed.

(** the major type of what was read *)
Lemma bstr_mt l b r : dec_bstr l = Some (b, r) -> exists v x, dec_head l = Some (2, v, x).
Proof.
  unfold dec_bstr. destruct (dec_head l) as [[[mt v] x]|]; [|discriminate].
  destruct mt as [|[p|[p|p|]|]]; try discriminate. eauto.
Qed.
Lemma tstr_mt l b r : dec_tstr l = Some (b, r) -> exists v x, dec_head l = Some (3, v, x).
Proof.
  unfold dec_tstr. destruct (dec_head l) as [[[mt v] x]|]; [|discriminate].
  destruct mt as [|[[p|p|]|p|]]; try discriminate. eauto.
Qed.
Lemma int_mt l b r : dec_int l = Some (b, r) -> exists v x, dec_head l = Some (0, v, x) \/ dec_head l = Some (1, v, x).
Proof.
  unfold dec_int. destruct (dec_head l) as [[[mt v] x]|]; [|discriminate].
  destruct mt as [|[p|p|]]; try discriminate; eauto.
Qed.

Lemma int_or_bstr_stable : stable dec_int_or_bstr.
Proof.
  intros l v r t. unfold dec_int_or_bstr. destruct (dec_int l) as [[z x]|] eqn:E.
  - apply (int_stable _ _ _ t) in E. rewrite E. intros H. injection H as <- <-. reflexivity.
  - destruct (dec_bstr l) as [[b x]|] eqn:B; [|discriminate]. intros H. injection H as <- <-.
    destruct (bstr_mt _ _ _ B) as (v & y & M). apply (head_stable _ _ _ t) in M.
    assert (N : dec_int (l ++ t) = None) by (unfold dec_int; now rewrite M). rewrite N.
    apply (bstr_stable _ _ _ t) in B. now rewrite B.
Qed.
Lemma hash_pair_stable : stable dec_hash_pair.
Proof.
  intros l v r t. unfold dec_hash_pair. destruct (dec_list l) as [[n x]|] eqn:E; [|discriminate].
  apply (list_stable _ _ _ t) in E. rewrite E.
  destruct n as [|[p|[p|p|]|]]; try discriminate.
  destruct (dec_int x) as [[z y]|] eqn:EI.
  - apply (int_stable _ _ _ t) in EI. rewrite EI. destruct (dec_bstr y) as [[h w]|] eqn:B; [|discriminate].
    apply (bstr_stable _ _ _ t) in B. rewrite B. intros H. injection H as <- <-. reflexivity.
  - destruct (dec_tstr x) as [[s y]|] eqn:T; [|discriminate]. destruct (tstr_mt _ _ _ T) as (vv & yy & M).
    apply (head_stable _ _ _ t) in M.
    assert (N : dec_int (x ++ t) = None) by (unfold dec_int; now rewrite M). rewrite N.
    apply (tstr_stable _ _ _ t) in T. rewrite T. destruct (dec_bstr y) as [[h w]|] eqn:B; [|discriminate].
    apply (bstr_stable _ _ _ t) in B. rewrite B. intros H. injection H as <- <-. reflexivity.
Qed.

(** the entries of a map: nothing is left, or one of the keys [ks] comes next *)
Definition good (ks : list N) (s : N * bytes) : Prop :=
  fst s = 0 \/ exists k r, dec_uint (snd s) = Some (k, r) /\ In k ks.
Lemma entry_stable {A} key (dec : bytes -> option (A * bytes)) ks n l o n' l' t :
  stable dec -> ~ In key ks -> dec_entry key dec (n, l) = (o, (n', l')) -> good ks (n', l') ->
  good (key :: ks) (n, l) /\ dec_entry key dec (n, l ++ t) = (o, (n', l' ++ t)).
Proof.
  intros S NI E G. unfold dec_entry in *. destruct (N.eqb_spec n 0) as [Z|Z].
  { injection E as <- <- <-. split; [left; exact Z|reflexivity]. }
  destruct (dec_uint l) as [[k r]|] eqn:U.
  2:{ injection E as <- <- <-. destruct G as [G|(k & r & Q & _)]; cbn in *; congruence. }
  pose proof (uint_stable _ _ _ t U) as U'. rewrite U'.
  destruct (N.eqb_spec k key) as [->|NE].
  - destruct (dec r) as [[a r']|] eqn:D.
    + injection E as <- <- <-. apply (S _ _ _ t) in D. rewrite D. split; [|reflexivity].
      right. exists key, r. split; [exact U|now left].
    + injection E as <- <- <-. exfalso. destruct G as [G|(k & r2 & Q & I)]; cbn [fst snd] in *; [contradiction|].
      rewrite U in Q. injection Q as <- <-. contradiction.
  - injection E as <- <- <-. split; [|reflexivity].
    destruct G as [G|(k2 & r2 & Q & I)]; cbn [fst snd] in *; [contradiction|]. right. exists k2, r2. split; [exact Q|now right].
Qed.
Lemma id_map_stable : stable dec_id_cred_map.
Proof.
  intros l v r t H. unfold dec_id_cred_map in *. destruct (dec_map l) as [[n x]|] eqn:EM; [|discriminate].
  apply (map_stable _ _ _ t) in EM. rewrite EM.
  destruct (dec_entry 4 dec_int_or_bstr (n, x)) as [a1 [n1 l1]] eqn:E1.
  destruct (dec_entry 32 dec_bstr (n1, l1)) as [a2 [n2 l2]] eqn:E2.
  destruct (dec_entry 33 dec_bstr (n2, l2)) as [a3 [n3 l3]] eqn:E3.
  destruct (dec_entry 34 dec_hash_pair (n3, l3)) as [a4 [n4 l4]] eqn:E4.
  destruct (dec_entry 35 dec_bstr (n4, l4)) as [a5 [n5 l5]] eqn:E5.
  destruct (dec_entry 52 dec_bstr (n5, l5)) as [a6 [n6 l6]] eqn:E6.
  destruct (dec_entry 53 dec_bstr (n6, l6)) as [a7 [n7 l7]] eqn:E7.
  destruct (dec_entry 54 dec_hash_pair (n7, l7)) as [a8 [n8 l8]] eqn:E8.
  destruct (dec_entry 55 dec_bstr (n8, l8)) as [a9 [n9 l9]] eqn:E9.
  cbn [fst snd] in *. destruct (N.eqb_spec n9 0) as [Z|Z]; [|discriminate]. injection H as <- <-.
  assert (NI : forall k (ks : list N), forallb (fun x => negb (k =? x)) ks = true -> ~ In k ks).
  { intros k ks Q I. rewrite forallb_forall in Q. specialize (Q k I). rewrite N.eqb_refl in Q. discriminate. }
  assert (G : good [] (n9, l9)) by (left; exact Z).
  pose proof bstr_stable as SB. pose proof hash_pair_stable as SH. pose proof int_or_bstr_stable as SI.
  destruct (entry_stable 55 dec_bstr [] n8 l8 a9 n9 l9 t SB (NI 55 [] eq_refl) E9 G) as [G9 F9].
  destruct (entry_stable 54 dec_hash_pair [55] n7 l7 a8 n8 l8 t SH (NI 54 [55] eq_refl) E8 G9) as [G8 F8].
  destruct (entry_stable 53 dec_bstr [54; 55] n6 l6 a7 n7 l7 t SB (NI 53 [54; 55] eq_refl) E7 G8) as [G7 F7].
  destruct (entry_stable 52 dec_bstr [53; 54; 55] n5 l5 a6 n6 l6 t SB (NI 52 [53; 54; 55] eq_refl) E6 G7) as [G6 F6].
  destruct (entry_stable 35 dec_bstr [52; 53; 54; 55] n4 l4 a5 n5 l5 t SB (NI 35 [52; 53; 54; 55] eq_refl) E5 G6) as [G5 F5].
  destruct (entry_stable 34 dec_hash_pair [35; 52; 53; 54; 55] n3 l3 a4 n4 l4 t SH (NI 34 [35; 52; 53; 54; 55] eq_refl) E4 G5) as [G4 F4].
  destruct (entry_stable 33 dec_bstr [34; 35; 52; 53; 54; 55] n2 l2 a3 n3 l3 t SB (NI 33 [34; 35; 52; 53; 54; 55] eq_refl) E3 G4) as [G3 F3].
  destruct (entry_stable 32 dec_bstr [33; 34; 35; 52; 53; 54; 55] n1 l1 a2 n2 l2 t SB (NI 32 [33; 34; 35; 52; 53; 54; 55] eq_refl) E2 G3) as [G2 F2].
  destruct (entry_stable 4 dec_int_or_bstr [32; 33; 34; 35; 52; 53; 54; 55] n x a1 n1 l1 t SI (NI 4 [32; 33; 34; 35; 52; 53; 54; 55] eq_refl) E1 G2) as [G1 F1].
  rewrite F1, F2, F3, F4, F5, F6, F7, F8, F9. cbn [fst snd]. subst n9. reflexivity.
Qed.
Lemma id_choice_stable : stable dec_id_cred_choice.
Proof.
  intros l v r t. unfold dec_id_cred_choice. destruct (dec_id_cred_map l) as [[m x]|] eqn:E.
  - apply (id_map_stable _ _ _ t) in E. rewrite E. intros H. injection H as <- <-. reflexivity.
  - assert (NM : forall mt w y, dec_head l = Some (mt, w, y) -> mt < 5 -> dec_id_cred_map (l ++ t) = None).
    { intros mt w y M L. apply (head_stable _ _ _ t) in M. unfold dec_id_cred_map, dec_map. rewrite M.
      destruct mt as [|[[p|[p|p|]|]|p|]]; try reflexivity; lia. }
    destruct (dec_bstr l) as [[b x]|] eqn:B.
    + destruct (bstr_mt _ _ _ B) as (w & y & M). rewrite (NM _ _ _ M) by lia.
      apply (bstr_stable _ _ _ t) in B. rewrite B. intros H. injection H as <- <-. reflexivity.
    + destruct (dec_int l) as [[z x]|] eqn:I; [|discriminate]. intros H. injection H as <- <-.
      destruct (int_mt _ _ _ I) as (w & y & M).
      assert (N : dec_id_cred_map (l ++ t) = None /\ dec_bstr (l ++ t) = None).
      { destruct M as [M|M]; rewrite (NM _ _ _ M) by lia; apply (head_stable _ _ _ t) in M; unfold dec_bstr; now rewrite M. }
      destruct N as [-> ->]. apply (int_stable _ _ _ t) in I. now rewrite I.
Qed.
