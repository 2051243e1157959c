(** Taking the outer Observe option from a notification. *)
From Verif Require Import Base Proof_Base Model_Common Model_Crypto Model_Cbor Model_OscorePrims Model_Coap Spec_Coap Proof_Coap
  Model_Interactions Spec_Interactions Proof_Interactions Model_Context Model_Send Proof_Send
  Model_Recv Proof_Recv Model_Replay Model_Run Proof_Options Spec_Session Proof_Run Proof_Session Proof_Echo
  Spec_OuterCode Proof_OuterCode Spec_Stripped.

(** ** The parser of options as a function of what is left of the packet *)
Fixpoint walk (slots : N) (room : nat) (s : bytes) (num k : N) : res (list copt * bytes) :=
  match s with
  | [] => Ok ([], [])
  | b :: _ =>
      if b =? 255 then if lenN s <? 2 then Err not_valid_input_packet else Ok ([], dropN 1 s)
      else
        let* (delta, p1) := parse_delta s 1 (b / 16) in
        let* (len, p2) := parse_len s p1 (b mod 16) in
        if slots <=? k then UB OobWrite
        else
          let* v := slice s p2 len in
          let o := {| o_delta := delta; o_num := u16 (num + delta); o_val := v; o_tail := dropN (p2 + len) s |} in
          match room with
          | S (S _ as room') =>
              let* (l, pl) := walk slots room' (dropN (p2 + len) s) (u16 (num + delta)) (k + 1) in
              Ok (o :: l, pl)
          | _ => Err too_many_options
          end
  end.

Lemma walk_cons slots room b s' num k : walk slots room (b :: s') num k =
      if b =? 255 then if lenN (b :: s') <? 2 then Err not_valid_input_packet else Ok ([], dropN 1 (b :: s'))
      else
        let* (delta, p1) := parse_delta (b :: s') 1 (b / 16) in
        let* (len, p2) := parse_len (b :: s') p1 (b mod 16) in
        if slots <=? k then UB OobWrite
        else
          let* v := slice (b :: s') p2 len in
          match room with
          | S (S _ as room') =>
              let* (l, pl) := walk slots room' (dropN (p2 + len) (b :: s')) (u16 (num + delta)) (k + 1) in
              Ok ({| o_delta := delta; o_num := u16 (num + delta); o_val := v; o_tail := dropN (p2 + len) (b :: s') |} :: l, pl)
          | _ => Err too_many_options
          end.
Proof. destruct room; reflexivity. Qed.

Lemma rd_shift x s j : rd (x ++ s) (lenN x + j) = rd s j.
Proof.
  unfold rd, lenN. rewrite Nnat.N2Nat.inj_add, Nnat.Nat2N.id, nth_error_app2 by lia.
  replace (length x + N.to_nat j - length x)%nat with (N.to_nat j) by lia. reflexivity.
Qed.
Lemma dropN_shift {A} (x s : list A) j : dropN (lenN x + j) (x ++ s) = dropN j s.
Proof. rewrite <- dropN_dropN, dropN_app. reflexivity. Qed.
Lemma slice_shift x s j n : slice (x ++ s) (lenN x + j) n = slice s j n.
Proof.
  unfold slice. rewrite dropN_shift, lenN_app. destruct (N.leb_spec (j + n) (lenN s)), (N.leb_spec (lenN x + j + n) (lenN x + lenN s)); try lia; reflexivity.
Qed.
Definition shift (a : N) (r : res (N * N)) : res (N * N) := let* (v, p) := r in Ok (v, a + p).
Lemma parse_delta_shift x s j nib : parse_delta (x ++ s) (lenN x + j) nib = shift (lenN x) (parse_delta s j nib).
Proof.
  unfold parse_delta, shift. destruct (nib =? 13); [rewrite rd_shift; destruct (rd s j); cbn [bind]; rewrite ?N.add_assoc; reflexivity|].
  destruct (nib =? 14). { rewrite <- N.add_assoc, !rd_shift. destruct (rd s j); cbn [bind]; [|reflexivity..]. destruct (rd s (j + 1)); cbn [bind]; rewrite ?N.add_assoc; reflexivity. }
  destruct (nib =? 15); reflexivity.
Qed.
Lemma parse_len_shift x s j nib : parse_len (x ++ s) (lenN x + j) nib = shift (lenN x) (parse_len s j nib).
Proof.
  unfold parse_len, shift. destruct (nib =? 13); [rewrite rd_shift; destruct (rd s j); cbn [bind]; rewrite ?N.add_assoc; reflexivity|].
  destruct (nib =? 14). { rewrite <- N.add_assoc, !rd_shift. destruct (rd s j); cbn [bind]; [|reflexivity..]. destruct (rd s (j + 1)); cbn [bind]; rewrite ?N.add_assoc; reflexivity. }
  destruct (nib =? 15); reflexivity.
Qed.
Lemma parse_delta_ge s j nib v p : parse_delta s j nib = Ok (v, p) -> j <= p.
Proof.
  unfold parse_delta. destruct (nib =? 13); [intros H; apply bind_ok in H as (? & _ & H); injection H as _ <-; lia|].
  destruct (nib =? 14). { intros H. apply bind_ok in H as (? & _ & H). apply bind_ok in H as (? & _ & H). injection H as _ <-. lia. }
  destruct (nib =? 15); intros H; [discriminate|]. injection H as _ <-. lia.
Qed.
Lemma parse_len_ge s j nib v p : parse_len s j nib = Ok (v, p) -> j <= p.
Proof.
  unfold parse_len. destruct (nib =? 13); [intros H; apply bind_ok in H as (? & _ & H); injection H as _ <-; lia|].
  destruct (nib =? 14). { intros H. apply bind_ok in H as (? & _ & H). apply bind_ok in H as (? & _ & H). injection H as _ <-. lia. }
  destruct (nib =? 15); intros H; [discriminate|]. injection H as _ <-. lia.
Qed.

Lemma loop_walk room : forall slots x s num acc, lenN (x ++ s) < 2 ^ 16 ->
  options_deserialize_loop (x ++ s) slots room (lenN x) (lenN x) num acc =
  (let* (l, pl) := walk slots room s num (lenN acc) in Ok (acc ++ l, pl)).
Proof.
  induction room as [|room IH]; intros slots x s num acc HL; destruct s as [|b s'];
    [cbn [options_deserialize_loop walk]; rewrite app_nil_r, N.ltb_irrefl; cbn [bind]; rewrite app_nil_r; reflexivity| |
     cbn [options_deserialize_loop walk]; rewrite app_nil_r, N.ltb_irrefl; cbn [bind]; rewrite app_nil_r; reflexivity|];
    set (s := b :: s') in *; assert (LS : 1 <= lenN s) by (unfold s; rewrite lenN_cons; lia);
    assert (R0 : rd (x ++ s) (lenN x) = Ok b) by (apply rd_app_here);
    assert (LT : lenN x <? lenN (x ++ s) = true) by (apply N.ltb_lt; rewrite lenN_app; lia).
  - unfold s at 2. rewrite walk_cons. fold s. cbn [options_deserialize_loop]. rewrite LT, R0. cbn [bind]. change OPTION_PAYLOAD_MARKER with 255. destruct (b =? 255).
    + rewrite lenN_app. replace (lenN x + lenN s - lenN x) with (lenN s) by lia. destruct (lenN s <? 2) eqn:E2; [reflexivity|].
      cbn [bind]. rewrite app_nil_r. unfold u16. rewrite N.mod_small by (rewrite lenN_app in HL; change (2 ^ 16) with 65536 in *; apply N.ltb_ge in E2; lia).
      rewrite dropN_shift. reflexivity.
    + rewrite parse_delta_shift. destruct (parse_delta s 1 (b / 16)) as [[d p1]|?|?]; cbn [bind shift]; [|reflexivity..].
      rewrite parse_len_shift. destruct (parse_len s p1 (b mod 16)) as [[n p2]|?|?]; cbn [bind shift]; [|reflexivity..].
      destruct (slots <=? lenN acc); [reflexivity|]. rewrite slice_shift. destruct (slice s p2 n); reflexivity.
  - unfold s at 2. rewrite walk_cons. fold s. cbn [options_deserialize_loop]. rewrite LT, R0. cbn [bind]. change OPTION_PAYLOAD_MARKER with 255. destruct (b =? 255).
    + rewrite lenN_app. replace (lenN x + lenN s - lenN x) with (lenN s) by lia. destruct (lenN s <? 2) eqn:E2; [reflexivity|].
      cbn [bind]. rewrite app_nil_r. unfold u16. rewrite N.mod_small by (rewrite lenN_app in HL; change (2 ^ 16) with 65536 in *; apply N.ltb_ge in E2; lia).
      rewrite dropN_shift. reflexivity.
    + rewrite parse_delta_shift. destruct (parse_delta s 1 (b / 16)) as [[d p1]|?|?] eqn:ED; cbn [bind shift]; [|reflexivity..].
      rewrite parse_len_shift. destruct (parse_len s p1 (b mod 16)) as [[n p2]|?|?] eqn:EL; cbn [bind shift]; [|reflexivity..].
      destruct (slots <=? lenN acc); [reflexivity|]. rewrite slice_shift. destruct (slice s p2 n) as [v|?|?] eqn:SL; cbn [bind]; [|reflexivity..].
      destruct room as [|room]; [reflexivity|].
      apply slice_ok in SL as (_ & SL & _). apply parse_delta_ge in ED. apply parse_len_ge in EL.
      assert (EX : x ++ s = (x ++ takeN (p2 + n) s) ++ dropN (p2 + n) s) by (rewrite <- app_assoc, takeN_dropN; reflexivity).
      assert (LX : lenN (x ++ takeN (p2 + n) s) = lenN x + p2 + n) by (rewrite lenN_app, lenN_takeN by lia; lia).
      replace (u16 (lenN x + (lenN x + p2 - lenN x) + n)) with (lenN (x ++ takeN (p2 + n) s)).
      2:{ rewrite LX. unfold u16. rewrite N.mod_small; [lia|]. rewrite lenN_app in HL. change (2 ^ 16) with 65536 in *. lia. }
      rewrite <- N.add_assoc, dropN_shift.
      replace (lenN x + (p2 + n)) with (lenN (x ++ takeN (p2 + n) s)) by (rewrite LX; lia).
      rewrite EX at 1. rewrite IH by (rewrite <- EX; exact HL). rewrite lenN_app. change (lenN [_]) with 1.
      destruct (walk slots (S room) (dropN (p2 + n) s) (u16 (num + d)) (lenN acc + 1)) as [[l pl]|?|?]; cbn [bind]; [|reflexivity..].
      rewrite <- app_assoc. reflexivity.
Qed.

(** More room does no harm. *)
Lemma walk_more slots : forall room room' s num k k' r, walk slots room s num k = Ok r -> k' <= k -> (room <= room')%nat ->
  walk slots room' s num k' = Ok r.
Proof.
  induction room as [|room IH]; intros room' s num k k' r H HK HR; destruct s as [|b s'];
    try (destruct room'; exact H).
  - cbn [walk] in H. destruct room'; cbn [walk]; (destruct (b =? 255); [exact H|]);
      apply bind_ok in H as ([d p1] & E1 & H); apply bind_ok in H as ([n p2] & E2 & H);
      (destruct (slots <=? k); [discriminate|]); apply bind_ok in H as (v & E3 & H); discriminate.
  - destruct room' as [|room']; [lia|]. cbn [walk] in *. destruct (b =? 255); [exact H|].
    apply bind_ok in H as ([d p1] & E1 & H). apply bind_ok in H as ([n p2] & E2 & H).
    rewrite E1. cbn [bind]. rewrite E2. cbn [bind]. destruct (N.leb_spec slots k); [discriminate|].
    destruct (N.leb_spec slots k'); [lia|]. apply bind_ok in H as (v & E3 & H). rewrite E3. cbn [bind].
    destruct room as [|room]; [discriminate|]. destruct room' as [|room']; [lia|].
    apply bind_ok in H as ([l pl] & E4 & H). erewrite IH; [|exact E4|lia|lia]. cbn [bind]. exact H.
Qed.

Lemma loop_start slots room d num : lenN d < 2 ^ 16 -> options_deserialize_loop d slots room 0 0 num [] = walk slots room d num 0.
Proof.
  intros HL. pose proof (loop_walk room slots [] d num [] HL) as X. cbn [app] in X. change (lenN (@nil N)) with 0 in X. rewrite X.
  change (lenN (@nil copt)) with 0. destruct (walk slots room d num 0) as [[l pl]|?|?]; reflexivity.
Qed.

Definition same_option (a b : copt) : Prop := o_num a = o_num b /\ o_val a = o_val b /\ o_tail a = o_tail b.

Lemma small_nibble s j n : n < 13 -> parse_delta s j n = Ok (n, j) /\ parse_len s j n = Ok (n, j).
Proof.
  intros L. unfold parse_delta, parse_len. rewrite (proj2 (N.eqb_neq n 13)), (proj2 (N.eqb_neq n 14)), (proj2 (N.eqb_neq n 15)) by lia. auto.
Qed.

Lemma parse_len_cons a b s j n : parse_len (a :: s) (1 + j) n = parse_len (b :: s) (1 + j) n.
Proof.
  assert (R : forall i, rd (a :: s) (1 + i) = rd (b :: s) (1 + i)).
  { intros i. unfold rd. replace (N.to_nat (1 + i)) with (S (N.to_nat i)) by lia. reflexivity. }
  unfold parse_len. rewrite <- N.add_assoc, !R. reflexivity.
Qed.
Lemma slice_cons a b s j n : slice (a :: s) (1 + j) n = slice (b :: s) (1 + j) n.
Proof.
  unfold slice. rewrite !lenN_cons. assert (D : forall x, dropN (1 + j) (x :: s) = dropN j s).
  { intros x. unfold dropN. replace (N.to_nat (1 + j)) with (S (N.to_nat j)) by lia. reflexivity. }
  rewrite !D. reflexivity.
Qed.
Lemma dropN_cons {A} (a : A) s j : dropN (1 + j) (a :: s) = dropN j s.
Proof. unfold dropN. replace (N.to_nat (1 + j)) with (S (N.to_nat j)) by lia. reflexivity. Qed.

Lemma nibbles h l : l < 16 -> (h * 16 + l) / 16 = h /\ (h * 16 + l) mod 16 = l.
Proof. intros L. split; [symmetry; apply N.div_unique with l; lia|symmetry; apply N.mod_unique with h; lia]. Qed.

Lemma walk_strip slots v l rest : lenN v < 13 -> l < 16 -> forall room opts pl,
  walk slots (S (S (S room))) ((6 * 16 + lenN v) :: v ++ (3 * 16 + l) :: rest) 0 0 = Ok (opts, pl) ->
  exists o6 o9 o9' more, opts = o6 :: o9 :: more /\ o_num o6 = 6 /\ o_num o9 = 9 /\ same_option o9' o9 /\
    walk slots (S (S (S room))) ((9 * 16 + l) :: rest) 0 0 = Ok (o9' :: more, pl).
Proof.
  intros LV LL room opts pl H. rewrite walk_cons in H. rewrite (proj2 (N.eqb_neq (6 * 16 + lenN v) 255)) in H by lia.
  rewrite (proj1 (nibbles 6 (lenN v) ltac:(lia))) in H.
  rewrite (proj2 (nibbles 6 (lenN v) ltac:(lia))) in H.
  set (s := v ++ (3 * 16 + l) :: rest) in *.
  rewrite (proj1 (small_nibble _ 1 6 eq_refl)) in H. cbn [bind] in H. rewrite (proj2 (small_nibble _ 1 (lenN v) LV)) in H. cbn [bind] in H.
  destruct (slots <=? 0) eqn:S0; [discriminate|]. apply bind_ok in H as (v' & SV & H).
  apply bind_ok in H as ([more1 pl1] & W & H). injection H as <- <-.
  assert (DS : dropN (1 + lenN v) ((6 * 16 + lenN v) :: s) = (3 * 16 + l) :: rest) by (rewrite dropN_cons; apply dropN_app).
  rewrite DS in W. rewrite walk_cons in W. rewrite (proj2 (N.eqb_neq (3 * 16 + l) 255)) in W by lia.
  rewrite (proj1 (nibbles 3 (l) ltac:(lia))) in W.
  rewrite (proj2 (nibbles 3 (l) ltac:(lia))) in W.
  rewrite (proj1 (small_nibble _ 1 3 eq_refl)) in W. cbn [bind] in W. apply bind_ok in W as ([n p2] & PL & W).
  destruct (slots <=? 0 + 1) eqn:S1; [discriminate|]. apply bind_ok in W as (v9 & SV9 & W).
  apply bind_ok in W as ([more pl2] & W2 & W). injection W as <- <-.
  apply parse_len_ge in PL as PG. assert (EP : p2 = 1 + (p2 - 1)) by lia.
  assert (EN : u16 (u16 (0 + 6) + 3) = u16 (0 + 9)) by reflexivity.
  do 4 eexists. split; [reflexivity|]. split; [reflexivity|]. split; [reflexivity|].
  rewrite walk_cons. rewrite (proj2 (N.eqb_neq (9 * 16 + l) 255)) by lia.
  rewrite (proj1 (nibbles 9 (l) ltac:(lia))).
  rewrite (proj2 (nibbles 9 (l) ltac:(lia))).
  rewrite (proj1 (small_nibble _ 1 9 eq_refl)). cbn [bind].
  pose proof (parse_len_cons (9 * 16 + l) (3 * 16 + l) rest 0 l) as PC. change (1 + 0) with 1 in PC. rewrite PC, PL. cbn [bind]. rewrite S0.
  rewrite EP, (slice_cons _ (3 * 16 + l)), <- EP, SV9. cbn [bind].
  assert (DR : forall x, dropN (p2 + n) (x :: rest) = dropN (p2 - 1 + n) rest).
  { intros x. replace (p2 + n) with (1 + (p2 - 1 + n)) by lia. apply dropN_cons. }
  rewrite (DR (3 * 16 + l)) in W2. rewrite (DR (9 * 16 + l)), <- EN. erewrite walk_more; [|exact W2|lia|lia]. cbn [bind].
  split; [|reflexivity]. unfold same_option. cbn [o_num o_val o_tail]. rewrite DR. auto.
Qed.

Lemma strip_parse hdr tok v l rest k : header_for hdr tok -> lenN v < 13 -> l < 16 -> lenN (with_observe hdr tok v l rest) < 2 ^ 16 ->
  coap_deserialize (with_observe hdr tok v l rest) = Ok k ->
  exists k' o6 o9 o9' more, coap_deserialize (without_observe hdr tok l rest) = Ok k' /\
    k_hdr k' = k_hdr k /\ k_token k' = k_token k /\ k_token k = tok /\ k_payload k' = k_payload k /\
    k_opts k = o6 :: o9 :: more /\ k_opts k' = o9' :: more /\ o_num o6 = 6 /\ o_num o9 = 9 /\ same_option o9' o9.
Proof.
  intros (H4 & b0 & N0 & LT) LV LL LI H.
  destruct hdr as [|a [|b [|x [|y [|z hdr]]]]]; unfold lenN in H4; cbn [length] in H4; try lia. clear H4.
  cbn in N0. injection N0 as <-. unfold with_observe, without_observe in *. unfold coap_deserialize in *.
  assert (T : forall q : bytes, takeN (a mod 16) (tok ++ q) = tok) by (intros q; rewrite <- LT; apply takeN_app).
  assert (D : forall q : bytes, dropN (a mod 16) (tok ++ q) = q) by (intros q; rewrite <- LT; apply dropN_app).
  set (q1 := (6 * 16 + lenN v) :: v ++ (3 * 16 + l) :: rest) in *. set (q2 := (9 * 16 + l) :: rest).
  cbn [app] in *. destruct (_ <? HEADER_LEN) in H; [discriminate|].
  assert (E4 : (lenN (a :: b :: x :: y :: tok ++ q2) <? HEADER_LEN) = false).
  { apply N.ltb_ge. rewrite !lenN_cons. change HEADER_LEN with 4. lia. }
  rewrite E4. unfold rd in *. change (N.to_nat 0) with 0%nat in *. change (N.to_nat 1) with 1%nat in *. change (N.to_nat 2) with 2%nat in *. change (N.to_nat 3) with 3%nat in *.
  cbn [nth_error bind] in *.
  change (dropN 4 (a :: b :: x :: y :: tok ++ q1)) with (tok ++ q1) in H. change (dropN 4 (a :: b :: x :: y :: tok ++ q2)) with (tok ++ q2).
  destruct (8 <? a mod 16); [discriminate|]. destruct (_ <? a mod 16) in H; [discriminate|].
  assert (E5 : (lenN (tok ++ q2) <? a mod 16) = false) by (apply N.ltb_ge; rewrite lenN_app; lia). rewrite E5.
  rewrite T, D in *. unfold options_deserialize in *.
  assert (LQ : lenN q1 < 2 ^ 16) by (rewrite !lenN_cons, lenN_app in LI; lia).
  assert (LQ2 : lenN q2 < 2 ^ 16).
  { unfold q1, q2 in *. rewrite !lenN_cons, lenN_app, lenN_cons in LQ. rewrite lenN_cons. lia. }
  unfold q1 at 1 in H. unfold q2 at 1. cbv match in *. fold q1 in H. fold q2.
  rewrite loop_start in H by exact LQ. rewrite loop_start by exact LQ2. apply bind_ok in H as ([opts pl] & W & H). injection H as <-.
  cbn [k_hdr k_token k_payload k_opts].
  destruct (walk_strip MAX_OPTION_COUNT v l rest LV LL 17 opts pl) as (o6 & o9 & o9' & more & -> & N6 & N9 & SO & W').
  { exact W. }
  change (N.to_nat MAX_OPTION_COUNT) with 20%nat. unfold q2. rewrite W'. cbn [bind].
  do 5 eexists. conj; try reflexivity; eassumption.
Qed.

Lemma strip_option o6 o9 o9' more o : o_num o6 = 6 -> o_num o9 = 9 -> same_option o9' o9 ->
  oscore_option_parser (o6 :: o9 :: more) = Ok o -> oscore_option_parser (o9' :: more) = Ok o.
Proof.
  intros N6 N9 (SN & SV & ST) H. unfold oscore_option_parser in *. cbn [oscore_option_parser_loop] in *.
  rewrite N6, N9 in H. rewrite SN, N9, SV, ST. exact H.
Qed.

Lemma strip_reorder o6 o9 o9' more e l : o_num o6 = 6 -> o_num o9 = 9 -> same_option o9' o9 -> lenN (o6 :: o9 :: more) <= 19 ->
  options_reorder (o6 :: o9 :: more) e = Ok l -> options_reorder (o9' :: more) e = Ok l.
Proof.
  intros N6 N9 (SN & SV & ST) HL H. unfold options_reorder in *. cbn [filter] in *. rewrite SN, N9. rewrite N6, N9 in H.
  cbn [negb andb N.eqb] in *. change (6 =? OPT_OSCORE) with false in H. change (6 =? OPT_OBSERVE) with true in H. change (9 =? OPT_OSCORE) with true in *.
  cbn [negb andb] in *.
  apply bind_ok in H as ([] & CB & H).
  set (g := filter _ more ++ e) in *. destruct (N.ltb_spec MAX_OPTION_COUNT (lenN g)) as [|LG]; [discriminate|].
  assert (LE : lenN e <= 20) by (unfold g in LG; rewrite lenN_app in LG; change MAX_OPTION_COUNT with 20 in LG; lia).
  rewrite !lenN_cons in *. unfold check_buffer_size in *. change MAX_OPTION_COUNT with 20 in *.
  assert (EU : forall x, 1 <= x < 257 -> u8 (x + 2 ^ 8 - 1) = x - 1).
  { intros x Hx. unfold u8. change (2 ^ 8) with 256. replace (x + 256 - 1) with (x - 1 + 1 * 256) by lia. rewrite N.mod_add by lia. apply N.mod_small. lia. }
  rewrite EU in * by lia. destruct (N.ltb_spec 20 (1 + (1 + lenN more) + lenN e - 1)) as [|L1]; [discriminate|].
  destruct (N.ltb_spec 20 (1 + lenN more + lenN e - 1)) as [|L2]; [lia|]. cbn [bind]. exact H.
Qed.

Lemma remove_ok t tok r : table_ok t -> get_record t tok = Ok r -> exists t', remove_record t tok = Ok t'.
Proof.
  intros (HL & _) H. unfold get_record, remove_record in *. destruct (_ <? _); [discriminate|].
  destruct (nth_error t (find_by_token t tok)) as [[x|]|] eqn:E; try discriminate.
  assert (L : (find_by_token t tok < 3)%nat) by (rewrite <- HL; apply nth_error_Some; congruence).
  apply Nat.ltb_lt in L. unfold OSCORE_INTERACTIONS_COUNT. rewrite L. eauto.
Qed.

Section WithCrypto.
Variable cr : crypto.

(** A response that was decrypted is decrypted again, in any context with the same keys and
    the same entry for the token, without its Observe option. *)
Lemma decrypt_stripped c c2 o k k' pt out c1 r : table_ok (c_inter c) -> table_ok (c_inter c2) -> same_keys c c2 ->
  decrypt_wrapper cr c (Some o) k = (c1, Ok (pt, out)) -> is_request k = false -> is_request out = false ->
  is_request k' = false -> k_token k' = k_token k -> k_payload k' = k_payload k -> o_coap_pkg_generate pt k' = Ok out ->
  held (c_inter c) r -> i_token r = k_token k -> held (c_inter c2) r ->
  exists c3, decrypt_wrapper cr c2 (Some o) k' = (c3, Ok (pt, out)).
Proof.
  intros HT HT2 SK H RQ RO RQ' ET EP PG' H1 H1t H2.
  apply decrypt_wrapper_ok in H as (rpiv & rkid & nonce & aad & uri & (RD & NO & AA & DE) & CN & PG & UP & UW).
  destruct NO as (kid & KV & NO).
  assert (G1 : get_record (c_inter c) (k_token k) = Ok r) by (apply get_record_held; auto).
  assert (G2 : get_record (c_inter c2) (k_token k) = Ok r) by (apply get_record_held; auto).
  assert (RD' : i_piv r = rpiv /\ i_kid r = rkid).
  { apply type_response in RQ as [T|T]; rewrite T in RD; cbn [read_wrapper] in RD; rewrite G1 in RD; cbn [bind] in RD; injection RD as <- <-; auto. }
  destruct RD' as [<- <-].
  assert (D3 : c_iv c2 = c_iv c) by (unfold same_keys in SK; tauto). assert (D4 : c_alg c2 = c_alg c) by (unfold same_keys in SK; tauto).
  assert (D5 : c_rkey c2 = c_rkey c) by (unfold same_keys in SK; tauto).
  unfold decrypt_wrapper. rewrite ET, EP.
  assert (RW : forall cur, read_wrapper (coap_get_message_type k') (k_token k) (c_inter c2) cur = Ok (i_piv r, i_kid r)).
  { intros cur. apply type_response in RQ' as [T|T]; rewrite T; cbn [read_wrapper]; rewrite G2; reflexivity. }
  rewrite RW. cbn [tryc]. rewrite KV. cbn [bind]. rewrite D3, NO. cbn [tryc]. rewrite D4, AA. cbn [tryc]. rewrite D5, DE. cbn [tryc].
  rewrite PG'. cbn [tryc]. rewrite UP. cbn [tryc]. cbn [set_nonce c_inter].
  destruct (remove_ok _ _ _ HT2 G2) as (t' & RM).
  apply type_response in RO as [T|T]; rewrite T; cbn [update_wrapper]; [rewrite RM|]; cbn [tryc]; eauto.
Qed.
End WithCrypto.
