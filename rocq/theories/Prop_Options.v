(** Properties C15 - C17: the OSCORE option, the split of options into encrypted
    and outer ones, and the merge on reception. Vocabulary in
    Spec_OscoreOption.v and Spec_Options.v. *)
From Coq Require Import Permutation.
From Verif Require Import Base Proof_Base Model_Common Model_Coap Model_Context Model_Send Model_Recv
  Spec_Coap Proof_Coap Spec_OscoreOption Proof_OscoreOption Spec_Options Proof_Options.

(** ** C15 *)

(** What the sender writes is the RFC 8613 encoding, and exactly the values that
    need more than 23 bytes are refused. [gen_len] is 0 if there is nothing to
    send, else 1 + |PIV| + |KID| + (1 + |KID context| if there is one). *)
Theorem C15_generate_conforms :
  forall piv kid kid_context : bytes, lenN piv <= 5 -> gen_len piv kid kid_context < 256 ->
  (23 < gen_len piv kid kid_context ->
     oscore_option_generate piv kid kid_context = Err buffer_to_small) /\
  (gen_len piv kid kid_context <= 23 ->
     exists v o, oscore_option_generate piv kid kid_context = Ok v /\ rfc_oscore_value o v /\
       oo_piv o = piv /\ opt_get (oo_kid o) = kid /\ opt_get (oo_ctx o) = kid_context).
Proof.
  intros piv kid ctx Hp HL. rewrite generate_exact by assumption. split; intros H.
  - destruct (N.ltb_spec 23 (gen_len piv kid ctx)); [reflexivity|lia].
  - destruct (N.ltb_spec 23 (gen_len piv kid ctx)); [lia|].
    destruct (N.eqb_spec (gen_len piv kid ctx) 0) as [E|E].
    + assert (X : piv = [] /\ kid = [] /\ ctx = []).
      { destruct piv, kid, ctx; cbn [gen_len] in E; rewrite ?lenN_cons in E; try lia; auto. }
      destruct X as (-> & -> & ->). exists [], oo_empty. repeat split. constructor.
    + assert (NE : ~ (piv = [] /\ kid = [] /\ ctx = [])) by (intros (-> & -> & ->); apply E; reflexivity).
      pose proof (gen_len_pos _ _ _ NE) as GL.
      exists (rfc_oscore_bytes (gen_opt piv kid ctx)), (gen_opt piv kid ctx). repeat split.
      * constructor; cbn [gen_opt oo_piv oo_ctx]; [assumption| |discriminate].
        intros c Hc. destruct ctx; [discriminate|]. injection Hc as <-. lia.
      * cbn. destruct ctx; reflexivity.
Qed.
Print Assumptions C15_generate_conforms.

(** The receiver reads every RFC 8613 value correctly, whatever follows the
    option in the packet. *)
Theorem C15_parse_conforms :
  forall (o : oscore_opt) (v tail : bytes), rfc_oscore_value o v -> lenN v < 256 ->
  exists r, oscore_value_parse (v ++ tail) (lenN v) = Ok r /\
    co_piv r = oo_piv o /\ co_kid_context r = opt_get (oo_ctx o) /\ kid_view r = Ok (opt_get (oo_kid o)).
Proof.
  intros o v tail H HL. inversion H as [E1 E2|o' Hp Hc Hn E1 E2]; subst.
  - eexists. split; [reflexivity|]. repeat split.
  - rewrite parse_bytes by assumption. eexists. split; [reflexivity|]. cbn [co_piv co_kid_context]. repeat split.
    unfold kid_view; cbn [co_kid_mem co_kid_len]. destruct (oo_kid o) as [k|]; cbn [opt_get].
    + exact (slice_app [] k tail).
    + reflexivity.
Qed.
Print Assumptions C15_parse_conforms.

Theorem C15_round_trip :
  forall (piv kid kid_context v tail : bytes), lenN piv <= 5 -> gen_len piv kid kid_context < 256 ->
  oscore_option_generate piv kid kid_context = Ok v ->
  exists r, oscore_value_parse (v ++ tail) (lenN v) = Ok r /\
    co_piv r = piv /\ co_kid_context r = kid_context /\ kid_view r = Ok kid.
Proof.
  intros piv kid ctx v tail Hp HL H. destruct (C15_generate_conforms piv kid ctx Hp HL) as [A B].
  destruct (N.le_gt_cases (gen_len piv kid ctx) 23) as [L|L]; [|rewrite A in H by exact L; discriminate].
  destruct (B L) as (v' & o & E & R & <- & <- & <-). rewrite E in H. injection H as <-.
  assert (LV : lenN v' < 256).
  { rewrite generate_exact in E by assumption. destruct (N.ltb_spec 23 (gen_len (oo_piv o) (opt_get (oo_kid o)) (opt_get (oo_ctx o)))); [lia|].
    destruct (N.eqb_spec (gen_len (oo_piv o) (opt_get (oo_kid o)) (opt_get (oo_ctx o))) 0) as [Z|Z].
    - injection E as <-. rewrite lenN_nil. lia.
    - injection E as <-. rewrite gen_len_bytes; [lia|]. intros (X & Y & W). rewrite X, Y, W in Z. apply Z; reflexivity. }
  exact (C15_parse_conforms o v' tail R LV).
Qed.
Print Assumptions C15_round_trip.

(** A response without Partial IV: empty option, parsed as "nothing present". *)
Theorem C15_empty :
  oscore_option_generate [] [] [] = Ok [] /\
  forall tail, exists r, oscore_value_parse ([] ++ tail) 0 = Ok r /\
    co_piv r = [] /\ co_kid_context r = [] /\ kid_view r = Ok [].
Proof. split; [reflexivity|]. intros tail. eexists. split; [reflexivity|]. repeat split. Qed.
Print Assumptions C15_empty.

Example C15_example :
  oscore_option_generate [0; 20] [1; 2; 3] [7; 7] = Ok [26; 0; 20; 2; 7; 7; 1; 2; 3] /\
  gen_len [0; 20] [1; 2; 3] [7; 7] = 9.
Proof. vm_compute. auto. Qed.

(** ** C16 *)

(** The options of any packet the parser accepts ([num_chain]) are split by class:
    the encrypted list consists of exactly the options of class E and Observe, the
    outer list of exactly those of class U and Observe, both in the original
    order; the only value changed is that of the inner Observe of a response. *)
Theorem C16_split :
  forall (d : bytes) (k : cpkt) (E U : list copt) (elen : N),
  is_bytes d -> lenN d < 2 ^ 32 -> coap_deserialize d = Ok k ->
  inner_outer_option_split k = Ok (E, U, elen) ->
  exists inner,
    selects (fun p => goes_inside (fst p)) (m_opts (msg_of k)) inner /\
    map nv E = map (inner_value (is_request k)) inner /\
    selects (fun p => goes_outside (fst p)) (m_opts (msg_of k)) (map nv U) /\
    num_chain 0 E /\ num_chain 0 U.
Proof.
  intros d k E U elen HB HL HP H. destruct (coap_parse_sound d k HP HB HL) as (_ & _ & _ & _ & HC & _).
  unfold inner_outer_option_split in H. destruct (_ <? _); [discriminate|]. injection H as H.
  eapply split_loop_spec in H; [exact H|exact HC|reflexivity..].
Qed.
Print Assumptions C16_split.

(** Splitting never fails on a parsed packet. *)
Theorem C16_split_total :
  forall (d : bytes) (k : cpkt), is_bytes d -> lenN d < 2 ^ 32 -> coap_deserialize d = Ok k ->
  is_ok (inner_outer_option_split k) = true.
Proof.
  intros d k HB HL HP. destruct (coap_parse_sound d k HP HB HL) as (_ & _ & HC & _).
  unfold inner_outer_option_split, MAX_OPTION_COUNT. destruct (N.ltb_spec 20 (lenN (k_opts k))); [lia|reflexivity].
Qed.
Print Assumptions C16_split_total.

(** No encrypted-class option other than Observe is sent in clear, and nothing is
    lost. *)
Theorem C16_hides_and_keeps :
  forall (d : bytes) (k : cpkt) (E U : list copt) (elen : N),
  is_bytes d -> lenN d < 2 ^ 32 -> coap_deserialize d = Ok k ->
  inner_outer_option_split k = Ok (E, U, elen) ->
  (forall n v, In (n, v) (map nv U) -> n = 6 \/ In n class_u_numbers) /\
  (forall n v, In (n, v) (m_opts (msg_of k)) -> n <> 6 -> In (n, v) (map nv E) \/ In (n, v) (map nv U)) /\
  (forall n v, In (n, v) (m_opts (msg_of k)) -> ~ In n class_u_numbers -> n <> 6 -> In (n, v) (map nv E)).
Proof.
  intros d k E U elen HB HL HP H. destruct (C16_split d k E U elen HB HL HP H) as (inner & S1 & S2 & S3 & _ & _).
  split; [|split].
  - intros n v Hi. pose proof (selects_forall _ _ _ S3) as F. rewrite Forall_forall in F. exact (F _ Hi).
  - intros n v Hi H6. destruct (goes_inside_dec n) as [G|G].
    + left. rewrite S2. apply in_map_iff. exists (n, v). split; [|eapply selects_in; [exact S1|exact Hi|exact G]].
      unfold inner_value; cbn [fst]. destruct (N.eqb_spec n 6); [contradiction|reflexivity].
    + right. eapply selects_in; [exact S3|exact Hi|]. cbn [fst]. unfold goes_inside in G. unfold goes_outside.
      destruct (in_dec N.eq_dec n class_u_numbers); tauto.
  - intros n v Hi G H6. rewrite S2. apply in_map_iff. exists (n, v). split; [|eapply selects_in; [exact S1|exact Hi|exact G]].
    unfold inner_value; cbn [fst]. destruct (N.eqb_spec n 6); [contradiction|reflexivity].
Qed.
Print Assumptions C16_hides_and_keeps.

(** GET coap://h/a?b with Observe: Uri-Host and Observe outside, Observe, Uri-Path
    and Uri-Query inside. *)
Definition ex_req : bytes := [0x42; 1; 0x12; 0x34; 7; 8; 0x31; 104; 0x30; 0x51; 97; 0x41; 98; 255; 1; 2].
Example C16_example :
  exists k E U l, coap_deserialize ex_req = Ok k /\ inner_outer_option_split k = Ok (E, U, l) /\
    map nv E = [(6, []); (11, [97]); (15, [98])] /\ map nv U = [(3, [104]); (6, [])].
Proof. eexists. eexists. eexists. eexists. split; [vm_compute; reflexivity|]. split; [vm_compute; reflexivity|]. vm_compute; auto. Qed.

(** ** C17 *)

(** [u]: options of the received packet, [e]: decrypted options. *)
Theorem C17_merge :
  forall (u e out : list copt),
  Forall (fun o => o_num o < 2 ^ 16) u -> Forall (fun o => o_num o < 2 ^ 16) e ->
  options_reorder u e = Ok out ->
  let kept := filter (fun p => negb (fst p =? 9) && negb (fst p =? 6)) (map nv u) in
  Permutation (kept ++ map nv e) (map nv out) /\ ascending 0 (map nv out) /\ delta_consistent 0 out /\
  (ascending 0 (map nv e) ->
     exists kept', Permutation kept' kept /\ shuffle kept' (map nv e) (map nv out)).
Proof.
  intros u e out Fu Fe H kept. unfold options_reorder in H.
  apply bind_ok in H as (? & _ & H). destruct (_ <? _) in H; [discriminate|]. injection H as <-.
  set (u' := filter _ u) in *.
  assert (EK : kept = map nv u').
  { unfold kept, u'. change OPT_OSCORE with 9. change OPT_OBSERVE with 6. clear. induction u as [|o u IH]; [reflexivity|].
    cbn [map filter nv fst]. destruct (negb (o_num o =? 9) && negb (o_num o =? 6)); cbn [map]; rewrite IH; reflexivity. }
  assert (F : Forall (fun o => o_num o < 2 ^ 16) (u' ++ e)).
  { apply Forall_app. split; [|exact Fe]. rewrite Forall_forall in *. intros y Hy. apply Fu. unfold u' in Hy. apply filter_In in Hy. tauto. }
  assert (DC : delta_consistent 0 (exchange_sort (length (u' ++ e)) (u' ++ e) 0)).
  { apply exchange_sort_sorted; [reflexivity|exact F|]. rewrite Forall_forall. intros; lia. }
  split; [|split; [|split]].
  - rewrite EK, <- map_app. apply exchange_sort_perm; reflexivity.
  - clear - DC. revert DC. generalize (exchange_sort (length (u' ++ e)) (u' ++ e) 0). generalize 0. intros n l. revert n.
    induction l as [|o l IH]; intros n D; inversion D; subst; cbn [map]; constructor; auto.
  - exact DC.
  - intros HA. assert (HA' : asc 0 (map nv e)) by (clear - HA; induction HA; constructor; auto).
    destruct (exchange_sort_shuffle _ u' e 0 eq_refl HA') as (a & P & S). exists a. rewrite EK. auto.
Qed.
Print Assumptions C17_merge.

(** When merging succeeds. A received OSCORE packet has at least one option
    (the OSCORE option itself). *)
Theorem C17_merge_total :
  forall (u e : list copt), lenN u <= 20 -> lenN e <= 20 -> is_ok (oscore_option_parser u) = true ->
  options_reorder u e = Err buffer_to_small <-> 21 < lenN u + lenN e.
Proof.
  intros u e Lu Le HO. assert (X : exists o, In o u /\ o_num o = 9).
  { clear - HO. unfold oscore_option_parser in HO.
    assert (G : forall l c, is_ok (oscore_option_parser_loop l c) = true -> is_ok c = true \/ exists o, In o l /\ o_num o = 9).
    { induction l as [|o l IH]; intros c H; cbn [oscore_option_parser_loop] in H; [auto|].
      destruct (N.eqb_spec (o_num o) OPT_OSCORE) as [E|E]; [right; exists o; split; [left; reflexivity|exact E]|].
      apply IH in H as [H|(x & Hx & Hn)]; [auto|right; exists x; split; [right; exact Hx|exact Hn]]. }
    apply G in HO as [HO|HO]; [discriminate|exact HO]. }
  destruct X as (o & Ho & Hn). apply in_split in Ho as (a & b & ->).
  unfold options_reorder. set (u' := filter _ _).
  assert (LU : lenN u' + 1 <= lenN (a ++ o :: b)).
  { unfold u'. rewrite filter_app. cbn [filter]. rewrite Hn. change (9 =? OPT_OSCORE) with true. cbn [negb andb].
    assert (FL : forall (f : copt -> bool) l, lenN (filter f l) <= lenN l).
    { intros f l. unfold lenN. enough ((length (filter f l) <= length l)%nat) by lia.
      induction l as [|y l IH]; cbn; [lia|]. destruct (f y); cbn; lia. }
    rewrite !lenN_app, lenN_cons. pose proof (FL (fun o0 => negb (o_num o0 =? OPT_OSCORE) && negb (o_num o0 =? OPT_OBSERVE)) a).
    pose proof (FL (fun o0 => negb (o_num o0 =? OPT_OSCORE) && negb (o_num o0 =? OPT_OBSERVE)) b). lia. }
  set (u := a ++ o :: b) in *.
  assert (E8 : u8 (lenN u + lenN e + 2 ^ 8 - 1) = lenN u + lenN e - 1) by (unfold u8; change (2 ^ 8) with 256; lia).
  rewrite E8. unfold check_buffer_size, MAX_OPTION_COUNT.
  destruct (N.ltb_spec 20 (lenN u + lenN e - 1)) as [L|L]; cbn [bind]; [split; [lia|reflexivity]|].
  rewrite lenN_app. destruct (N.ltb_spec 20 (lenN u' + lenN e)); [lia|]. split; [discriminate|lia].
Qed.
Print Assumptions C17_merge_total.

Definition ex_o (n : N) (v : bytes) : copt := {| o_delta := 0; o_num := n; o_val := v; o_tail := [] |}.
Example C17_example :
  exists out, options_reorder [ex_o 3 [104]; ex_o 6 []; ex_o 9 [9; 0]; ex_o 35 [1]; ex_o 39 [2]]
    [ex_o 6 []; ex_o 11 [97]; ex_o 11 [98]; ex_o 60 [4]] = Ok out /\
  map nv out = [(3, [104]); (6, []); (11, [97]); (11, [98]); (35, [1]); (39, [2]); (60, [4])] /\
  map o_delta out = [3; 3; 5; 0; 24; 4; 21].
Proof. eexists. split; [vm_compute; reflexivity|]. vm_compute; auto. Qed.
