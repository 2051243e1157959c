From Verif Require Import Base Proof_Base Model_Common Model_Coap Spec_Coap.

(** Number and value of an option. *)
Definition nv (o : copt) : N * bytes := (o_num o, o_val o).

(** The deltas of a list of options agree with their numbers. *)
Inductive delta_consistent : N -> list copt -> Prop :=
| dc_nil prev : delta_consistent prev []
| dc_cons prev o rest : prev <= o_num o -> o_delta o = o_num o - prev ->
    delta_consistent (o_num o) rest -> delta_consistent prev (o :: rest).

(** Fields the parser reads correctly. *)
Definition delta_ok (x : N) : Prop := x < 256 \/ 269 <= x.
Definition len_ok (x : N) : Prop :=
  x < 256 \/
  (269 <= x /\ ((x - 269) mod 256 < 243 /\ (x - 269) / 256 mod 2 = 0 \/
                243 <= (x - 269) mod 256 /\ (x - 269) / 256 / 2 mod 2 = 0)).

Lemma opt_field x : x < 2 ^ 16 -> rfc_field (opt_nibble x) (opt_ext x) x.
Proof.
  intros H. unfold opt_nibble, opt_ext.
  destruct (N.ltb_spec x 13); [constructor; lia|].
  destruct (N.ltb_spec x 269).
  - unfold u8. rewrite N.mod_small by (change (2 ^ 8) with 256; lia).
    replace x with (x - 13 + 13) at 2 by lia. constructor; lia.
  - unfold u16. rewrite N.mod_small by lia.
    replace x with ((x - 269) / 256 * 256 + (x - 269) mod 256 + 269) at 3.
    + constructor; change (2 ^ 16) with 65536 in *; lia.
    + lia.
Qed.

Lemma field_nibble n e x : rfc_field n e x -> n < 15.
Proof. intros H; inversion H; subst; lia. Qed.

Lemma lor_low a b : b < 256 -> N.lor (a * 256) b = a * 256 + b.
Proof.
  intros Hb. change 256 with (2 ^ 8). rewrite <- N.shiftl_mul_pow2.
  assert (Z : N.land (N.shiftl a 8) b = 0).
  { apply N.bits_inj. intros i. rewrite N.land_spec, N.bits_0.
    destruct (N.ltb_spec i 8); [rewrite N.shiftl_spec_low by lia; reflexivity|].
    rewrite (N.bits_above_log2 b); [apply andb_false_r|].
    destruct (N.eq_dec b 0); [subst; cbn; lia|].
    apply N.lt_le_trans with 8; [apply N.log2_lt_pow2; [lia|exact Hb]|lia]. }
  symmetry. rewrite <- N.lxor_lor, <- N.add_nocarry_lxor by exact Z. reflexivity.
Qed.
Lemma lor_high a c r : r < 256 -> N.lor (a * 256) (c * 256 + r) = N.lor a c * 256 + r.
Proof.
  intros Hr. rewrite <- !lor_low by exact Hr. rewrite N.lor_assoc. f_equal.
  change 256 with (2 ^ 8). rewrite <- !N.shiftl_mul_pow2. symmetry. apply N.shiftl_lor.
Qed.
Lemma lor_small hi : hi < 256 -> (N.lor hi 1 = hi + 1 <-> hi mod 2 = 0) /\ (N.lor hi 2 = hi + 2 <-> hi / 2 mod 2 = 0).
Proof.
  intros H.
  assert (C : forallb (fun n => let h := N.of_nat n in
    Bool.eqb (N.lor h 1 =? h + 1) (h mod 2 =? 0) && Bool.eqb (N.lor h 2 =? h + 2) (h / 2 mod 2 =? 0)) (seq 0 256) = true)
    by (vm_compute; reflexivity).
  rewrite forallb_forall in C. specialize (C (N.to_nat hi)). cbv zeta in C. rewrite Nnat.N2Nat.id in C.
  assert (I : In (N.to_nat hi) (seq 0 256)) by (apply in_seq; lia). apply C in I.
  apply andb_prop in I as [A B]. apply Bool.eqb_prop in A, B.
  split; rewrite <- !N.eqb_eq; [rewrite A|rewrite B]; reflexivity.
Qed.
Lemma lor_len hi lo : hi < 256 -> lo < 256 ->
  (N.lor (hi * 256) (lo + 269) = hi * 256 + lo + 269 <->
   lo < 243 /\ hi mod 2 = 0 \/ 243 <= lo /\ hi / 2 mod 2 = 0).
Proof.
  intros Hh Hl. destruct (lor_small hi Hh) as [S1 S2]. destruct (N.lt_ge_cases lo 243) as [C|C].
  - replace (lo + 269) with (1 * 256 + (lo + 13)) by lia. rewrite lor_high by lia. split; intros X.
    + left. split; [exact C|]. apply S1. lia.
    + destruct X as [[_ X]|[X _]]; [|lia]. apply S1 in X. lia.
  - replace (lo + 269) with (2 * 256 + (lo - 243)) by lia. rewrite lor_high by lia. split; intros X.
    + right. split; [exact C|]. apply S2. lia.
    + destruct X as [[X _]|[_ X]]; [lia|]. apply S2 in X. lia.
Qed.

Lemma rd_at pre l i b : nth_error l i = Some b -> rd (pre ++ l) (lenN pre + N.of_nat i) = Ok b.
Proof.
  intros H. unfold rd, lenN.
  replace (N.to_nat (N.of_nat (length pre) + N.of_nat i)) with (length pre + i)%nat by lia.
  rewrite nth_error_app2 by lia. replace (length pre + i - length pre)%nat with i by lia.
  rewrite H. reflexivity.
Qed.

Lemma parse_delta_field n e x pre tl :
  rfc_field n e x -> delta_ok x -> x < 2 ^ 16 ->
  parse_delta (pre ++ e ++ tl) (lenN pre) n = Ok (x, lenN pre + lenN e).
Proof.
  intros H Hok Hx. unfold parse_delta. inversion H; subst.
  - destruct (N.eqb_spec x 13); [lia|]. destruct (N.eqb_spec x 14); [lia|].
    destruct (N.eqb_spec x 15); [lia|]. rewrite lenN_nil. do 2 f_equal. lia.
  - cbn [app]. rewrite rd_app_here. cbn [bind].
    change (13 =? 13) with true. cbn iota. unfold u8.
    rewrite N.mod_small; [reflexivity|]. unfold delta_ok in Hok. change (2 ^ 8) with 256. lia.
  - change (14 =? 13) with false. change (14 =? 14) with true. cbn iota.
    cbn [app]. rewrite rd_app_here. cbn [bind].
    change (lenN pre + 1) with (lenN pre + N.of_nat 1). rewrite (rd_at pre _ 1 lo) by reflexivity.
    cbn [bind]. unfold u16. rewrite N.mod_small by lia. reflexivity.
Qed.

Lemma parse_len_field n e x pre tl :
  rfc_field n e x -> len_ok x -> x < 2 ^ 16 ->
  parse_len (pre ++ e ++ tl) (lenN pre) n = Ok (x, lenN pre + lenN e).
Proof.
  intros H Hok Hx. unfold parse_len. inversion H; subst.
  - destruct (N.eqb_spec x 13); [lia|]. destruct (N.eqb_spec x 14); [lia|].
    destruct (N.eqb_spec x 15); [lia|]. rewrite lenN_nil. do 2 f_equal. lia.
  - cbn [app]. rewrite rd_app_here. cbn [bind].
    change (13 =? 13) with true. cbn iota. unfold u8.
    rewrite N.mod_small; [reflexivity|]. unfold len_ok in Hok. change (2 ^ 8) with 256. lia.
  - change (14 =? 13) with false. change (14 =? 14) with true. cbn iota.
    cbn [app]. rewrite rd_app_here. cbn [bind].
    change (lenN pre + 1) with (lenN pre + N.of_nat 1). rewrite (rd_at pre _ 1 lo) by reflexivity.
    cbn [bind]. unfold len_ok in Hok.
    replace (hi * 256 + lo + 269 - 269) with (hi * 256 + lo) in Hok by lia.
    assert (HQ : N.lor (hi * 256) (lo + 269) = hi * 256 + lo + 269).
    { apply lor_len; [assumption..|]. replace ((hi * 256 + lo) mod 256) with lo in Hok by lia.
      replace ((hi * 256 + lo) / 256) with hi in Hok by lia. lia. }
    rewrite HQ. unfold u16. rewrite N.mod_small by lia. reflexivity.
Qed.

Lemma marked_shape payload : marked payload = [] /\ payload = [] \/
  exists p l, payload = p :: l /\ marked payload = 255 :: p :: l.
Proof. destruct payload; [left; auto|right; eauto]. Qed.

Lemma loop_unfold d slots room i p num acc :
  options_deserialize_loop d slots (S (S room)) i p num acc =
  if i <? lenN d then
    let* m := rd d i in
    if m =? OPTION_PAYLOAD_MARKER then
      if lenN d - i <? 2 then Err not_valid_input_packet
      else Ok (acc, dropN (u16 (i + 1)) d)
    else
      let* b := rd d p in
      let* (delta, p1) := parse_delta d (p + 1) (b / 16) in
      let* (len, p2) := parse_len d p1 (b mod 16) in
      let num' := u16 (num + delta) in
      if slots <=? lenN acc then UB OobWrite
      else
        let* v := slice d p2 len in
        let o := {| o_delta := delta; o_num := num'; o_val := v; o_tail := dropN (p2 + len) d |} in
        options_deserialize_loop d slots (S room) (u16 (i + (p2 - p) + len)) (p2 + len) num' (acc ++ [o])
  else Ok (acc, []).
Proof. reflexivity. Qed.

Lemma loop_parses opts : forall prev bs, rfc_options prev opts bs ->
  forall pre payload acc slots room,
  Forall delta_ok (deltas prev opts) -> Forall (fun p => len_ok (lenN (snd p))) opts ->
  Forall (fun p => fst p < 2 ^ 16) opts ->
  lenN (pre ++ bs ++ marked payload) < 2 ^ 16 ->
  (length opts < room)%nat -> lenN acc + lenN opts <= slots ->
  exists l,
    options_deserialize_loop (pre ++ bs ++ marked payload) slots room (lenN pre) (lenN pre) prev acc
      = Ok (acc ++ l, payload) /\ map nv l = opts /\ delta_consistent prev l.
Proof.
  induction opts as [|[num v] opts IH]; intros prev bs H pre payload acc slots room Hd Hl Hn Hlen Hroom Hslots;
    inversion H; subst.
  - exists []. rewrite app_nil_r. split; [|split; [reflexivity|constructor]].
    cbn [app]. destruct room; [cbn in Hroom; lia|]. cbn [options_deserialize_loop].
    destruct (marked_shape payload) as [[Em ->]|(p & l & -> & Em)]; rewrite Em in *.
    + rewrite app_nil_r, N.ltb_irrefl. reflexivity.
    + rewrite lenN_app, !lenN_cons.
      destruct (N.ltb_spec (lenN pre) (lenN pre + (1 + (1 + lenN l)))); [|lia].
      rewrite rd_app_here. cbn [bind]. change (255 =? OPTION_PAYLOAD_MARKER) with true. cbn iota.
      destruct (N.ltb_spec (lenN pre + (1 + (1 + lenN l)) - lenN pre) 2); [lia|].
      cbn [app] in Hlen. rewrite lenN_app, !lenN_cons in Hlen.
      unfold u16. rewrite N.mod_small by lia. do 2 f_equal.
      replace (pre ++ 255 :: p :: l) with ((pre ++ [255]) ++ p :: l) by (rewrite <- app_assoc; reflexivity).
      replace (lenN pre + 1) with (lenN (pre ++ [255])) by (rewrite lenN_app; reflexivity).
      apply dropN_app.
  - cbn [deltas] in Hd. inversion Hd as [|? ? Hd1 Hd2]; subst. clear Hd.
    inversion Hl as [|? ? Hl1 Hl2]; subst. clear Hl. cbn [snd] in Hl1.
    inversion Hn as [|? ? Hn1 Hn2]; subst. clear Hn. cbn [fst] in Hn1.
    destruct room as [|[|room]]; [cbn in Hroom; lia|cbn in Hroom; lia|].
    match goal with B : rfc_options num opts _ |- _ => rename B into HB end.
    match goal with B : rfc_field _ _ (num - prev) |- _ => rename B into HD end.
    match goal with B : rfc_field _ _ (lenN v) |- _ => rename B into HL end.
    set (hb := dn * 16 + ln) in *.
    set (tl := bs0 ++ marked payload) in *.
    assert (Eall : pre ++ (hb :: dx ++ lx ++ v ++ bs0) ++ marked payload =
                   pre ++ hb :: dx ++ lx ++ v ++ tl).
    { unfold tl. cbn [app]. rewrite <- !app_assoc. reflexivity. }
    rewrite Eall in *.
    rewrite loop_unfold.
    assert (Hlen' := Hlen). rewrite lenN_app, lenN_cons, !lenN_app in Hlen'.
    destruct (N.ltb_spec (lenN pre) (lenN (pre ++ hb :: dx ++ lx ++ v ++ tl)));
      [|rewrite lenN_app, lenN_cons in *; lia].
    rewrite rd_app_here. cbn [bind].
    pose proof (field_nibble _ _ _ HD). pose proof (field_nibble _ _ _ HL).
    destruct (N.eqb_spec hb OPTION_PAYLOAD_MARKER) as [E|_];
      [unfold OPTION_PAYLOAD_MARKER, hb in E; lia|].
    replace (hb / 16) with dn by (unfold hb; lia).
    replace (hb mod 16) with ln by (unfold hb; lia).
    assert (E1 : pre ++ hb :: dx ++ lx ++ v ++ tl = (pre ++ [hb]) ++ dx ++ lx ++ v ++ tl)
      by (rewrite <- !app_assoc; reflexivity).
    assert (L1 : lenN pre + 1 = lenN (pre ++ [hb])) by (rewrite lenN_app; reflexivity).
    rewrite E1, L1, (parse_delta_field _ _ _ _ _ HD) by (auto; lia). cbn [bind].
    assert (E2 : (pre ++ [hb]) ++ dx ++ lx ++ v ++ tl = ((pre ++ [hb]) ++ dx) ++ lx ++ v ++ tl)
      by (rewrite <- !app_assoc; reflexivity).
    rewrite E2, <- lenN_app, (parse_len_field _ _ _ _ _ HL) by (auto; lia). cbn [bind].
    rewrite lenN_cons in Hslots.
    destruct (N.leb_spec slots (lenN acc)); [lia|].
    assert (E3 : ((pre ++ [hb]) ++ dx) ++ lx ++ v ++ tl = (((pre ++ [hb]) ++ dx) ++ lx) ++ v ++ tl)
      by (rewrite <- !app_assoc; reflexivity).
    rewrite <- lenN_app, E3, slice_app. cbn [bind].
    set (hd := ((pre ++ [hb]) ++ dx) ++ lx) in *.
    assert (Ei : u16 (lenN pre + (lenN hd - lenN pre) + lenN v) = lenN (hd ++ v)).
    { unfold u16. rewrite lenN_app. unfold hd. rewrite !lenN_app, lenN_cons, lenN_nil.
      rewrite N.mod_small by lia. lia. }
    rewrite Ei. rewrite <- (lenN_app hd v).
    assert (En : u16 (prev + (num - prev)) = num).
    { unfold u16. rewrite N.mod_small by lia. lia. }
    rewrite En.
    assert (E4 : hd ++ v ++ tl = (hd ++ v) ++ tl) by (rewrite <- !app_assoc; reflexivity).
    rewrite E4. unfold tl.
    destruct (IH num bs0 HB (hd ++ v) payload
                (acc ++ [{| o_delta := num - prev; o_num := num; o_val := v;
                            o_tail := dropN (lenN (hd ++ v)) ((hd ++ v) ++ bs0 ++ marked payload) |}])
                slots (S room)) as (l & El & Em & Ec); auto.
    + fold tl. rewrite <- E4. rewrite <- E3, <- E2, <- E1. exact Hlen.
    + cbn [length] in Hroom. lia.
    + rewrite lenN_app, lenN_cons, lenN_nil. lia.
    + rewrite El. eexists (_ :: l). rewrite <- app_assoc. split; [reflexivity|].
      split; [cbn [map]; rewrite Em; reflexivity|].
      constructor; [assumption | reflexivity | exact Ec].
Qed.

Lemma options_parse opts payload body slots :
  rfc_body opts payload body ->
  Forall delta_ok (deltas 0 opts) -> Forall (fun p => len_ok (lenN (snd p))) opts ->
  Forall (fun p => fst p < 2 ^ 16) opts -> lenN body < 2 ^ 16 ->
  lenN opts <= 19 -> lenN opts <= slots ->
  exists l, options_deserialize body slots = Ok (l, payload) /\ map nv l = opts /\ delta_consistent 0 l.
Proof.
  intros (obs & HB & ->) Hd Hl Hn Hlen Hc Hs. unfold options_deserialize.
  destruct (loop_parses opts 0 obs HB [] payload [] slots (N.to_nat MAX_OPTION_COUNT)) as (l & El & Em & Ec); auto.
  - unfold MAX_OPTION_COUNT. unfold lenN in Hc. lia.
  - cbn [app] in El. change (lenN (@nil N)) with 0 in El.
    destruct (obs ++ marked payload) eqn:E.
    + apply app_eq_nil in E as [-> E]. inversion HB; subst.
      destruct payload; [|discriminate E]. exists []. repeat split; constructor.
    + exists l. auto.
Qed.

(** * Serialiser *)

(** All options one after the other. *)
Definition ser_opt (o : copt) : bytes := opt_header (o_delta o) (lenN (o_val o)) ++ o_val o.
Definition ser_opts (l : list copt) : bytes := flat_map ser_opt l.

Lemma serialize_loop_ok obj cap l : forall acc s,
  options_serialize_loop obj cap l acc = Ok s -> s = acc ++ ser_opts l.
Proof.
  induction l as [|o l IH]; intros acc s H; cbn [options_serialize_loop] in H.
  - injection H as <-. cbn. symmetry; apply app_nil_r.
  - destruct (obj <? _); [discriminate|].
    destruct (N.eqb_spec (lenN (o_val o)) 0) as [E|E].
    + apply IH in H. rewrite H. unfold ser_opts. cbn [flat_map]. unfold ser_opt at 2.
      apply lenN_0 in E. rewrite E, app_nil_r, <- app_assoc. reflexivity.
    + unfold check_buffer_size in H. destruct (_ <? _); [discriminate|]. cbn [bind] in H.
      destruct (obj <? _); [discriminate|].
      apply IH in H. rewrite H. unfold ser_opts. cbn [flat_map]. unfold ser_opt at 2.
      rewrite <- !app_assoc. reflexivity.
Qed.

Lemma serialize_ok obj cap l s : options_serialize obj cap l = Ok s -> s = ser_opts l.
Proof. intros H. apply serialize_loop_ok in H. exact H. Qed.

Lemma ser_opts_rfc l : forall prev, delta_consistent prev l ->
  Forall (fun o => o_num o < 2 ^ 16 /\ lenN (o_val o) < 2 ^ 16) l ->
  rfc_options prev (map nv l) (ser_opts l).
Proof.
  induction l as [|o l IH]; intros prev H HF; inversion H; subst; [constructor|].
  inversion HF as [|? ? [Hn Hl] HF']; subst.
  unfold ser_opts. cbn [flat_map map]. fold (ser_opts l). unfold ser_opt at 1, opt_header.
  cbn [app]. rewrite <- !app_assoc. unfold nv at 1.
  constructor; auto.
  - replace (o_num o - prev) with (o_delta o) by congruence. apply opt_field. lia.
  - apply opt_field. exact Hl.
Qed.

Lemma opt_ext_len x : lenN (opt_ext x) = opt_extra_bytes x.
Proof.
  unfold opt_ext, opt_extra_bytes. destruct (x <? 13); [reflexivity|].
  destruct (x <? 269); reflexivity.
Qed.

Lemma opt_extra_le x : opt_extra_bytes x <= 2.
Proof. unfold opt_extra_bytes. destruct (x <? 13), (x <? 269); lia. Qed.

Lemma ser_opt_len o : lenN (ser_opt o) =
  1 + opt_extra_bytes (o_delta o) + opt_extra_bytes (lenN (o_val o)) + lenN (o_val o).
Proof.
  unfold ser_opt, opt_header. rewrite lenN_app, lenN_cons, lenN_app, !opt_ext_len. lia.
Qed.

(** Sum of the maximal encoded lengths. *)
Fixpoint opt_sum (l : list copt) : N :=
  match l with [] => 0 | o :: t => 5 + lenN (o_val o) + opt_sum t end.

Lemma ser_opts_le l : lenN (ser_opts l) <= opt_sum l.
Proof.
  induction l as [|o l IH]; [apply N.leb_le; reflexivity|].
  unfold ser_opts. cbn [flat_map opt_sum]. fold (ser_opts l).
  rewrite lenN_app, ser_opt_len.
  pose proof (opt_extra_le (o_delta o)). pose proof (opt_extra_le (lenN (o_val o))). lia.
Qed.

Lemma opt_bytes_len_sum l : opt_sum l < 2 ^ 32 -> opt_bytes_len l = opt_sum l.
Proof.
  unfold opt_bytes_len.
  enough (G : forall l a, a + opt_sum l < 2 ^ 32 ->
    fold_left (fun a o => u32 (a + (OPT_SERIAL_OVERHEAD + lenN (o_val o)))) l a = a + opt_sum l).
  { intros H. rewrite G; lia. }
  clear l. induction l as [|o l IH]; intros a H; cbn [fold_left opt_sum] in *; [lia|].
  assert (E : u32 (a + (OPT_SERIAL_OVERHEAD + lenN (o_val o))) = a + (5 + lenN (o_val o)))
    by (unfold u32, OPT_SERIAL_OVERHEAD; apply N.mod_small; lia).
  rewrite E, IH by lia. lia.
Qed.

Lemma sub32_small a b : b <= a -> a < 2 ^ 32 -> sub32 a b = a - b.
Proof.
  intros. unfold sub32. replace (a + 2 ^ 32 - b) with ((a - b) + 1 * 2 ^ 32) by lia.
  rewrite N.mod_add by (compute; congruence). apply N.mod_small. lia.
Qed.

Lemma sub32_under a b : a < b -> b < 2 ^ 32 -> sub32 a b = a + 2 ^ 32 - b.
Proof. intros. unfold sub32. apply N.mod_small. lia. Qed.

Lemma serialize_fits obj cap l : forall acc,
  lenN acc + opt_sum l <= cap -> cap <= obj -> cap < 2 ^ 32 ->
  options_serialize_loop obj cap l acc = Ok (acc ++ ser_opts l).
Proof.
  induction l as [|o l IH]; intros acc H Hobj Hcap; cbn [options_serialize_loop opt_sum] in *.
  - cbn. rewrite app_nil_r. reflexivity.
  - pose proof (ser_opt_len o) as SL. unfold ser_opt in SL. rewrite lenN_app in SL.
    pose proof (opt_extra_le (o_delta o)). pose proof (opt_extra_le (lenN (o_val o))).
    rewrite lenN_app.
    destruct (N.ltb_spec obj (lenN acc + lenN (opt_header (o_delta o) (lenN (o_val o))))); [lia|].
    unfold ser_opts. cbn [flat_map]. fold (ser_opts l). unfold ser_opt.
    destruct (N.eqb_spec (lenN (o_val o)) 0) as [E|E].
    + rewrite IH by (try rewrite lenN_app; lia). apply lenN_0 in E.
      rewrite E, app_nil_r, <- !app_assoc. reflexivity.
    + unfold check_buffer_size. rewrite sub32_small by lia.
      destruct (N.ltb_spec (cap - (lenN acc + lenN (opt_header (o_delta o) (lenN (o_val o))))) (lenN (o_val o))); [lia|].
      cbn [bind].
      match goal with |- context [if obj <? ?x then _ else _] => destruct (N.ltb_spec obj x) end; [lia|].
      rewrite IH by (try rewrite !lenN_app; lia). rewrite <- !app_assoc. reflexivity.
Qed.

(** What every packet held by the library satisfies: token of TKL bytes, 8-bit
    option count, 16-bit option lengths, 32-bit payload length. *)
Definition pkt_wf (k : cpkt) : Prop :=
  lenN (k_token k) = h_tkl (k_hdr k) /\ lenN (k_opts k) < 256 /\
  Forall (fun o => lenN (o_val o) < 2 ^ 16) (k_opts k) /\ lenN (k_payload k) < 2 ^ 32 /\
  h_tkl (k_hdr k) < 16.

Lemma pkt_sum k : pkt_wf k -> opt_sum (k_opts k) < 2 ^ 32.
Proof.
  intros (_ & H1 & H2 & _).
  enough (opt_sum (k_opts k) <= 65540 * lenN (k_opts k)) by lia.
  clear H1. induction H2; cbn [opt_sum]; [lia|]. rewrite lenN_cons. lia.
Qed.

(** The bytes of a packet. *)
Definition pkt_bytes (k : cpkt) : bytes :=
  header_bytes (k_hdr k) ++ k_token k ++ ser_opts (k_opts k) ++ marked (k_payload k).

Lemma header_len h : lenN (header_bytes h) = 4.
Proof. reflexivity. Qed.

Definition opts_fit (k : cpkt) : Prop := opt_sum (k_opts k) <= 100.

Lemma coap_serialize_spec k cap : pkt_wf k -> cap < 2 ^ 32 ->
  let base := 4 + h_tkl (k_hdr k) + lenN (ser_opts (k_opts k)) in
  let r := coap_serialize k cap in
  (cap < 4 -> snd r = UB OobWrite) /\
  (4 <= cap -> 
     (cap < 4 + h_tkl (k_hdr k) -> snd r = Err buffer_to_small /\ lenN (fst r) <= cap) /\
     (4 + h_tkl (k_hdr k) <= cap ->
        (~ opts_fit k -> snd r = Err buffer_to_small /\ lenN (fst r) <= cap) /\
        (opts_fit k ->
           (cap < base -> snd r = Err buffer_to_small /\ lenN (fst r) <= cap) /\
           (base <= cap -> k_payload k = [] -> r = (pkt_bytes k, Ok tt)) /\
           (base = cap -> k_payload k <> [] -> snd r = UB OobWrite) /\
           (base < cap -> cap < base + 1 + lenN (k_payload k) -> k_payload k <> [] ->
              snd r = Err buffer_to_small /\ lenN (fst r) <= cap) /\
           (base < cap -> base + 1 + lenN (k_payload k) <= cap -> k_payload k <> [] ->
              r = (pkt_bytes k, Ok tt))))).
Proof.
  intros W Hcap. pose proof (pkt_sum k W) as Hsum. destruct W as (Wt & _ & _ & Wp & Wk). cbn zeta.
  unfold coap_serialize. 
  destruct (N.ltb_spec cap 4) as [C4|C4]; [split; [reflexivity|intros; lia]|].
  split; [intros; lia|intros _].
  set (h := header_bytes (k_hdr k)). assert (Lh : lenN h = 4) by reflexivity.
  set (tkl := h_tkl (k_hdr k)) in *.
  assert (Etok : 4 + tkl <= cap -> (if tkl =? 0 then Ok [] else
      let* _ := check_buffer_size (sub32 cap 4) tkl in
      if lenN (k_token k) <? tkl then UB OobRead
      else if cap <? 4 + tkl then UB OobWrite
      else Ok (takeN tkl (k_token k))) = Ok (k_token k)).
  { intros Hc. destruct (N.eqb_spec tkl 0) as [E|E].
    - rewrite E in Wt. apply lenN_0 in Wt. rewrite Wt. reflexivity.
    - unfold check_buffer_size. rewrite sub32_small by lia.
      destruct (N.ltb_spec (cap - 4) tkl); [lia|]. cbn [bind].
      rewrite Wt, N.ltb_irrefl. destruct (N.ltb_spec cap (4 + tkl)); [lia|].
      rewrite takeN_all by lia. reflexivity. }
  split.
  { intros Hc. destruct (N.eqb_spec tkl 0); [lia|]. unfold check_buffer_size.
    rewrite sub32_small by lia. destruct (N.ltb_spec (cap - 4) tkl); [|lia].
    cbn [bind fst snd]. rewrite Lh. split; [reflexivity|lia]. }
  intros Hc. rewrite (Etok Hc). clear Etok.
  assert (Lw1 : lenN (h ++ k_token k) = 4 + tkl) by (rewrite lenN_app; lia).
  set (w1 := h ++ k_token k) in *.
  rewrite (opt_bytes_len_sum _ Hsum).
  unfold byte_array_new, MAX_COAP_OPTIONS_LEN. unfold opts_fit.
  assert (Ebn : check_buffer_size 100 (opt_sum (k_opts k)) =
                if 100 <? opt_sum (k_opts k) then Err buffer_to_small else Ok tt) by reflexivity.
  rewrite Ebn. clear Ebn.
  split.
  { intros Ho. destruct (N.ltb_spec 100 (opt_sum (k_opts k))); [|lia].
    cbn [bind fst snd]. split; [reflexivity|lia]. }
  intros Ho. destruct (N.ltb_spec 100 (opt_sum (k_opts k))); [lia|]. cbn [bind].
  unfold options_serialize.
  rewrite serialize_fits by (rewrite ?lenN_nil; change (2 ^ 32) with 4294967296 in *; lia).
  cbn [app bind]. set (s := ser_opts (k_opts k)) in *.
  assert (Eopts : 4 + tkl + lenN s <= cap ->
     (if lenN s =? 0 then Ok s else
        let* _ := check_buffer_size (sub32 cap (lenN w1)) (lenN s) in
        if cap <? lenN w1 + lenN s then UB OobWrite else Ok s) = Ok s).
  { intros Hs. destruct (lenN s =? 0); [reflexivity|]. unfold check_buffer_size.
    rewrite Lw1, sub32_small by lia. destruct (N.ltb_spec (cap - (4 + tkl)) (lenN s)); [lia|].
    cbn [bind]. destruct (N.ltb_spec cap (4 + tkl + lenN s)); [lia|]. reflexivity. }
  split.
  { intros Hs. destruct (N.eqb_spec (lenN s) 0); [lia|].
    unfold check_buffer_size.
    rewrite Lw1, sub32_small by lia. destruct (N.ltb_spec (cap - (4 + tkl)) (lenN s)); [|lia].
    cbn [bind fst snd]. split; [reflexivity|lia]. }
  assert (Lw2 : lenN (w1 ++ s) = 4 + tkl + lenN s) by (rewrite lenN_app; lia).
  assert (Epl : k_payload k <> [] -> lenN (k_payload k) =? 0 = false).
  { intros Hp. apply N.eqb_neq. intros E. apply lenN_0 in E. contradiction. }
  split.
  { intros Hs Hp. rewrite (Eopts Hs). rewrite Hp.
    change (lenN (@nil N) =? 0) with true. cbn iota. unfold pkt_bytes. rewrite Hp. cbn [marked].
    rewrite app_nil_r. unfold w1. rewrite <- app_assoc. reflexivity. }
  split.
  { intros Hs Hp. rewrite Eopts by lia. rewrite (Epl Hp). rewrite Lw2.
    destruct (N.ltb_spec cap (4 + tkl + lenN s + 1)); [reflexivity|lia]. }
  assert (Lw3 : lenN ((w1 ++ s) ++ [OPTION_PAYLOAD_MARKER]) = 4 + tkl + lenN s + 1)
    by (rewrite lenN_app, lenN_cons, lenN_nil; lia).
  split.
  { intros Hs Hs2 Hp. rewrite Eopts by lia. rewrite (Epl Hp). rewrite Lw2.
    destruct (N.ltb_spec cap (4 + tkl + lenN s + 1)); [lia|].
    unfold check_buffer_size. rewrite Lw3, sub32_small by lia.
    destruct (N.ltb_spec (cap - (4 + tkl + lenN s + 1)) (lenN (k_payload k))); [|lia].
    cbn [fst snd]. split; [reflexivity|lia]. }
  intros Hs Hs2 Hp. rewrite Eopts by lia. rewrite (Epl Hp). rewrite Lw2.
  destruct (N.ltb_spec cap (4 + tkl + lenN s + 1)); [lia|].
  unfold check_buffer_size. rewrite Lw3, sub32_small by lia.
  destruct (N.ltb_spec (cap - (4 + tkl + lenN s + 1)) (lenN (k_payload k))); [lia|].
  unfold pkt_bytes. f_equal. unfold w1, OPTION_PAYLOAD_MARKER.
  destruct (k_payload k); [congruence|]. cbn [marked]. rewrite <- !app_assoc. reflexivity.
Qed.

Lemma pkt_bytes_len k : pkt_wf k ->
  lenN (pkt_bytes k) = 4 + h_tkl (k_hdr k) + lenN (ser_opts (k_opts k)) + lenN (marked (k_payload k)).
Proof. intros (W & _). unfold pkt_bytes. rewrite !lenN_app, header_len, W. lia. Qed.

Lemma marked_len p : lenN (marked p) = if lenN p =? 0 then 0 else 1 + lenN p.
Proof.
  destruct p; [reflexivity|]. cbn [marked]. rewrite !lenN_cons.
  destruct (N.eqb_spec (1 + lenN p) 0); lia.
Qed.

Lemma coap_serialize_ok k cap w : pkt_wf k -> cap < 2 ^ 32 ->
  coap_serialize k cap = (w, Ok tt) -> w = pkt_bytes k /\ lenN w <= cap /\ opts_fit k.
Proof.
  intros W Hcap E. destruct (coap_serialize_spec k cap W Hcap) as [A B].
  pose proof (pkt_bytes_len k W) as PL. rewrite marked_len in PL.
  rewrite E in *. cbn [snd fst] in *.
  destruct (N.lt_ge_cases cap 4) as [C|C]; [specialize (A C); discriminate|].
  destruct (B C) as [B1 B2].
  destruct (N.lt_ge_cases cap (4 + h_tkl (k_hdr k))) as [D|D]; [destruct (B1 D); discriminate|].
  destruct (B2 D) as [B3 B4].
  destruct (N.le_gt_cases (opt_sum (k_opts k)) 100) as [F|F];
    [|destruct B3 as [B3 _]; [unfold opts_fit; lia|discriminate]].
  destruct (B4 F) as (B5 & B6 & B7 & B8 & B9).
  set (base := 4 + h_tkl (k_hdr k) + lenN (ser_opts (k_opts k))) in *.
  destruct (N.lt_ge_cases cap base) as [G|G]; [destruct (B5 G); discriminate|].
  destruct (k_payload k) as [|p pl] eqn:P.
  - specialize (B6 G eq_refl). injection B6 as ->.
    change (lenN (@nil N) =? 0) with true in PL. split; [reflexivity|]. cbn iota in PL; split; [lia|exact F].
  - assert (NE : p :: pl <> []) by discriminate.
    destruct (N.eq_dec base cap) as [H|H]; [specialize (B7 H NE); discriminate|].
    assert (H' : base < cap) by lia.
    destruct (N.lt_ge_cases cap (base + 1 + lenN (p :: pl))) as [I|I].
    + destruct (B8 H' I NE) as [B' _]; discriminate B'.
    + specialize (B9 H' I NE). injection B9 as ->. split; [reflexivity|].
      split; [|exact F]. rewrite lenN_cons in *.
      destruct (N.eqb_spec (1 + lenN pl) 0); lia.
Qed.

(** * Whole messages *)

Lemma header_bytes_rfc h : h_ver h < 4 -> h_type h < 4 -> h_tkl h < 16 -> h_code h < 256 -> h_mid h < 2 ^ 16 ->
  header_bytes h = [h_ver h * 64 + h_type h * 16 + h_tkl h; h_code h; h_mid h / 256; h_mid h mod 256].
Proof.
  intros. unfold header_bytes, u8. change (2 ^ 8) with 256. change (2 ^ 16) with 65536 in *.
  rewrite (N.mod_small (h_ver h * 64 + h_type h * 16 + h_tkl h)) by lia. rewrite (N.mod_small (h_code h)) by lia.
  rewrite (N.mod_small (h_mid h / 256)) by lia. reflexivity.
Qed.

(** The message a packet stands for. *)
Definition msg_of (k : cpkt) : message :=
  {| m_ver := h_ver (k_hdr k); m_type := h_type (k_hdr k); m_code := h_code (k_hdr k);
     m_mid := h_mid (k_hdr k); m_token := k_token k; m_opts := map nv (k_opts k);
     m_payload := k_payload k |}.

(** Header fields within their bit widths. *)
Definition hdr_wf (h : chdr) : Prop :=
  h_ver h < 4 /\ h_type h < 4 /\ h_tkl h <= 8 /\ h_code h < 256 /\ h_mid h < 2 ^ 16.

Lemma pkt_bytes_rfc k : pkt_wf k -> hdr_wf (k_hdr k) -> delta_consistent 0 (k_opts k) ->
  Forall (fun o => o_num o < 2 ^ 16) (k_opts k) -> rfc_message (msg_of k) (pkt_bytes k).
Proof.
  intros (Wt & Wc & Wl & Wp & _) (H1 & H2 & H3 & H4 & H5) Hd Hn.
  unfold rfc_message, msg_of; cbn [m_ver m_type m_code m_mid m_token m_opts m_payload].
  repeat split; try assumption; [rewrite Wt; assumption|].
  exists (ser_opts (k_opts k) ++ marked (k_payload k)). split.
  - exists (ser_opts (k_opts k)). split; [|reflexivity]. apply ser_opts_rfc; [assumption|].
    rewrite Forall_forall in *. auto.
  - unfold pkt_bytes. rewrite header_bytes_rfc by lia. rewrite Wt. reflexivity.
Qed.

(** Messages the parser understands. *)
Definition parsable (m : message) (bs : bytes) : Prop :=
  Forall delta_ok (deltas 0 (m_opts m)) /\ Forall (fun p => len_ok (lenN (snd p))) (m_opts m) /\
  Forall (fun p => fst p < 2 ^ 16) (m_opts m) /\ lenN (m_opts m) <= 19 /\ lenN bs < 2 ^ 16.

Lemma coap_parse_rfc m bs : rfc_message m bs -> parsable m bs ->
  exists k, coap_deserialize bs = Ok k /\ msg_of k = m /\ h_tkl (k_hdr k) = lenN (m_token m) /\
            delta_consistent 0 (k_opts k).
Proof.
  intros (Hv & Hty & Hc & Hm & Ht & body & HB & Ebs) (P1 & P2 & P3 & P4 & P5).
  assert (Hb : lenN body < 2 ^ 16) by (rewrite Ebs, !lenN_app in P5; lia).
  destruct (options_parse _ _ _ MAX_OPTION_COUNT HB P1 P2 P3 Hb P4) as (l & El & Em & Ec);
    [unfold MAX_OPTION_COUNT; lia|].
  assert (Lb : lenN bs = 4 + lenN (m_token m) + lenN body)
    by (rewrite Ebs, !lenN_app, !lenN_cons, lenN_nil; lia).
  unfold coap_deserialize. unfold HEADER_LEN. destruct (N.ltb_spec (lenN bs) 4); [lia|].
  set (b0 := m_ver m * 64 + m_type m * 16 + lenN (m_token m)) in *.
  assert (D4 : dropN 4 bs = m_token m ++ body).
  { rewrite Ebs. change 4 with (lenN [b0; m_code m; m_mid m / 256; m_mid m mod 256]). apply dropN_app. }
  assert (R0 : rd bs 0 = Ok b0) by (rewrite Ebs; reflexivity).
  assert (R1 : rd bs 1 = Ok (m_code m)) by (rewrite Ebs; reflexivity).
  assert (R2 : rd bs 2 = Ok (m_mid m / 256)) by (rewrite Ebs; reflexivity).
  assert (R3 : rd bs 3 = Ok (m_mid m mod 256)) by (rewrite Ebs; reflexivity).
  rewrite R0, R1, R2, R3. cbn [bind]. rewrite D4.
  assert (T : b0 mod 16 = lenN (m_token m)) by (unfold b0; lia).
  rewrite T. destruct (N.ltb_spec 8 (lenN (m_token m))); [lia|].
  rewrite lenN_app. destruct (N.ltb_spec (lenN (m_token m) + lenN body) (lenN (m_token m))); [lia|].
  rewrite dropN_app, takeN_app, El. cbn [bind].
  eexists. split; [reflexivity|]. unfold msg_of. cbn. rewrite Em.
  replace (b0 / 64) with (m_ver m) by (unfold b0; lia).
  replace (b0 / 16 mod 4) with (m_type m) by (unfold b0; lia).
  replace (m_mid m / 256 * 256 + m_mid m mod 256) with (m_mid m) by lia.
  split; [destruct m; reflexivity|]. split; [reflexivity|exact Ec].
Qed.

(** The encoding of a message is unique. *)
Lemma field_unique n e n' e' x : rfc_field n e x -> rfc_field n' e' x -> n = n' /\ e = e'.
Proof.
  intros H H'; inversion H; inversion H'; subst; try lia; split; try reflexivity.
  - replace b with b0 by lia. reflexivity.
  - replace hi with hi0 by lia. replace lo with lo0 by lia. reflexivity.
Qed.

Lemma options_unique opts : forall prev a b, rfc_options prev opts a -> rfc_options prev opts b -> a = b.
Proof.
  induction opts as [|[n v] opts IH]; intros prev a b H H'; inversion H; inversion H'; subst; [reflexivity|].
  match goal with A : rfc_field dn dx _, B : rfc_field dn0 dx0 _ |- _ => destruct (field_unique _ _ _ _ _ A B); subst end.
  match goal with A : rfc_field ln lx _, B : rfc_field ln0 lx0 _ |- _ => destruct (field_unique _ _ _ _ _ A B); subst end.
  f_equal. do 3 f_equal. eauto.
Qed.

Lemma message_unique m a b : rfc_message m a -> rfc_message m b -> a = b.
Proof.
  intros (_ & _ & _ & _ & _ & b1 & (o1 & H1 & ->) & ->) (_ & _ & _ & _ & _ & b2 & (o2 & H2 & ->) & ->).
  rewrite (options_unique _ _ _ _ H1 H2). reflexivity.
Qed.

(** What the parser guarantees about any packet it returns. *)
Fixpoint num_chain (prev : N) (l : list copt) : Prop :=
  match l with
  | [] => True
  | o :: t => o_num o = u16 (prev + o_delta o) /\ num_chain (o_num o) t
  end.

Definition opt_wf (o : copt) : Prop :=
  o_delta o < 2 ^ 16 /\ o_num o < 2 ^ 16 /\ lenN (o_val o) < 2 ^ 16 /\
  is_bytes (o_val o) /\ is_bytes (o_tail o).

Lemma u16_lt x : u16 x < 2 ^ 16.
Proof. apply N.mod_lt. discriminate. Qed.
Lemma u8_lt x : u8 x < 256.
Proof. apply N.mod_lt. discriminate. Qed.

Lemma parse_delta_lt d p b x q : b < 256 -> parse_delta d p (b / 16) = Ok (x, q) -> x < 2 ^ 16.
Proof.
  intros Hb H. unfold parse_delta in H.
  destruct (_ =? 13). { apply bind_ok in H as (a & _ & H). injection H as <- <-. pose proof (u8_lt (a + 13)). lia. }
  destruct (_ =? 14). { apply bind_ok in H as (? & _ & H). apply bind_ok in H as (? & _ & H). injection H as <- <-. apply u16_lt. }
  destruct (_ =? 15); [discriminate|]. injection H as <- <-. lia.
Qed.

Lemma parse_len_lt d p b x q : parse_len d p (b mod 16) = Ok (x, q) -> x < 2 ^ 16.
Proof.
  intros H. unfold parse_len in H.
  destruct (_ =? 13). { apply bind_ok in H as (a & _ & H). injection H as <- <-. pose proof (u8_lt (a + 13)). lia. }
  destruct (_ =? 14). { apply bind_ok in H as (? & _ & H). apply bind_ok in H as (? & _ & H). injection H as <- <-. apply u16_lt. }
  destruct (_ =? 15); [discriminate|]. injection H as <- <-. lia.
Qed.

Lemma rd_byte d i b : is_bytes d -> rd d i = Ok b -> b < 256.
Proof.
  intros HB H. apply rd_ok in H as [_ H]. unfold is_bytes in HB. rewrite Forall_forall in HB.
  apply HB. eapply nth_error_In; eauto.
Qed.

Lemma loop_unfold1 d slots i p num acc :
  options_deserialize_loop d slots 1 i p num acc =
  if i <? lenN d then
    let* m := rd d i in
    if m =? OPTION_PAYLOAD_MARKER then
      if lenN d - i <? 2 then Err not_valid_input_packet
      else Ok (acc, dropN (u16 (i + 1)) d)
    else
      let* b := rd d p in
      let* (delta, p1) := parse_delta d (p + 1) (b / 16) in
      let* (len, p2) := parse_len d p1 (b mod 16) in
      if slots <=? lenN acc then UB OobWrite
      else
        let* v := slice d p2 len in Err too_many_options
  else Ok (acc, []).
Proof. reflexivity. Qed.

Ltac fin_empty :=
  first [ apply is_bytes_dropN; assumption | intros X; exfalso; apply X; reflexivity
        | lia | rewrite lenN_nil; lia | cbn [length]; lia | constructor ].

Lemma loop_sound d slots room : forall i p num acc l pl,
  options_deserialize_loop d slots (S room) i p num acc = Ok (l, pl) ->
  is_bytes d ->
  exists l', l = acc ++ l' /\ (length l' <= room)%nat /\ (l' <> [] -> lenN l <= slots) /\
    Forall opt_wf l' /\ num_chain num l' /\ lenN pl <= lenN d /\ is_bytes pl.
Proof.
  induction room as [|room IH]; intros i p num acc l pl H HB.
  - rewrite loop_unfold1 in H. destruct (i <? lenN d).
    + apply bind_ok in H as (m & _ & H). destruct (m =? _).
      * destruct (_ <? 2); [discriminate|]. injection H as <- <-. exists [].
        rewrite app_nil_r, lenN_dropN. repeat split; fin_empty.
      * exfalso. apply bind_ok in H as (b & _ & H). apply bind_ok in H as ([? ?] & _ & H).
        apply bind_ok in H as ([? ?] & _ & H). destruct (slots <=? _); [discriminate|].
        apply bind_ok in H as (? & _ & H). discriminate.
    + injection H as <- <-. exists []. rewrite app_nil_r.
      repeat split; fin_empty.
  - rewrite loop_unfold in H. destruct (i <? lenN d).
    + apply bind_ok in H as (m & _ & H). destruct (m =? _).
      * destruct (_ <? 2); [discriminate|]. injection H as <- <-. exists [].
        rewrite app_nil_r, lenN_dropN. repeat split; fin_empty.
      * apply bind_ok in H as (b & Hb & H). apply bind_ok in H as ([de p1] & Hd & H).
        apply bind_ok in H as ([le p2] & Hl & H). cbn zeta in H.
        destruct (N.leb_spec slots (lenN acc)); [discriminate|].
        apply bind_ok in H as (v & Hv & H). apply IH in H as (l' & -> & Hc & Hs & Hw & Hch & Hp); [|assumption].
        eexists (_ :: l'). rewrite <- app_assoc. split; [reflexivity|].
        apply rd_byte in Hb; [|assumption].
        pose proof (parse_delta_lt _ _ _ _ _ Hb Hd). pose proof (parse_len_lt _ _ _ _ _ Hl).
        apply slice_ok in Hv as (Lv & _ & Ev).
        split; [cbn [length]; lia|]. split.
        { intros _. destruct l' as [|o l'].
          - rewrite lenN_app. cbn [app]. rewrite lenN_cons, lenN_nil. lia.
          - rewrite <- app_assoc in Hs. apply Hs. discriminate. }
        split; [|split; [|exact Hp]].
        { constructor; [|exact Hw]. repeat split; cbn; auto using u16_lt.
          - rewrite Lv. assumption.
          - rewrite Ev. auto using is_bytes_takeN, is_bytes_dropN.
          - auto using is_bytes_dropN. }
        cbn. split; [reflexivity|exact Hch].
    + injection H as <- <-. exists []. rewrite app_nil_r.
      repeat split; fin_empty.
Qed.

Lemma options_parse_sound d slots l pl : options_deserialize d slots = Ok (l, pl) -> is_bytes d ->
  lenN l <= 19 /\ lenN l <= slots /\ Forall opt_wf l /\ num_chain 0 l /\ lenN pl <= lenN d /\ is_bytes pl.
Proof.
  unfold options_deserialize. intros H HB. destruct d as [|b d].
  - injection H as <- <-. repeat split; try constructor; rewrite ?lenN_nil; try lia.
  - change (N.to_nat MAX_OPTION_COUNT) with 20%nat in H.
    apply loop_sound in H as (l' & -> & Hc & Hs & Hw & Hch & Hp); [|assumption]. cbn [app] in *.
    split; [unfold lenN; lia|]. split; [|auto].
    destruct l'; [change (lenN (@nil copt)) with 0; lia|]. apply Hs. discriminate.
Qed.

Lemma coap_parse_sound d k : coap_deserialize d = Ok k -> is_bytes d -> lenN d < 2 ^ 32 ->
  pkt_wf k /\ hdr_wf (k_hdr k) /\ lenN (k_opts k) <= 19 /\ Forall opt_wf (k_opts k) /\
  num_chain 0 (k_opts k) /\ is_bytes (k_payload k) /\ is_bytes (k_token k) /\
  exists rest, d = header_bytes (k_hdr k) ++ k_token k ++ rest.
Proof.
  intros H HB HL. unfold coap_deserialize, HEADER_LEN in H.
  destruct (N.ltb_spec (lenN d) 4); [discriminate|].
  apply bind_ok in H as (b0 & R0 & H). apply bind_ok in H as (b1 & R1 & H).
  apply bind_ok in H as (b2 & R2 & H). apply bind_ok in H as (b3 & R3 & H).
  destruct (N.ltb_spec 8 (b0 mod 16)); [discriminate|].
  destruct (N.ltb_spec (lenN (dropN 4 d)) (b0 mod 16)); [discriminate|].
  apply bind_ok in H as ([l pl] & HO & H). injection H as <-. cbn [k_hdr k_token k_opts k_payload].
  apply options_parse_sound in HO as (O1 & O2 & O3 & O4 & O5 & O6); [|auto using is_bytes_dropN].
  pose proof (rd_byte _ _ _ HB R0). pose proof (rd_byte _ _ _ HB R1).
  pose proof (rd_byte _ _ _ HB R2). pose proof (rd_byte _ _ _ HB R3).
  rewrite !lenN_dropN in *.
  split; [|split; [|split; [|split; [|split; [|split; [|split]]]]]]; auto.
  - unfold pkt_wf; cbn. rewrite lenN_takeN, lenN_dropN. repeat split; try lia.
    rewrite Forall_forall in *. intros o Ho. apply O3 in Ho. unfold opt_wf in Ho. tauto.
  - unfold hdr_wf; cbn. change (2 ^ 16) with 65536. repeat split; lia.
  - auto using is_bytes_takeN, is_bytes_dropN.
  - exists (dropN (b0 mod 16) (dropN 4 d)). rewrite takeN_dropN.
    rewrite header_bytes_rfc by (cbn; change (2 ^ 16) with 65536; lia). cbn [h_ver h_type h_tkl h_code h_mid].
    destruct d as [|x0 [|x1 [|x2 [|x3 d]]]]; rewrite ?lenN_cons, ?lenN_nil in *; try lia.
    cbn in R0, R1, R2, R3.
    injection R0 as ->. injection R1 as ->. injection R2 as ->. injection R3 as ->.
    change (dropN 4 (b0 :: b1 :: b2 :: b3 :: d)) with d. cbn [app].
    replace (b0 / 64 * 64 + b0 / 16 mod 4 * 16 + b0 mod 16) with b0 by lia.
    replace ((b2 * 256 + b3) / 256) with b2 by lia.
    replace ((b2 * 256 + b3) mod 256) with b3 by lia. reflexivity.
Qed.
