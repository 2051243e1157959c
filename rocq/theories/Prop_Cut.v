(** C13: every packet that ends inside of an option makes the parser leave the packet. *)
From Verif Require Import Base Proof_Base Model_Common Model_Coap Spec_Coap Proof_Coap Proof_Stripped Proof_CoapExact Spec_Safe Spec_Cut.

Lemma parse_delta_any n e x pre tl : rfc_field n e x ->
  exists y, parse_delta (pre ++ e ++ tl) (lenN pre) n = Ok (y, lenN pre + lenN e).
Proof.
  intros H. unfold parse_delta. inversion H; subst.
  - destruct (N.eqb_spec x 13); [lia|]. destruct (N.eqb_spec x 14); [lia|].
    destruct (N.eqb_spec x 15); [lia|]. rewrite lenN_nil, N.add_0_r. eauto.
  - cbn [app]. rewrite rd_app_here. cbn [bind]. change (13 =? 13) with true. cbn iota. eauto.
  - change (14 =? 13) with false. change (14 =? 14) with true. cbn iota. cbn [app]. rewrite rd_app_here. cbn [bind].
    change (lenN pre + 1) with (lenN pre + N.of_nat 1). rewrite (rd_at pre _ 1 lo) by reflexivity. cbn [bind].
    change (lenN [hi; lo]) with 2. eauto.
Qed.

Lemma rd_end (d : bytes) i : lenN d <= i -> rd d i = UB OobRead.
Proof. intros H. unfold rd. rewrite (proj2 (nth_error_None d (N.to_nat i))); [reflexivity|unfold lenN in H; lia]. Qed.

Lemma field_cut_rd pre r : lenN r < 2 -> forall (A : Type) (f : N -> N -> res A),
  (let* hi := rd (pre ++ r) (lenN pre) in let* lo := rd (pre ++ r) (lenN pre + 1) in f hi lo) = UB OobRead.
Proof.
  intros H A f. assert (E : rd (pre ++ r) (lenN pre + 1) = UB OobRead) by (apply rd_end; rewrite lenN_app; lia).
  destruct r as [|b r]; [rewrite rd_end by (rewrite lenN_app, lenN_nil; lia); reflexivity|].
  rewrite rd_app_here. cbn [bind]. rewrite E. reflexivity.
Qed.

Lemma parse_delta_cut pre nib r : field_cut nib r -> parse_delta (pre ++ r) (lenN pre) nib = UB OobRead.
Proof.
  intros [[-> H]|[-> H]]; unfold parse_delta.
  - change (13 =? 13) with true. cbn iota. rewrite rd_end by (rewrite lenN_app; lia). reflexivity.
  - change (14 =? 13) with false. change (14 =? 14) with true. cbn iota. apply field_cut_rd. exact H.
Qed.
Lemma parse_len_cut pre nib r : field_cut nib r -> parse_len (pre ++ r) (lenN pre) nib = UB OobRead.
Proof.
  intros [[-> H]|[-> H]]; unfold parse_len.
  - change (13 =? 13) with true. cbn iota. rewrite rd_end by (rewrite lenN_app; lia). reflexivity.
  - change (14 =? 13) with false. change (14 =? 14) with true. cbn iota. apply field_cut_rd. exact H.
Qed.

Lemma cut_nibble nib r : field_cut nib r -> nib < 15.
Proof. intros [[-> _]|[-> _]]; lia. Qed.

Lemma walk_option slots room dn dx x ln lx v r num k :
  rfc_field dn dx x -> rfc_field ln lx (lenN v) -> plain_len (lenN v) ->
  lenN ((dn * 16 + ln) :: dx ++ lx ++ v ++ r) < 2 ^ 16 -> k < slots ->
  exists y o, walk slots room ((dn * 16 + ln) :: dx ++ lx ++ v ++ r) num k =
    match room with
    | S (S _ as room') => let* (l, pl) := walk slots room' r y (k + 1) in Ok (o :: l, pl)
    | _ => Err too_many_options
    end.
Proof.
  intros D V PL HL HS.
  pose proof (field_nibble _ _ _ D). pose proof (field_nibble _ _ _ V). rewrite walk_cons. destruct (N.eqb_spec (dn * 16 + ln) 255); [lia|].
  replace ((dn * 16 + ln) / 16) with dn by lia. replace ((dn * 16 + ln) mod 16) with ln by lia.
  rewrite lenN_cons, !lenN_app in HL.
  set (s := dn * 16 + ln :: dx ++ lx ++ v ++ r).
  assert (S1 : s = [dn * 16 + ln] ++ dx ++ (lx ++ v ++ r)) by reflexivity.
  assert (S2 : s = ([dn * 16 + ln] ++ dx) ++ lx ++ (v ++ r)) by (rewrite S1, <- !app_assoc; reflexivity).
  assert (S3 : s = (([dn * 16 + ln] ++ dx) ++ lx ++ v) ++ r) by (rewrite S2, <- !app_assoc; reflexivity).
  destruct (parse_delta_any _ _ _ [dn * 16 + ln] (lx ++ v ++ r) D) as (y & ED). change (lenN [dn * 16 + ln]) with 1 in ED.
  rewrite <- S1 in ED. rewrite ED. cbn [bind]. change 1 with (lenN [dn * 16 + ln]) at 1. rewrite <- lenN_app.
  assert (EL : parse_len s (lenN ([dn * 16 + ln] ++ dx)) ln = Ok (lenN v, lenN ([dn * 16 + ln] ++ dx) + lenN lx)).
  { rewrite S2. apply parse_len_field; [exact V|exact PL|lia]. }
  rewrite EL. cbn [bind]. destruct (N.leb_spec slots k); [lia|]. unfold slice.
  destruct (N.leb_spec (lenN ([dn * 16 + ln] ++ dx) + lenN lx + lenN v) (lenN s)) as [_|G].
  2:{ exfalso. revert G. apply N.le_ngt. rewrite S3, !lenN_app. lia. }
  cbn [bind].
  assert (DR : dropN (lenN ([dn * 16 + ln] ++ dx) + lenN lx + lenN v) s = r).
  { rewrite S3, <- N.add_assoc, <- !lenN_app. apply dropN_app. }
  rewrite !DR. eexists. eexists. destruct room as [|[|room]]; reflexivity.
Qed.

Lemma walk_cut slots n d : cut n d -> forall room num k, lenN d < 2 ^ 16 -> k + n < slots -> (N.to_nat n < room)%nat ->
  walk slots room d num k = UB OobRead.
Proof.
  intros H. induction H as [dn ln r F L|dn dx x ln r D F|dn dx x ln lx len r D V PL S|n dn dx x ln lx v r D V PL C IH];
    intros room num k HL HS HR.
  - pose proof (cut_nibble _ _ F). rewrite walk_cons. destruct (N.eqb_spec (dn * 16 + ln) 255); [lia|].
    replace ((dn * 16 + ln) / 16) with dn by lia.
    change (dn * 16 + ln :: r) with ([dn * 16 + ln] ++ r). change 1 with (lenN [dn * 16 + ln]) at 1. rewrite parse_delta_cut by exact F. reflexivity.
  - pose proof (field_nibble _ _ _ D). pose proof (cut_nibble _ _ F). rewrite walk_cons. destruct (N.eqb_spec (dn * 16 + ln) 255); [lia|].
    replace ((dn * 16 + ln) / 16) with dn by lia. replace ((dn * 16 + ln) mod 16) with ln by lia.
    change (dn * 16 + ln :: dx ++ r) with ([dn * 16 + ln] ++ dx ++ r). change 1 with (lenN [dn * 16 + ln]) at 1.
    destruct (parse_delta_any _ _ _ [dn * 16 + ln] r D) as (y & ->). cbn [bind]. rewrite <- lenN_app, app_assoc.
    rewrite parse_len_cut by exact F. reflexivity.
  - pose proof (field_nibble _ _ _ D). pose proof (field_nibble _ _ _ V). rewrite walk_cons. destruct (N.eqb_spec (dn * 16 + ln) 255); [lia|].
    replace ((dn * 16 + ln) / 16) with dn by lia. replace ((dn * 16 + ln) mod 16) with ln by lia.
    change (dn * 16 + ln :: dx ++ lx ++ r) with ([dn * 16 + ln] ++ dx ++ lx ++ r). change 1 with (lenN [dn * 16 + ln]) at 1.
    destruct (parse_delta_any _ _ _ [dn * 16 + ln] (lx ++ r) D) as (y & ->). cbn [bind]. rewrite <- lenN_app, app_assoc.
    destruct (N.leb_spec slots k); [lia|].
    destruct (N.lt_ge_cases len (2 ^ 16)) as [L16|L16].
    + rewrite (parse_len_field _ _ _ _ _ V PL L16). cbn [bind]. unfold slice. rewrite <- !lenN_app, !lenN_app.
      destruct (N.leb_spec (lenN [dn * 16 + ln] + lenN dx + lenN lx + len) (lenN [dn * 16 + ln] + lenN dx + (lenN lx + lenN r))); [lia|reflexivity].
    + exfalso. clear - V PL L16. unfold plain_len in PL. change (2 ^ 16) with 65536 in L16. inversion V; subst; [lia..|].
      replace (hi * 256 + lo + 269 - 269) with (hi * 256 + lo) in PL by lia.
      replace ((hi * 256 + lo) mod 256) with lo in PL by lia. replace ((hi * 256 + lo) / 256) with hi in PL by lia. lia.
  - destruct (walk_option slots room dn dx x ln lx v r num k D V PL HL) as (y & o & ->); [lia|].
    destruct room as [|[|room]]; [lia..|]. rewrite lenN_cons, !lenN_app in HL.
    rewrite IH; [reflexivity|lia|lia|lia].
Qed.

Lemma walk_complete slots d : complete d -> forall room num k, lenN d < 2 ^ 16 -> k + N.of_nat room <= slots -> (1 <= room)%nat ->
  is_ub (walk slots room d num k) = false.
Proof.
  intros H. induction H as [|p|b r B NB|dn dx x r D|dn dx x ln lx v r D V PL C IH]; intros room num k HL HS HR.
  - destruct room; reflexivity.
  - rewrite walk_cons. change (255 =? 255) with true. cbn iota. destruct (_ <? 2); reflexivity.
  - rewrite walk_cons. destruct (N.eqb_spec b 255); [contradiction|]. rewrite B. reflexivity.
  - pose proof (field_nibble _ _ _ D). rewrite walk_cons. destruct (N.eqb_spec (dn * 16 + 15) 255); [lia|].
    replace ((dn * 16 + 15) / 16) with dn by lia. replace ((dn * 16 + 15) mod 16) with 15 by lia.
    change (dn * 16 + 15 :: dx ++ r) with ([dn * 16 + 15] ++ dx ++ r). change 1 with (lenN [dn * 16 + 15]) at 1.
    destruct (parse_delta_any _ _ _ [dn * 16 + 15] r D) as (y & ->). reflexivity.
  - destruct (walk_option slots room dn dx x ln lx v r num k D V PL HL) as (y & o & ->); [lia|].
    destruct room as [|[|room]]; [reflexivity..|]. rewrite lenN_cons, !lenN_app in HL.
    specialize (IH (S room) y (k + 1) ltac:(lia) ltac:(lia) ltac:(lia)).
    destruct (walk slots (S room) r y (k + 1)) as [[l pl]|e|u]; [reflexivity..|exact IH].
Qed.

Lemma walk_late slots n d : cut n d -> forall room num k, lenN d < 2 ^ 16 -> k + N.of_nat room <= slots -> (1 <= room <= N.to_nat n)%nat ->
  is_ub (walk slots room d num k) = false.
Proof.
  intros H. induction H as [dn ln r F L|dn dx x ln r D F|dn dx x ln lx len r D V PL S|n dn dx x ln lx v r D V PL C IH];
    intros room num k HL HS HR; [lia..|].
  destruct (walk_option slots room dn dx x ln lx v r num k D V PL HL) as (y & o & ->); [lia|].
  destruct room as [|[|room]]; [reflexivity..|]. rewrite lenN_cons, !lenN_app in HL.
  specialize (IH (S room) y (k + 1) ltac:(lia) ltac:(lia) ltac:(lia)).
  destruct (walk slots (S room) r y (k + 1)) as [[l pl]|e|u]; [reflexivity..|exact IH].
Qed.

Lemma body_parse ver ty code mid_h mid_l token body :
  ver < 4 -> ty < 4 -> lenN token <= 8 -> lenN body < 2 ^ 16 ->
  exists h, coap_deserialize ([ver * 64 + ty * 16 + lenN token; code; mid_h; mid_l] ++ token ++ body) =
    let* (opts, payload) := walk MAX_OPTION_COUNT 20 body 0 0 in
    Ok {| k_hdr := h; k_token := token; k_opts := opts; k_payload := payload |}.
Proof.
  intros Hv Ht Hk Hb. set (b0 := ver * 64 + ty * 16 + lenN token).
  unfold coap_deserialize, HEADER_LEN. rewrite !lenN_app, !lenN_cons, lenN_nil.
  destruct (N.ltb_spec (1 + (1 + (1 + (1 + 0))) + (lenN token + lenN body)) 4); [lia|].
  cbn [app]. set (d := token ++ body).
  change (rd (b0 :: code :: mid_h :: mid_l :: d) 0) with (@Ok N b0).
  change (rd (b0 :: code :: mid_h :: mid_l :: d) 1) with (@Ok N code).
  change (rd (b0 :: code :: mid_h :: mid_l :: d) 2) with (@Ok N mid_h).
  change (rd (b0 :: code :: mid_h :: mid_l :: d) 3) with (@Ok N mid_l). cbn [bind].
  change (dropN 4 (b0 :: code :: mid_h :: mid_l :: d)) with d.
  replace (b0 mod 16) with (lenN token) by (unfold b0; lia).
  destruct (N.ltb_spec 8 (lenN token)); [lia|]. unfold d. rewrite lenN_app.
  destruct (N.ltb_spec (lenN token + lenN body) (lenN token)); [lia|].
  rewrite dropN_app, takeN_app.
  assert (OD : options_deserialize body MAX_OPTION_COUNT = walk MAX_OPTION_COUNT 20 body 0 0).
  { rewrite <- loop_start by exact Hb. destruct body; reflexivity. }
  rewrite OD. eexists. reflexivity.
Qed.

(** For every header and token: a packet that ends inside of one of its first twenty
    options, in the extension of its delta or length or in its value, makes the parser
    read (or point) behind the end. *)
Theorem C13_cut_refuted :
  forall (ver ty code mid_h mid_l : N) (token body : bytes) (n : N),
  ver < 4 -> ty < 4 -> lenN token <= 8 -> lenN body < 2 ^ 16 -> cut n body -> n < 20 ->
  coap_deserialize ([ver * 64 + ty * 16 + lenN token; code; mid_h; mid_l] ++ token ++ body) = UB OobRead.
Proof.
  intros ver ty code mid_h mid_l token body n Hv Ht Hk Hb HC Hn.
  destruct (body_parse ver ty code mid_h mid_l token body Hv Ht Hk Hb) as (h & ->).
  rewrite (walk_cut _ _ _ HC); [reflexivity|exact Hb|unfold MAX_OPTION_COUNT; lia|lia].
Qed.
Print Assumptions C13_cut_refuted.

(** And these are all: a packet whose value lengths are not of the ones that are misread
    (C12) takes the parser out of its bounds if and only if it ends inside of one of its
    first twenty options. *)
Theorem C13_exact :
  forall (ver ty code mid_h mid_l : N) (token body : bytes),
  ver < 4 -> ty < 4 -> lenN token <= 8 -> lenN body < 2 ^ 16 -> complete body \/ (exists n, cut n body) ->
  is_ub (coap_deserialize ([ver * 64 + ty * 16 + lenN token; code; mid_h; mid_l] ++ token ++ body)) = true <->
  exists n, n < 20 /\ cut n body.
Proof.
  intros ver ty code mid_h mid_l token body Hv Ht Hk Hb HC. split.
  - destruct (body_parse ver ty code mid_h mid_l token body Hv Ht Hk Hb) as (h & ->). intros U.
    assert (U' : is_ub (walk MAX_OPTION_COUNT 20 body 0 0) = true).
    { destruct (walk MAX_OPTION_COUNT 20 body 0 0) as [[l pl]|e|u]; [discriminate..|reflexivity]. }
    destruct HC as [HC|[n HC]].
    + rewrite (walk_complete _ _ HC) in U'; [discriminate|exact Hb|apply N.leb_le; reflexivity|lia].
    + destruct (N.lt_ge_cases n 20) as [L|L]; [eauto|].
      rewrite (walk_late _ _ _ HC) in U'; [discriminate|exact Hb|apply N.leb_le; reflexivity|lia].
  - intros (n & Hn & C). rewrite (C13_cut_refuted _ _ _ _ _ _ _ n); auto.
Qed.
Print Assumptions C13_exact.

(** A request for "/ab" of which the last byte is missing, one cut in the extension of a
    length, and one cut behind two complete options. *)
Example C13_cut_example :
  cut 0 [0xb2; 97] /\ cut 0 [0xbd] /\ cut 1 [0xb1; 97; 0x4e; 1] /\
  coap_deserialize [0x41; 1; 0; 7; 5; 0xb1; 97; 0x4e; 1] = UB OobRead.
Proof.
  split; [apply (cut_value 11 [] 11 2 [] 2 [97]); [constructor; lia|apply (field_short 2); lia|left; lia|apply N.ltb_lt; reflexivity]|].
  split; [apply (cut_len 11 [] 11 13 []); [constructor; lia|left; split; [reflexivity|apply N.ltb_lt; reflexivity]]|].
  split; [|vm_compute; reflexivity].
  apply (cut_later 0 11 [] 11 1 [] [97] [0x4e; 1]); [constructor; lia|apply (field_short 1); lia|left; apply N.ltb_lt; reflexivity|].
  apply (cut_len 4 [] 4 14 [1]); [constructor; lia|right; split; [reflexivity|apply N.ltb_lt; reflexivity]].
Qed.

(** Packets without a complete header and token are refused, whatever they contain. *)
Theorem C13_short :
  forall (bs : bytes), lenN bs < 4 \/ 8 < nth 0 bs 0 mod 16 \/ lenN bs < 4 + nth 0 bs 0 mod 16 ->
  coap_deserialize bs = Err not_valid_input_packet \/ coap_deserialize bs = Err oscore_inpkt_invalid_tkl.
Proof.
  intros bs H. unfold coap_deserialize, HEADER_LEN. destruct (N.ltb_spec (lenN bs) 4) as [L|L]; [left; reflexivity|right].
  destruct bs as [|a [|b [|c [|d bs]]]]; [exfalso; unfold lenN in L; cbn [length] in L; lia..|].
  change (rd (a :: b :: c :: d :: bs) 0) with (@Ok N a). change (rd (a :: b :: c :: d :: bs) 1) with (@Ok N b).
  change (rd (a :: b :: c :: d :: bs) 2) with (@Ok N c). change (rd (a :: b :: c :: d :: bs) 3) with (@Ok N d). cbn [bind].
  change (dropN 4 (a :: b :: c :: d :: bs)) with bs. change (nth 0 (a :: b :: c :: d :: bs) 0) with a in H.
  rewrite !lenN_cons in H, L. destruct (N.ltb_spec 8 (a mod 16)); [reflexivity|].
  destruct (N.ltb_spec (lenN bs) (a mod 16)); [reflexivity|lia].
Qed.
Print Assumptions C13_short.
