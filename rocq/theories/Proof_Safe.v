(** oscore2coap does not run into undefined behaviour. *)
From Coq Require Import Permutation.
From Verif Require Import Base Proof_Base Model_Common Model_Crypto Model_OscorePrims Proof_OscorePrims Model_Coap Spec_Coap
  Proof_Coap Model_Interactions Model_Replay Model_Context Model_Send Model_Recv Proof_Send Spec_UriPath Proof_UriPath
  Spec_Options Proof_Options Spec_Safe.

Definition ok_or_err {A} (r : res A) : Prop := is_ub r = false.
Lemma oe_ok {A} (a : A) : ok_or_err (Ok a). Proof. reflexivity. Qed.
Lemma oe_err {A} e : ok_or_err (@Err A e). Proof. reflexivity. Qed.
Lemma oe_bind {A B} (r : res A) (k : A -> res B) : ok_or_err r -> (forall a, r = Ok a -> ok_or_err (k a)) -> ok_or_err (bind r k).
Proof. intros H1 H2. destruct r as [a|e|u]; cbn; [apply (H2 a eq_refl)|reflexivity|discriminate]. Qed.
Lemma oe_check a b : ok_or_err (check_buffer_size a b).
Proof. unfold check_buffer_size. destruct (a <? b); reflexivity. Qed.
Lemma oe_put a b : ok_or_err (Model_Cbor.cbor_put a b).
Proof. unfold Model_Cbor.cbor_put. destruct (_ <=? _); reflexivity. Qed.
Lemma oe_tryc {A B C} (c : C) (r : res A) (k : A -> C * res B) :
  ok_or_err r -> (forall a, r = Ok a -> ok_or_err (snd (k a))) -> ok_or_err (snd (tryc c r k)).
Proof. intros H1 H2. destruct r as [a|e|u]; cbn; [apply (H2 a eq_refl)|reflexivity|discriminate]. Qed.
Lemma oe_callc {A B C} (r : C * res A) (k : C -> A -> C * res B) :
  ok_or_err (snd r) -> (forall c a, r = (c, Ok a) -> ok_or_err (snd (k c a))) -> ok_or_err (snd (callc r k)).
Proof. intros H1 H2. destruct r as [c [a|e|u]]; cbn in *; [apply (H2 c a eq_refl)|reflexivity|discriminate]. Qed.

(** ** The parser *)

Lemma scan_loop prev opts payload d : scan prev opts payload d ->
  forall pre acc slots room, lenN (pre ++ d) < 2 ^ 16 -> (0 < room)%nat ->
  (lenN acc + lenN opts <= slots \/ lenN acc + N.of_nat room <= slots) ->
  (exists l, options_deserialize_loop (pre ++ d) slots room (lenN pre) (lenN pre) prev acc = Ok (acc ++ l, payload) /\
             map nv l = opts) \/
  exists e, options_deserialize_loop (pre ++ d) slots room (lenN pre) (lenN pre) prev acc = Err e.
Proof.
  induction 1 as [prev|prev p|prev b r Hb Hn|prev dn dx x r HD|prev dn dx x ln lx v opts p r HD Hd Hx HL Hl HS IH];
    intros pre acc slots room Hlen Hroom Hslots; (destruct room as [|room]; [lia|]).
  - left. exists []. rewrite !app_nil_r. cbn [options_deserialize_loop]. rewrite N.ltb_irrefl. split; reflexivity.
  - cbn [options_deserialize_loop]. destruct (N.ltb_spec (lenN pre) (lenN (pre ++ 255 :: p))) as [_|L];
      [|rewrite lenN_app, lenN_cons in L; lia].
    rewrite rd_app_here. cbn [bind]. change (255 =? OPTION_PAYLOAD_MARKER) with true. cbn iota.
    destruct (_ <? 2); [right; eauto|left]. exists []. rewrite app_nil_r. split; [|reflexivity].
    rewrite lenN_app, lenN_cons in Hlen. unfold u16. rewrite N.mod_small by lia. do 2 f_equal.
    replace (pre ++ 255 :: p) with ((pre ++ [255]) ++ p) by (rewrite <- app_assoc; reflexivity).
    replace (lenN pre + 1) with (lenN (pre ++ [255])) by (rewrite lenN_app; reflexivity). apply dropN_app.
  - right. cbn [options_deserialize_loop]. destruct (N.ltb_spec (lenN pre) (lenN (pre ++ b :: r))) as [_|L];
      [|rewrite lenN_app, lenN_cons in L; lia].
    rewrite rd_app_here. cbn [bind]. destruct (N.eqb_spec b OPTION_PAYLOAD_MARKER) as [E|_]; [contradiction|].
    rewrite Hb. eexists. reflexivity.
  - right. cbn [options_deserialize_loop]. set (hb := dn * 16 + 15).
    destruct (N.ltb_spec (lenN pre) (lenN (pre ++ hb :: dx ++ r))) as [_|L]; [|rewrite lenN_app, lenN_cons in L; lia].
    rewrite rd_app_here. cbn [bind]. pose proof (field_nibble _ _ _ HD).
    destruct (N.eqb_spec hb OPTION_PAYLOAD_MARKER) as [E|_]; [unfold OPTION_PAYLOAD_MARKER, hb in E; lia|].
    replace (hb / 16) with dn by (unfold hb; lia). replace (hb mod 16) with 15 by (unfold hb; lia).
    assert (PD : exists y q, parse_delta (pre ++ hb :: dx ++ r) (lenN pre + 1) dn = Ok (y, q)).
    { replace (pre ++ hb :: dx ++ r) with ((pre ++ [hb]) ++ dx ++ r) by (rewrite <- app_assoc; reflexivity).
      replace (lenN pre + 1) with (lenN (pre ++ [hb])) by (rewrite lenN_app; reflexivity).
      unfold parse_delta. inversion HD; subst.
      - destruct (N.eqb_spec x 13); [lia|]. destruct (N.eqb_spec x 14); [lia|]. destruct (N.eqb_spec x 15); [lia|]. do 2 eexists. reflexivity.
      - cbn [N.eqb Pos.eqb]. cbn [app]. rewrite rd_app_here. cbn [bind]. do 2 eexists. reflexivity.
      - cbn [N.eqb Pos.eqb]. cbn [app]. rewrite rd_app_here. cbn [bind].
        replace (lenN (pre ++ [hb]) + 1) with (lenN ((pre ++ [hb]) ++ [hi])) by (rewrite !lenN_app; reflexivity).
        replace ((pre ++ [hb]) ++ hi :: lo :: r) with (((pre ++ [hb]) ++ [hi]) ++ lo :: r) by (rewrite <- !app_assoc; reflexivity).
        rewrite rd_app_here. cbn [bind]. do 2 eexists. reflexivity. }
    destruct PD as (y & q & ->). cbn [bind]. eexists. reflexivity.
  - set (hb := dn * 16 + ln) in *.
    assert (Hlen' := Hlen). rewrite lenN_app, lenN_cons, !lenN_app in Hlen'.
    pose proof (field_nibble _ _ _ HD). pose proof (field_nibble _ _ _ HL).
    assert (E1 : pre ++ hb :: dx ++ lx ++ v ++ r = (pre ++ [hb]) ++ dx ++ lx ++ v ++ r) by (rewrite <- !app_assoc; reflexivity).
    assert (L1 : lenN pre + 1 = lenN (pre ++ [hb])) by (rewrite lenN_app; reflexivity).
    assert (E2 : (pre ++ [hb]) ++ dx ++ lx ++ v ++ r = ((pre ++ [hb]) ++ dx) ++ lx ++ v ++ r) by (rewrite <- !app_assoc; reflexivity).
    assert (E3 : ((pre ++ [hb]) ++ dx) ++ lx ++ v ++ r = (((pre ++ [hb]) ++ dx) ++ lx) ++ v ++ r) by (rewrite <- !app_assoc; reflexivity).
    set (hd := ((pre ++ [hb]) ++ dx) ++ lx) in *.
    assert (E4 : hd ++ v ++ r = (hd ++ v) ++ r) by (rewrite <- !app_assoc; reflexivity).
    rewrite lenN_cons in Hslots.
    assert (S1 : lenN acc < slots) by lia.
    assert (Ei : u16 (lenN pre + (lenN hd - lenN pre) + lenN v) = lenN (hd ++ v)).
    { unfold u16. rewrite lenN_app. unfold hd. rewrite !lenN_app, lenN_cons, lenN_nil. rewrite N.mod_small by lia. lia. }
    destruct room as [|room].
    + right. rewrite loop_unfold1.
      destruct (N.ltb_spec (lenN pre) (lenN (pre ++ hb :: dx ++ lx ++ v ++ r))) as [_|L]; [|rewrite lenN_app, lenN_cons in L; lia].
      rewrite rd_app_here. cbn [bind].
      destruct (N.eqb_spec hb OPTION_PAYLOAD_MARKER) as [E|_]; [unfold OPTION_PAYLOAD_MARKER, hb in E; lia|].
      replace (hb / 16) with dn by (unfold hb; lia). replace (hb mod 16) with ln by (unfold hb; lia).
      rewrite E1, L1, (parse_delta_field _ _ _ _ _ HD) by (auto; lia). cbn [bind].
      rewrite E2, <- lenN_app, (parse_len_field _ _ _ _ _ HL) by (auto; lia). cbn [bind].
      destruct (N.leb_spec slots (lenN acc)); [lia|].
      rewrite <- lenN_app, E3. fold hd. rewrite slice_app. cbn [bind]. eauto.
    + rewrite loop_unfold.
      destruct (N.ltb_spec (lenN pre) (lenN (pre ++ hb :: dx ++ lx ++ v ++ r))) as [_|L]; [|rewrite lenN_app, lenN_cons in L; lia].
      rewrite rd_app_here. cbn [bind].
      destruct (N.eqb_spec hb OPTION_PAYLOAD_MARKER) as [E|_]; [unfold OPTION_PAYLOAD_MARKER, hb in E; lia|].
      replace (hb / 16) with dn by (unfold hb; lia). replace (hb mod 16) with ln by (unfold hb; lia).
      rewrite E1, L1, (parse_delta_field _ _ _ _ _ HD) by (auto; lia). cbn [bind].
      rewrite E2, <- lenN_app, (parse_len_field _ _ _ _ _ HL) by (auto; lia). cbn [bind].
      destruct (N.leb_spec slots (lenN acc)); [lia|].
      rewrite <- lenN_app, E3. fold hd. rewrite slice_app. cbn [bind].
      rewrite Ei, <- (lenN_app hd v).
      assert (En : u16 (prev + x) = prev + x) by (unfold u16; apply N.mod_small; exact Hx).
      rewrite En, E4.
      match goal with |- context [options_deserialize_loop _ _ _ _ _ _ (acc ++ [?o])] => set (oo := o) end.
      destruct (IH (hd ++ v) (acc ++ [oo]) slots (S room)) as [(l & El & Em)|(e & Ee)].
      * rewrite <- E4, <- E3, <- E2, <- E1. exact Hlen.
      * lia.
      * rewrite lenN_app, lenN_cons, lenN_nil. lia.
      * left. exists (oo :: l). rewrite El, <- app_assoc. split; [reflexivity|]. cbn [map]. rewrite Em. reflexivity.
      * right. eauto.
Qed.

Lemma scan_parse opts payload d slots : scan 0 opts payload d -> lenN d < 2 ^ 16 -> (lenN opts <= slots \/ 20 <= slots) ->
  (exists l, options_deserialize d slots = Ok (l, payload) /\ map nv l = opts) \/ exists e, options_deserialize d slots = Err e.
Proof.
  intros H HL HS. unfold options_deserialize. destruct d as [|b d].
  - inversion H; subst. left. exists []. split; reflexivity.
  - destruct (scan_loop _ _ _ _ H [] [] slots (N.to_nat MAX_OPTION_COUNT)) as [(l & E & M)|(e & E)].
    + exact HL.
    + apply Nat.ltb_lt. reflexivity.
    + change (N.of_nat (N.to_nat MAX_OPTION_COUNT)) with 20. rewrite lenN_nil. lia.
    + left. exists l. split; [exact E|exact M].
    + right. exists e. exact E.
Qed.

Lemma received_parse bs opts payload : packet bs opts payload ->
  (exists k, coap_deserialize bs = Ok k /\ map nv (k_opts k) = opts /\ k_payload k = payload /\ h_code (k_hdr k) = nth 1 bs 0) \/
  exists e, coap_deserialize bs = Err e.
Proof.
  intros (HB & HL & HS). cbn zeta in HS. unfold coap_deserialize, HEADER_LEN.
  destruct (N.ltb_spec (lenN bs) 4); [right; eauto|].
  destruct bs as [|b0 [|b1 [|b2 [|b3 d]]]]; rewrite ?lenN_cons, ?lenN_nil in *; try lia.
  cbn [nth] in *. change (rd (b0 :: b1 :: b2 :: b3 :: d) 0) with (@Ok N b0).
  change (rd (b0 :: b1 :: b2 :: b3 :: d) 1) with (@Ok N b1).
  change (rd (b0 :: b1 :: b2 :: b3 :: d) 2) with (@Ok N b2).
  change (rd (b0 :: b1 :: b2 :: b3 :: d) 3) with (@Ok N b3). cbn [bind].
  change (dropN 4 (b0 :: b1 :: b2 :: b3 :: d)) with d.
  destruct (N.ltb_spec 8 (b0 mod 16)); [right; eauto|].
  destruct (N.ltb_spec (lenN d) (b0 mod 16)); [right; eauto|].
  assert (S1 : scan 0 opts payload (dropN (b0 mod 16) d)).
  { specialize (HS ltac:(lia) ltac:(lia)). rewrite <- dropN_dropN in HS. exact HS. }
  destruct (scan_parse _ _ _ MAX_OPTION_COUNT S1) as [(l & -> & M)|(e & ->)].
  - rewrite lenN_dropN. lia.
  - right. apply N.leb_le. reflexivity.
  - left. eexists. split; [reflexivity|]. cbn [k_opts k_payload k_hdr h_code]. auto.
  - right. exists e. reflexivity.
Qed.

(** ** The OSCORE option *)

Lemma osc_parse v piv kid tail : osc_value v piv kid -> is_bytes v ->
  exists r, oscore_value_parse (v ++ tail) (lenN v) = Ok r /\ co_piv r = piv /\ co_kid_len r = lenN kid /\ lenN piv <= 5 /\
    kid_view r = Ok kid /\ takeN (co_kid_len r) (co_kid_mem r) = kid.
Proof.
  intros H HB. destruct H as [|f piv ctx kid H5 HP HC HK].
  - eexists. split; [reflexivity|]. repeat split. apply N.leb_le. reflexivity.
  - unfold oscore_value_parse. rewrite lenN_cons, !lenN_app.
    destruct (N.eqb_spec (1 + (lenN piv + (lenN ctx + lenN kid))) 0); [lia|].
    cbn [app]. rewrite <- !app_assoc. change (rd (f :: piv ++ ctx ++ kid ++ tail) 0) with (@Ok N f). cbn [bind].
    rewrite <- HP. destruct (N.eqb_spec (lenN piv) 6); [lia|]. destruct (N.eqb_spec (lenN piv) 7); [lia|]. cbn [orb].
    assert (S1 : slice (f :: piv ++ ctx ++ kid ++ tail) 1 (lenN piv) = Ok piv) by exact (slice_app [f] piv (ctx ++ kid ++ tail)).
    rewrite S1. cbn [bind].
    set (left1 := if lenN piv =? 0 then _ else _).
    assert (L1 : left1 mod 256 = (lenN ctx + lenN kid) mod 256 /\ (ctx = [] -> left1 = lenN kid)).
    { unfold left1, u8. change (2 ^ 8) with 256. change (2 ^ 32) with 4294967296.
      split; [|intros E0; assert (E1 : lenN ctx = 0) by (rewrite E0; reflexivity)]; destruct (N.eqb_spec (lenN piv) 0); try (rewrite ?lenN_nil; lia). }
    clearbody left1.
    destruct HC as [[Hh ->]|[Hh (x & ->)]]; rewrite Hh; cbn [N.eqb Pos.eqb bind app].
    + eexists. split; [reflexivity|]. cbn [co_piv co_kid_len co_kid_mem]. split; [reflexivity|].
      unfold kid_view. cbn [co_kid_len co_kid_mem]. rewrite lenN_nil in L1. destruct L1 as [_ L1]. rewrite L1 by reflexivity.
      destruct (N.eqb_spec (f / 8 mod 2) 0).
      * repeat split; try lia.
      * replace (1 + lenN piv) with (lenN (f :: piv)) by (rewrite lenN_cons; reflexivity).
        change (f :: piv ++ kid ++ tail) with ((f :: piv) ++ kid ++ tail). rewrite dropN_app.
        repeat split; try lia; [exact (slice_app [] kid tail)|apply takeN_app].
    + assert (Lx : lenN x < 256).
      { inversion HB as [|? ? _ HB1]; subst. apply is_bytes_app in HB1 as [_ HB1].
        inversion HB1; assumption. }
      set (m := f :: piv ++ lenN x :: x ++ kid ++ tail).
      assert (R1 : rd m (1 + lenN piv) = Ok (lenN x)).
      { unfold m. change (f :: piv ++ lenN x :: x ++ kid ++ tail) with ((f :: piv) ++ lenN x :: x ++ kid ++ tail).
        rewrite <- (lenN_cons f piv). apply rd_app_here. }
      rewrite R1. cbn [bind].
      assert (S2 : slice m (1 + lenN piv + 1) (lenN x) = Ok x).
      { unfold m. change (f :: piv ++ lenN x :: x ++ kid ++ tail) with ((f :: piv) ++ [lenN x] ++ x ++ kid ++ tail).
        rewrite app_assoc. replace (1 + lenN piv + 1) with (lenN ((f :: piv) ++ [lenN x])) by (rewrite lenN_app, lenN_cons; reflexivity).
        apply slice_app. }
      rewrite S2. cbn [bind]. rewrite lenN_cons in L1. destruct L1 as [L1 _].
      assert (L2 : u8 (left1 + 2 ^ 32 - (lenN x + 1)) = lenN kid).
      { unfold u8. change (2 ^ 8) with 256. change (2 ^ 32) with 4294967296. lia. }
      rewrite L2. eexists. split; [reflexivity|]. unfold kid_view. cbn [co_piv co_kid_len co_kid_mem]. split; [reflexivity|].
      destruct (N.eqb_spec (f / 8 mod 2) 0).
      * repeat split; try lia.
      * assert (D : dropN (1 + lenN piv + 1 + lenN x) m = kid ++ tail).
        { unfold m. change (f :: piv ++ lenN x :: x ++ kid ++ tail) with ((f :: piv) ++ ([lenN x] ++ x) ++ kid ++ tail).
          rewrite app_assoc. replace (1 + lenN piv + 1 + lenN x) with (lenN ((f :: piv) ++ [lenN x] ++ x))
            by (rewrite !lenN_app, lenN_cons; change (lenN [lenN x]) with 1; lia).
          apply dropN_app. }
        rewrite D. repeat split; try lia; [exact (slice_app [] kid tail)|apply takeN_app].
Qed.

Definition osc_good (v : bytes) : Prop := osc_reserved v \/ exists piv kid, osc_value v piv kid.
Lemma osc_parse_reserved v tail : osc_reserved v -> exists e, oscore_value_parse (v ++ tail) (lenN v) = Err e.
Proof.
  intros (f & r & -> & H). unfold oscore_value_parse. rewrite lenN_cons. destruct (N.eqb_spec (1 + lenN r) 0); [lia|].
  cbn [app]. change (rd (f :: r ++ tail) 0) with (@Ok N f). cbn [bind].
  destruct (N.eqb_spec (f mod 8) 6); [eexists; reflexivity|]. destruct (N.eqb_spec (f mod 8) 7); [eexists; reflexivity|]. lia.
Qed.
Lemma osc_parser opts : (forall v, In (9, v) (map nv opts) -> osc_good v /\ is_bytes v) ->
  (exists e, oscore_option_parser opts = Err e) \/
  exists o v piv kid, oscore_option_parser opts = Ok o /\ In (9, v) (map nv opts) /\ osc_value v piv kid /\
    co_piv o = piv /\ co_kid_len o = lenN kid /\ lenN piv <= 5 /\ kid_view o = Ok kid /\ takeN (co_kid_len o) (co_kid_mem o) = kid.
Proof.
  unfold oscore_option_parser. intros H.
  enough (G : forall cur, (cur = Err not_oscore_pkt \/
       exists o v piv kid, cur = Ok o /\ osc_value v piv kid /\ In (9, v) (map nv opts) /\
       co_piv o = piv /\ co_kid_len o = lenN kid /\ lenN piv <= 5 /\ kid_view o = Ok kid /\ takeN (co_kid_len o) (co_kid_mem o) = kid) ->
     (exists e, oscore_option_parser_loop opts cur = Err e) \/
     exists o v piv kid, oscore_option_parser_loop opts cur = Ok o /\ In (9, v) (map nv opts) /\ osc_value v piv kid /\
    co_piv o = piv /\ co_kid_len o = lenN kid /\ lenN piv <= 5 /\ kid_view o = Ok kid /\ takeN (co_kid_len o) (co_kid_mem o) = kid)
  by (apply G; left; reflexivity).
  assert (IN : incl (map nv opts) (map nv opts)) by apply incl_refl.
  revert IN. set (all := map nv opts) in *. unfold all at 1. clearbody all.
  induction opts as [|x opts IH]; intros IN cur HC; cbn [oscore_option_parser_loop].
  - destruct HC as [->|(o & v & piv & kid & -> & HC)]; [left; eauto|right]. exists o, v, piv, kid. tauto.
  - cbn [map] in IN. assert (IN' : incl (map nv opts) all) by (intros y Hy; apply IN; right; exact Hy).
    destruct (N.eqb_spec (o_num x) OPT_OSCORE) as [E|E]; [|apply IH; assumption].
    assert (I9 : In (9, o_val x) all).
    { apply IN. left. unfold nv. rewrite E. reflexivity. }
    destruct (H _ I9) as [[R|(piv & kid & V)] B].
    + destruct (osc_parse_reserved _ (o_tail x) R) as (e & ->). left. eexists. reflexivity.
    + destruct (osc_parse _ _ _ (o_tail x) V B) as (r & -> & P1 & P2 & P3 & P4 & P5). cbn [bind]. apply IH; [exact IN'|].
      right. exists r, (o_val x), piv, kid. tauto.
Qed.

(** ** After decryption *)

Lemma reorder_safe u e v : In (9, v) (map nv u) -> lenN u <= 20 -> lenN e <= 10 -> ok_or_err (options_reorder u e).
Proof.
  intros H9 HU HE. unfold options_reorder. apply oe_bind; [apply oe_check|]. intros [] C.
  unfold check_buffer_size in C. destruct (N.ltb_spec MAX_OPTION_COUNT (u8 (lenN u + lenN e + 2 ^ 8 - 1))) as [|C1]; [discriminate|].
  set (f := fun o => negb (o_num o =? OPT_OSCORE) && negb (o_num o =? OPT_OBSERVE)).
  assert (LF : lenN (filter f u) + 1 <= lenN u).
  { clear - H9. induction u as [|x u IH]; [destruct H9|]. cbn [map] in H9. cbn [filter].
    assert (LE : forall l : list copt, lenN (filter f l) <= lenN l).
    { intros l. induction l as [|y l IHl]; [apply N.le_refl|]. cbn [filter]. destruct (f y); rewrite ?lenN_cons; lia. }
    destruct H9 as [E|H9].
    - unfold nv in E. injection E as E _. unfold f at 1. rewrite E. cbn [N.eqb Pos.eqb negb andb].
      change (9 =? OPT_OSCORE) with true. cbn [negb andb]. rewrite lenN_cons. specialize (LE u). lia.
    - specialize (IH H9). destruct (f x); rewrite ?lenN_cons; lia. }
  rewrite lenN_app. destruct (N.ltb_spec MAX_OPTION_COUNT (lenN (filter f u) + lenN e)) as [C2|C2]; [|reflexivity].
  exfalso. unfold MAX_OPTION_COUNT, u8 in *. change (2 ^ 8) with 256 in *. lia.
Qed.

Lemma path_size_app a b : path_size (a ++ b) = path_size a + path_size b.
Proof. induction a as [|[n v] a IH]; [reflexivity|]. cbn [app path_size]. rewrite IH. lia. Qed.
Lemma path_size_perm a b : Permutation a b -> path_size a = path_size b.
Proof. induction 1 as [|[n v] a b P IH|[n v] [m w] a|a b c P IH P' IH']; cbn [path_size]; lia. Qed.
Lemma path_size_segs l : segs_size (path_segments l) = path_size (map nv l).
Proof.
  induction l as [|o l IH]; [reflexivity|]. unfold path_segments in *. cbn [filter map path_size]. unfold nv at 1.
  destruct (o_num o =? 11); cbn [map segs_size]; lia.
Qed.
Lemma path_size_filter l :
  path_size (map nv (filter (fun o => negb (o_num o =? OPT_OSCORE) && negb (o_num o =? OPT_OBSERVE)) l)) = path_size (map nv l).
Proof.
  induction l as [|o l IH]; [reflexivity|]. cbn [filter map path_size]. unfold nv at 2.
  destruct (N.eqb_spec (o_num o) OPT_OSCORE) as [E|E]; cbn [negb andb].
  - rewrite IH, E. reflexivity.
  - destruct (N.eqb_spec (o_num o) OPT_OBSERVE) as [E'|E']; cbn [negb andb].
    + rewrite IH, E'. reflexivity.
    + cbn [map path_size]. unfold nv at 1. rewrite IH. reflexivity.
Qed.
Lemma path_safe u e opts : options_reorder u e = Ok opts -> path_size (map nv u ++ map nv e) <> 30 ->
  ok_or_err (uri_path_create opts OSCORE_MAX_URI_PATH_LEN).
Proof.
  intros H HP. change OSCORE_MAX_URI_PATH_LEN with 30. rewrite uri_path_create_exact by (apply N.ltb_lt; reflexivity). cbn zeta.
  destruct (_ <? 30); [reflexivity|]. destruct (N.eqb_spec (segs_size (path_segments opts)) 30) as [E|E]; [|reflexivity].
  exfalso. apply HP. rewrite <- E, path_size_segs. unfold options_reorder in H. apply bind_ok in H as ([] & _ & H).
  destruct (_ <? _); [discriminate|]. injection H as <-.
  match goal with |- context [exchange_sort _ ?l 0] => set (ll := l) end.
  rewrite <- (path_size_perm _ _ (exchange_sort_perm _ ll 0 eq_refl)). unfold ll. rewrite map_app, !path_size_app, path_size_filter.
  reflexivity.
Qed.
Lemma set_record_safe t r : ok_or_err (set_record t r).
Proof.
  unfold set_record. destruct (_ || _); [reflexivity|]. apply oe_bind.
  - destruct (_ <? _)%nat; [reflexivity|]. destruct (_ <? _)%nat; reflexivity.
  - intros i _. destruct (_ && _); reflexivity.
Qed.
Lemma update_safe ty tok uri t piv kid : ok_or_err (update_wrapper ty tok uri t piv kid).
Proof.
  unfold update_wrapper.
  assert (A : forall ty', ok_or_err (let* _ := check_buffer_size MAX_PIV_LEN (lenN piv) in
      let* _ := check_buffer_size MAX_KID_LEN (lenN kid) in
      let* _ := check_buffer_size MAX_TOKEN_LEN (lenN tok) in
      let* _ := check_buffer_size OSCORE_MAX_URI_PATH_LEN (lenN uri) in
      set_record t {| i_type := ty'; i_token := tok; i_uri := uri; i_piv := piv; i_kid := kid |})).
  { intros ty'. repeat (apply oe_bind; [apply oe_check|intros _ _]). apply set_record_safe. }
  destruct ty; try apply A; try reflexivity. unfold remove_record. destruct (_ <? _); [reflexivity|]. destruct (_ <? _)%nat; reflexivity.
Qed.
Lemma get_record_safe t tok : ok_or_err (get_record t tok).
Proof. unfold get_record. destruct (_ <? _); [reflexivity|]. destruct (nth_error _ _) as [[x|]|]; reflexivity. Qed.
Lemma echo_safe cache pt opts : inner_message pt opts -> lenN pt < 2 ^ 16 -> ok_or_err (echo_val_is_fresh cache pt).
Proof.
  intros (code & body & payload & -> & S & L) HL. rewrite lenN_cons in HL. unfold echo_val_is_fresh, oscore_decrypted_payload_parser.
  destruct (scan_parse _ _ _ 10 S) as [(l & -> & _)|(e & ->)]; [lia|left; exact L| |reflexivity].
  cbn [bind]. destruct (find _ _); [|reflexivity]. destruct (_ && _); reflexivity.
Qed.

Section WithCrypto.
Variable cr : crypto.

Lemma cose_decrypt_safe ct nonce aad key : ok_or_err (oscore_cose_decrypt cr ct nonce aad key).
Proof.
  unfold oscore_cose_decrypt. apply oe_bind; [apply oe_check|intros _ _].
  apply oe_bind; [apply oe_put|intros a _]. destruct (cr_aead_dec _ _ _ _ _ _); reflexivity.
Qed.
Lemma cose_decrypt_some ct nonce aad key pt : oscore_cose_decrypt cr ct nonce aad key = Ok pt ->
  exists a, cr_aead_dec cr key nonce a 8 ct = Some pt.
Proof.
  unfold oscore_cose_decrypt. intros H. apply bind_ok in H as ([] & _ & H). apply bind_ok in H as (a & _ & H).
  exists a. unfold AUTH_TAG_LEN in H. destruct (cr_aead_dec _ _ _ _ _ _); [injection H as <-; reflexivity|discriminate].
Qed.

(** What a decrypted message has to satisfy. *)
Definition opens_well (c : ctx) (k : cpkt) : Prop :=
  forall nonce a pt, cr_aead_dec cr (c_rkey c) nonce a 8 (k_payload k) = Some pt ->
    lenN pt < 2 ^ 16 /\ exists eopts, inner_message pt eopts /\ path_size (map nv (k_opts k) ++ eopts) <> 30.

Lemma generate_safe k v pt eopts : In (9, v) (map nv (k_opts k)) -> lenN (k_opts k) <= 20 ->
  inner_message pt eopts -> lenN pt < 2 ^ 16 -> path_size (map nv (k_opts k) ++ eopts) <> 30 ->
  ok_or_err (o_coap_pkg_generate pt k) /\
  forall out, o_coap_pkg_generate pt k = Ok out -> ok_or_err (uri_path_create (k_opts out) OSCORE_MAX_URI_PATH_LEN).
Proof.
  intros H9 H20 (code & body & payload & -> & S & L) HL HP. rewrite lenN_cons in HL.
  unfold o_coap_pkg_generate, oscore_decrypted_payload_parser.
  destruct (scan_parse _ _ _ MAX_E_OPTION_COUNT S) as [(l & -> & M)|(e & ->)].
  - lia.
  - left. exact L.
  - cbn [bind]. assert (LL : lenN l <= 10) by (rewrite <- M in L; unfold lenN in *; rewrite map_length in L; exact L).
    pose proof (reorder_safe _ l v H9 H20 LL) as R. split.
    + apply oe_bind; [exact R|reflexivity].
    + intros out H. apply bind_ok in H as (opts & EO & H). injection H as <-. cbn [k_opts].
      apply (path_safe _ _ _ EO). rewrite M. exact HP.
  - split; [reflexivity|discriminate].
Qed.

Lemma decrypt_safe c nn k v : lenN (c_iv c) = 13 ->
  (nn = None -> is_request k = false) ->
  (forall o, nn = Some o -> exists kid, kid_view o = Ok kid /\ lenN kid <= 7 /\ lenN (co_piv o) <= 5) ->
  In (9, v) (map nv (k_opts k)) -> lenN (k_opts k) <= 20 -> opens_well c k ->
  ok_or_err (snd (decrypt_wrapper cr c nn k)) /\
  forall c' pt out, decrypt_wrapper cr c nn k = (c', Ok (pt, out)) ->
    (exists nonce a, cr_aead_dec cr (c_rkey c) nonce a 8 (k_payload k) = Some pt) /\ o_coap_pkg_generate pt k = Ok out.
Proof.
  intros HIV HN HO H9 H20 HW. split.
  - unfold decrypt_wrapper. apply oe_tryc.
    { unfold read_wrapper. destruct nn as [o|].
      - destruct (coap_get_message_type k); try reflexivity; (apply oe_bind; [apply get_record_safe|reflexivity]).
      - unfold coap_get_message_type. rewrite (HN eq_refl).
        destruct (get_observe_value (k_opts k)); (apply oe_bind; [apply get_record_safe|reflexivity]). }
    intros [rpiv rkid] _. apply oe_tryc.
    { destruct nn as [o|]; [|reflexivity]. destruct (HO o eq_refl) as (kid & -> & L1 & L2). cbn [bind].
      rewrite create_nonce_spec by assumption. reflexivity. }
    intros nonce _. apply oe_tryc; [apply oe_put|intros aad _].
    apply oe_tryc; [apply cose_decrypt_safe|intros pt EP]. apply cose_decrypt_some in EP as (a & EP).
    destruct (HW _ _ _ EP) as (LP & eopts & IM & PS). destruct (generate_safe k v pt eopts H9 H20 IM LP PS) as [G1 G2].
    apply oe_tryc; [exact G1|intros out EO]. apply oe_tryc; [apply (G2 out EO)|intros uri _].
    apply oe_tryc; [apply update_safe|intros t _]. reflexivity.
  - intros c' pt out H. unfold decrypt_wrapper in H. apply tryc_ok in H as ([rpiv rkid] & _ & H).
    apply tryc_ok in H as (nonce & _ & H). apply tryc_ok in H as (aad & _ & H). apply tryc_ok in H as (pt' & EP & H).
    apply tryc_ok in H as (out' & EO & H). apply tryc_ok in H as (uri & _ & H). apply tryc_ok in H as (t & _ & H).
    injection H as _ <- <-. apply cose_decrypt_some in EP as (a & EP). eauto.
Qed.

Lemma core_safe c bs opts payload : crypto_ok cr -> lenN (c_iv c) = 13 -> lenN (c_rid c) <= 7 -> packet bs opts payload ->
  (forall v, In (9, v) opts -> osc_reserved v \/
     exists piv kid, osc_value v piv kid /\ (is_req bs \/ piv = [] \/ lenN kid <= 7)) ->
  (forall nonce a pt, cr_aead_dec cr (c_rkey c) nonce a 8 payload = Some pt ->
     (exists eopts, inner_message pt eopts /\ path_size (opts ++ eopts) <> 30) /\
     (is_req bs -> forall v piv kid, In (9, v) opts -> osc_value v piv kid -> piv <> [])) ->
  ok_or_err (snd (oscore2coap_core cr c bs)) /\
  forall c' out, oscore2coap_core cr c bs = (c', Ok out) ->
    exists k pt, coap_deserialize bs = Ok k /\ is_bytes pt /\ lenN pt < 2 ^ 32 /\ o_coap_pkg_generate pt k = Ok out.
Proof.
  intros OK HIV HR HRC HO HD.
  assert (HB : is_bytes bs) by apply HRC. assert (HL : lenN bs < 2 ^ 32) by (destruct HRC as (_ & HL & _); lia).
  destruct (received_parse _ _ _ HRC) as [(k & EK & MO & PK & HC)|(e & EE)].
  2: { unfold oscore2coap_core. rewrite EE. unfold check_context_freshness. destruct (_ <=? _); (split; [reflexivity|discriminate]). }
  destruct (coap_parse_sound _ _ EK HB HL) as (W & _ & L19 & OW & _ & PB & _).
  assert (BV : forall v, In (9, v) (map nv (k_opts k)) -> is_bytes v).
  { intros v Hv. apply in_map_iff in Hv as (o & E & Ho). rewrite Forall_forall in OW. specialize (OW o Ho).
    unfold nv in E. injection E as _ <-. apply OW. }
  assert (RQ : is_request k = true <-> is_req bs).
  { unfold is_request, is_req. rewrite HC. apply N.eqb_eq. }
  destruct (osc_parser (k_opts k)) as [(e & EE)|(o & v & piv & kid & EO & I9 & OV & P1 & P2 & P3 & P4 & P5)].
  { intros v Hv. split; [|exact (BV v Hv)]. rewrite MO in Hv. destruct (HO v Hv) as [R|(p & q & V & _)]; [left; exact R|right; eauto]. }
  { unfold oscore2coap_core, check_context_freshness. destruct (_ <=? _); cbn [tryc]; [split; [reflexivity|discriminate]|].
    rewrite EK. cbn [tryc]. rewrite EE. split; [reflexivity|discriminate]. }
  assert (L20 : lenN (k_opts k) <= 20) by lia.
  assert (G : byte_array_new MAX_PLAINTEXT_LEN (sub32 (lenN (k_payload k)) AUTH_TAG_LEN) = Ok tt -> opens_well c k).
  { intros BA nonce a pt E. rewrite PK in E. destruct (HD _ _ _ E) as [(eo & IM & PS) _]. split.
    - apply (ok_aead_dec_len cr OK) in E. unfold byte_array_new, check_buffer_size in BA. rewrite PK, E in BA.
      destruct (N.ltb_spec MAX_PLAINTEXT_LEN (sub32 (lenN pt + 8) AUTH_TAG_LEN)) as [|B]; [discriminate|].
      unfold sub32, AUTH_TAG_LEN, MAX_PLAINTEXT_LEN, u32 in B. destruct W as (_ & _ & _ & W4 & _). rewrite PK, E in W4.
      change (2 ^ 32) with 4294967296 in *. change (2 ^ 16) with 65536. lia.
    - exists eo. rewrite MO. auto. }
  assert (BY : forall nonce a pt, cr_aead_dec cr (c_rkey c) nonce a 8 (k_payload k) = Some pt -> is_bytes pt /\ lenN pt < 2 ^ 32).
  { intros nonce a pt E. split; [apply (ok_aead_dec_bytes cr OK) in E; auto|].
    apply (ok_aead_dec_len cr OK) in E. destruct W as (_ & _ & _ & W4 & _). lia. }
  unfold oscore2coap_core, check_context_freshness. destruct (_ <=? _); cbn [tryc]; [split; [reflexivity|discriminate]|].
  rewrite EK. cbn [tryc]. rewrite EO. cbn [tryc].
  destruct (is_request k) eqn:ER.
  - assert (RB : is_req bs) by (apply RQ; reflexivity).
    split.
    + apply oe_tryc; [apply oe_check|intros [] BA]. unfold recv_request.
      destruct (N.eqb_spec (lenN (c_rid c)) (co_kid_len o)) as [EL|EL]; cbn [negb]; [|reflexivity].
      rewrite P4. cbn [tryc]. destruct (negb (array_equals _ _)); [reflexivity|].
      apply oe_tryc; [unfold piv2ssn; destruct (_ <? _); reflexivity|intros ssn _].
      destruct (match c_echo c with ECHO_SYNCHRONIZED => _ | _ => _ end); [reflexivity|].
      destruct (decrypt_safe c (Some o) k v HIV) as [D1 D2]; try assumption.
      { discriminate. } { intros o' E'. injection E' as <-. exists kid. rewrite P1. split; [exact P4|]. split; [lia|exact P3]. }
      { exact (G BA). }
      apply oe_callc; [exact D1|intros c1 [pt out] ED]. destruct (D2 _ _ _ ED) as [(nonce & a & DD) _].
      destruct (c_echo c1).
      * reflexivity.
      * destruct (G BA _ _ _ DD) as (LP & eo & IM & _). pose proof (echo_safe (takeN (c_echo_len c1) (c_echo_buf c1)) pt eo IM LP) as ES.
        destruct (echo_val_is_fresh _ pt); [reflexivity|reflexivity|exact ES].
      * rewrite P1. rewrite PK in DD. destruct (HD _ _ _ DD) as [_ NP]. rewrite MO in I9. specialize (NP RB _ _ _ I9 OV).
        destruct piv; [contradiction|reflexivity].
    + intros c' out H. apply tryc_ok in H as ([] & BA & H).
      unfold recv_request in H. destruct (N.eqb_spec (lenN (c_rid c)) (co_kid_len o)) as [EL|EL]; cbn [negb] in H; [|discriminate].
      rewrite P4 in H. cbn [tryc] in H. destruct (negb (array_equals _ _)); [discriminate|].
      apply tryc_ok in H as (ssn & _ & H).
      destruct (match c_echo c with ECHO_SYNCHRONIZED => _ | _ => _ end); [discriminate|].
      destruct (decrypt_safe c (Some o) k v HIV) as [D1 D2]; try assumption.
      { discriminate. } { intros o' E'. injection E' as <-. exists kid. rewrite P1. split; [exact P4|]. split; [lia|exact P3]. }
      { exact (G BA). }
      apply callc_ok in H as (c1 & [pt out'] & ED & H). destruct (D2 _ _ _ ED) as [(nonce & a & DD) GO].
      assert (out' = out).
      { destruct (c_echo c1); [discriminate| |].
        - destruct (echo_val_is_fresh _ _); [injection H as _ H; exact H|discriminate|discriminate].
        - destruct (co_piv o); [discriminate|injection H as _ H; exact H]. }
      subst out'. exists k, pt. destruct (BY _ _ _ DD). auto.
  - assert (NB : ~ is_req bs) by (intros X; apply RQ in X; discriminate).
    assert (KO : co_piv o <> [] -> lenN kid <= 7).
    { intros NP. rewrite MO in I9. destruct (HO v I9) as [(f & r & -> & F)|(piv' & kid' & V' & [X|X])].
      - exfalso. inversion OV; subst. lia.
      - contradiction.
      - destruct (osc_parse _ _ _ [] OV (BV v ltac:(rewrite MO; exact I9))) as (r1 & E1 & A1 & A2 & _).
        destruct (osc_parse _ _ _ [] V' (BV v ltac:(rewrite MO; exact I9))) as (r2 & E2 & B1 & B2 & _).
        rewrite E1 in E2. injection E2 as <-. rewrite A1 in B1. rewrite A2 in B2. subst piv'.
        destruct X as [X|X]; [congruence|lia]. }
    assert (NO : forall o', Some o = Some o' -> co_piv o <> [] -> exists kid, kid_view o' = Ok kid /\ lenN kid <= 7 /\ lenN (co_piv o') <= 5).
    { intros o' E' NP. injection E' as <-. exists kid. rewrite P1. split; [exact P4|]. split; [apply KO; exact NP|exact P3]. }
    split.
    + apply oe_tryc; [apply oe_check|intros [] BA]. unfold recv_response.
      destruct (is_observe (k_opts k)).
      * destruct (co_piv o) as [|b p] eqn:EP; [reflexivity|].
        apply oe_tryc.
        { unfold check_notification. apply oe_bind; [unfold piv2ssn; destruct (_ <? _); reflexivity|].
          intros ssn _. destruct (_ && _); reflexivity. }
        intros [] _. destruct (decrypt_safe c (Some o) k v HIV) as [D1 D2]; try assumption.
        { discriminate. } { intros o' E'. apply (NO o' E'). discriminate. } { exact (G BA). }
        apply oe_callc; [exact D1|intros c1 [pt out] ED]. apply oe_tryc; [|reflexivity].
        unfold piv2ssn. destruct (_ <? _); reflexivity.
      * destruct (decrypt_safe c (match co_piv o with [] => None | _ => Some o end) k v HIV) as [D1 D2]; try assumption.
        { intros _. exact ER. } { intros o' E'. destruct (co_piv o) as [|b p] eqn:EP; [discriminate|]. apply (NO o' E'). discriminate. }
        { exact (G BA). }
        apply oe_callc; [exact D1|intros c1 [pt out] ED]. reflexivity.
    + intros c' out H. apply tryc_ok in H as ([] & BA & H).
      unfold recv_response in H. destruct (is_observe (k_opts k)).
      * destruct (co_piv o) as [|b p] eqn:EP; [discriminate|].
        apply tryc_ok in H as ([] & _ & H).
        destruct (decrypt_safe c (Some o) k v HIV) as [D1 D2]; try assumption.
        { discriminate. } { intros o' E'. apply (NO o' E'). discriminate. } { exact (G BA). }
        apply callc_ok in H as (c1 & [pt out'] & ED & H). apply tryc_ok in H as (ssn & _ & H). injection H as _ <-.
        destruct (D2 _ _ _ ED) as [(nonce & a & DD) GO]. exists k, pt. destruct (BY _ _ _ DD). auto.
      * destruct (decrypt_safe c (match co_piv o with [] => None | _ => Some o end) k v HIV) as [D1 D2]; try assumption.
        { intros _. exact ER. } { intros o' E'. destruct (co_piv o) as [|b p] eqn:EP; [discriminate|]. apply (NO o' E'). discriminate. }
        { exact (G BA). }
        apply callc_ok in H as (c1 & [pt out'] & ED & H). injection H as _ <-.
        destruct (D2 _ _ _ ED) as [(nonce & a & DD) GO]. exists k, pt. destruct (BY _ _ _ DD). auto.
Qed.
End WithCrypto.

Lemma core_opens cr c bs c' out : oscore2coap_core cr c bs = (c', Ok out) ->
  exists k nonce a pt, coap_deserialize bs = Ok k /\ cr_aead_dec cr (c_rkey c) nonce a 8 (k_payload k) = Some pt.
Proof.
  assert (D : forall nn k c1 x, decrypt_wrapper cr c nn k = (c1, Ok x) ->
    exists nonce a pt, cr_aead_dec cr (c_rkey c) nonce a 8 (k_payload k) = Some pt).
  { intros nn k c1 x H. unfold decrypt_wrapper in H. apply tryc_ok in H as ([rpiv rkid] & _ & H).
    apply tryc_ok in H as (nonce & _ & H). apply tryc_ok in H as (aad & _ & H). apply tryc_ok in H as (pt' & EP & H).
    apply cose_decrypt_some in EP as (a & EP). eauto. }
  intros H. unfold oscore2coap_core in H. apply tryc_ok in H as (_ & _ & H). apply tryc_ok in H as (k & EK & H).
  apply tryc_ok in H as (o & _ & H). apply tryc_ok in H as (_ & _ & H). exists k.
  enough (E : exists nonce a pt, cr_aead_dec cr (c_rkey c) nonce a 8 (k_payload k) = Some pt) by (destruct E as (n & a & pt & E); eauto).
  destruct (is_request k).
  - unfold recv_request in H. destruct (negb _); [discriminate|]. apply tryc_ok in H as (kid & _ & H).
    destruct (negb _); [discriminate|]. apply tryc_ok in H as (ssn & _ & H).
    destruct (match c_echo c with ECHO_SYNCHRONIZED => _ | _ => _ end); [discriminate|].
    apply callc_ok in H as (c1 & x & ED & _). eauto.
  - unfold recv_response in H. destruct (is_observe _).
    + destruct (co_piv o); [discriminate|]. apply tryc_ok in H as (_ & _ & H). apply callc_ok in H as (c1 & x & ED & _). eauto.
    + apply callc_ok in H as (c1 & x & ED & _). eauto.
Qed.
