(** When the CoAP parser reads a well-formed message as it is meant. *)
From Verif Require Import Base Proof_Base Model_Common Model_Coap Spec_Coap Proof_Coap Proof_Stripped.

Lemma parse_delta_read n e x pre tl y p : rfc_field n e x ->
  parse_delta (pre ++ e ++ tl) (lenN pre) n = Ok (y, p) ->
  p = lenN pre + lenN e /\ (delta_ok x /\ y = x mod 2 ^ 16 \/ ~ delta_ok x /\ y = x - 256).
Proof.
  intros H. unfold parse_delta, delta_ok. inversion H; subst.
  - destruct (N.eqb_spec x 13); [lia|]. destruct (N.eqb_spec x 14); [lia|].
    destruct (N.eqb_spec x 15); [lia|]. intros E. injection E as <- <-. rewrite lenN_nil.
    split; [lia|]. left. split; [left; lia|]. rewrite N.mod_small; [reflexivity|change (2 ^ 16) with 65536; lia].
  - cbn [app]. rewrite rd_app_here. cbn [bind]. change (13 =? 13) with true. cbn iota. unfold u8.
    intros E. injection E as <- <-. split; [reflexivity|]. change (2 ^ 8) with 256. change (2 ^ 16) with 65536.
    destruct (N.lt_ge_cases (b + 13) 256); [left|right]; (split; [lia|]).
    + rewrite !N.mod_small by lia. reflexivity.
    + lia.
  - change (14 =? 13) with false. change (14 =? 14) with true. cbn iota. cbn [app]. rewrite rd_app_here. cbn [bind].
    change (lenN pre + 1) with (lenN pre + N.of_nat 1). rewrite (rd_at pre _ 1 lo) by reflexivity.
    cbn [bind]. unfold u16. intros E. injection E as <- <-. split; [reflexivity|]. left. split; [right; lia|reflexivity].
Qed.

Lemma parse_len_read n e x pre tl y p : rfc_field n e x -> x < 2 ^ 16 ->
  parse_len (pre ++ e ++ tl) (lenN pre) n = Ok (y, p) ->
  p = lenN pre + lenN e /\ (y = x -> len_ok x).
Proof.
  intros H HX. unfold parse_len, len_ok. inversion H; subst.
  - destruct (N.eqb_spec x 13); [lia|]. destruct (N.eqb_spec x 14); [lia|].
    destruct (N.eqb_spec x 15); [lia|]. intros E. injection E as <- <-. rewrite lenN_nil. split; [lia|]. left. lia.
  - cbn [app]. rewrite rd_app_here. cbn [bind]. change (13 =? 13) with true. cbn iota. unfold u8.
    intros E. injection E as <- <-. split; [reflexivity|]. change (2 ^ 8) with 256. intros E. left. lia.
  - change (14 =? 13) with false. change (14 =? 14) with true. cbn iota. cbn [app]. rewrite rd_app_here. cbn [bind].
    change (lenN pre + 1) with (lenN pre + N.of_nat 1). rewrite (rd_at pre _ 1 lo) by reflexivity.
    cbn [bind]. intros E. injection E as E <-. split; [reflexivity|]. intros ->. right. split; [lia|].
    replace (hi * 256 + lo + 269 - 269) with (hi * 256 + lo) by lia.
    replace ((hi * 256 + lo) mod 256) with lo by lia. replace ((hi * 256 + lo) / 256) with hi by lia.
    apply lor_len; [assumption..|]. rewrite <- E. unfold u16. symmetry. apply N.mod_small.
    
    destruct (N.eq_dec (N.lor (hi * 256) (lo + 269)) 0) as [->|NZ]; [reflexivity|]. apply N.log2_lt_pow2; [lia|].
    rewrite N.log2_lor. apply N.max_lub_lt.
    + destruct (N.eq_dec (hi * 256) 0) as [->|]; [reflexivity|]. apply N.log2_lt_pow2; [lia|]. change (2 ^ 16) with 65536. lia.
    + apply N.log2_lt_pow2; [lia|]. change (2 ^ 16) with 65536. lia.
Qed.

Lemma walk_exact opts : forall prev obs, rfc_options prev opts obs -> forall slots room payload k l pl,
  prev < 2 ^ 16 -> lenN obs < 2 ^ 16 ->
  walk slots room (obs ++ marked payload) prev k = Ok (l, pl) -> map nv l = opts ->
  Forall delta_ok (deltas prev opts) /\ Forall (fun p => len_ok (lenN (snd p))) opts /\
  Forall (fun p => fst p < 2 ^ 16) opts /\ (opts = [] \/ (length opts < room)%nat).
Proof.
  induction opts as [|[num v] opts IH]; intros prev obs H slots room payload k l pl HP HL W E.
  { split; [constructor|]. split; [constructor|]. split; [constructor|]. left. reflexivity. }
  inversion H as [|? ? ? dn dx ln lx ? bs HN HD HV HR]; subst.
  pose proof (field_nibble _ _ _ HD) as Hdn. pose proof (field_nibble _ _ _ HV) as Hln.
  cbn [app] in W. rewrite walk_cons in W.
  destruct (N.eqb_spec (dn * 16 + ln) 255) as [F|_]; [lia|].
  replace ((dn * 16 + ln) / 16) with dn in W by lia. replace ((dn * 16 + ln) mod 16) with ln in W by lia.
  set (s := (dn * 16 + ln) :: (dx ++ lx ++ v ++ bs) ++ marked payload) in *.
  assert (HV2 : lenN v < 2 ^ 16) by (rewrite lenN_cons, !lenN_app in HL; lia).
  apply bind_ok in W as ([delta p1] & E1 & W).
  assert (S1 : s = [dn * 16 + ln] ++ dx ++ (lx ++ v ++ bs ++ marked payload))
    by (unfold s; cbn [app]; rewrite <- !app_assoc; reflexivity).
  rewrite S1 in E1. change 1 with (lenN [dn * 16 + ln]) in E1.
  destruct (parse_delta_read _ _ _ _ _ _ _ HD E1) as [-> D].
  apply bind_ok in W as ([n p2] & E2 & W).
  assert (S2 : s = ([dn * 16 + ln] ++ dx) ++ lx ++ (v ++ bs ++ marked payload)) by (rewrite S1, <- !app_assoc; reflexivity).
  rewrite S2, <- lenN_app in E2. destruct (parse_len_read _ _ _ _ _ _ _ HV HV2 E2) as [-> L].
  destruct (slots <=? k); [discriminate|]. apply bind_ok in W as (v' & E3 & W).
  destruct room as [|[|room]]; [discriminate..|].
  apply bind_ok in W as ([l' pl'] & E4 & W). injection W as <- <-.
  cbn [map nv o_num o_val] in E. injection E as EN EV EO. 
  apply slice_ok in E3 as (E3 & E3' & E3''). 
  assert (N16 : num < 2 ^ 16) by (rewrite <- EN; apply N.mod_lt; discriminate).
  assert (LN : n = lenN v) by (rewrite <- EV; symmetry; assumption).
  assert (DO : delta_ok (num - prev)).
  { destruct D as [[D _]|[D Y]]; [exact D|]. exfalso. unfold delta_ok in D. unfold u16 in EN. rewrite Y in EN.
    change (2 ^ 16) with 65536 in *. rewrite N.mod_small in EN by lia. lia. }
  subst n. assert (DR : dropN (lenN (([dn * 16 + ln] ++ dx)) + lenN lx + lenN v) s = bs ++ marked payload).
  { rewrite S2. rewrite <- lenN_app, <- lenN_app. rewrite !app_assoc. rewrite <- (app_assoc _ bs). apply dropN_app. }
  rewrite EV, DR, EN in E4.
  destruct (IH num bs HR slots (S room) payload (k + 1) l' pl' N16) as (A & B & C & R);
    [rewrite lenN_cons, !lenN_app in HL; lia|exact E4|exact EO|].
  split; [|split; [|split]].
  - cbn [deltas]. constructor; assumption.
  - constructor; [cbn [snd]; apply L; exact LN|assumption].
  - constructor; assumption.
  - right. cbn [length]. destruct R as [->|R]; cbn [length]; lia.
Qed.

Lemma coap_parse_exact m bs k : rfc_message m bs -> lenN bs < 2 ^ 16 ->
  coap_deserialize bs = Ok k -> m_opts (msg_of k) = m_opts m -> parsable m bs.
Proof.
  intros (Hv & Hty & Hc & Hm & Ht & body & (obs & HO & ->) & Ebs) HL H E.
  assert (Lb : lenN bs = 4 + lenN (m_token m) + lenN (obs ++ marked (m_payload m)))
    by (rewrite Ebs, !lenN_app, !lenN_cons, lenN_nil; lia).
  unfold coap_deserialize, HEADER_LEN in H. destruct (N.ltb_spec (lenN bs) 4); [lia|].
  set (b0 := m_ver m * 64 + m_type m * 16 + lenN (m_token m)) in *.
  set (body := obs ++ marked (m_payload m)) in *.
  assert (D4 : dropN 4 bs = m_token m ++ body).
  { rewrite Ebs. change 4 with (lenN [b0; m_code m; m_mid m / 256; m_mid m mod 256]). apply dropN_app. }
  assert (R0 : rd bs 0 = Ok b0) by (rewrite Ebs; reflexivity).
  assert (R1 : rd bs 1 = Ok (m_code m)) by (rewrite Ebs; reflexivity).
  assert (R2 : rd bs 2 = Ok (m_mid m / 256)) by (rewrite Ebs; reflexivity).
  assert (R3 : rd bs 3 = Ok (m_mid m mod 256)) by (rewrite Ebs; reflexivity).
  rewrite R0, R1, R2, R3 in H. cbn [bind] in H. rewrite D4 in H.
  assert (T : b0 mod 16 = lenN (m_token m)) by (unfold b0; lia).
  rewrite T in H. destruct (N.ltb_spec 8 (lenN (m_token m))); [lia|].
  rewrite lenN_app in H. destruct (N.ltb_spec (lenN (m_token m) + lenN body) (lenN (m_token m))); [lia|].
  rewrite dropN_app, takeN_app in H. apply bind_ok in H as ([l pl] & W & H). injection H as <-.
  unfold msg_of in E. cbn [m_opts k_opts] in E.
  assert (W' : walk MAX_OPTION_COUNT 20 body 0 0 = Ok (l, pl)).
  { rewrite <- loop_start by lia. unfold options_deserialize in W. change (N.to_nat MAX_OPTION_COUNT) with 20%nat in W.
    destruct body; [|exact W]. injection W as <- <-. reflexivity. }
  destruct (walk_exact _ _ _ HO _ _ _ _ _ _ eq_refl (ltac:(unfold body in Lb; rewrite lenN_app in Lb; lia)) W' E) as (A & B & C & D).
  repeat split; try assumption. unfold lenN. destruct D as [->|D]; [cbn [length]; lia|lia].
Qed.
