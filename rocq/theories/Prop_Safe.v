(** Properties C57 and (continued) C13: which received packets can make the receiver misbehave. *)
From Verif Require Import Base Proof_Base Proof_Cbor Model_Cbor Model_Common Model_Crypto Model_OscorePrims Proof_OscorePrims Model_Coap Spec_Coap
  Proof_Coap Model_Interactions Model_Replay Spec_Interactions Proof_Interactions Model_Context Model_Send Model_Recv Model_Run Proof_Send Proof_Run Proof_Session
  Model_Toy Model_ToyRun Prop_Coap Prop_Auth Spec_Safe Proof_Safe.

(** ** C13 *)

(** A packet of any form (cut off, too many options, reserved fields, any payload) whose
    announced lengths lie inside of it is parsed without leaving it, and if it is accepted the
    result has its options and its payload. *)
Theorem C13_in_bounds_partial :
  forall (bs : bytes) (opts : list (N * bytes)) (payload : bytes), packet bs opts payload ->
  is_ub (coap_deserialize bs) = false /\
  forall k, coap_deserialize bs = Ok k -> map nv (k_opts k) = opts /\ k_payload k = payload.
Proof.
  intros bs opts payload H. destruct (received_parse _ _ _ H) as [(k & -> & A & B & _)|(e & ->)].
  - split; [reflexivity|]. intros k' E. injection E as <-. auto.
  - split; [reflexivity|discriminate].
Qed.
Print Assumptions C13_in_bounds_partial.

(** A packet with an option of a reserved delta behind two proper ones. *)
Example C13_in_bounds_ex :
  packet [0x41; 2; 0; 7; 5; 0xb1; 97; 0x01; 98; 0xf3; 1; 2] [(11, [97]); (11, [98])] [] /\
  coap_deserialize [0x41; 2; 0; 7; 5; 0xb1; 97; 0x01; 98; 0xf3; 1; 2] = Err oscore_inpkt_invalid_option_delta.
Proof.
  split; [|vm_compute; reflexivity].
  split; [repeat constructor|]. split; [apply N.ltb_lt; reflexivity|]. cbn zeta. intros _ _.
  change (dropN (4 + nth 0 [0x41; 2; 0; 7; 5; 0xb1; 97; 0x01; 98; 0xf3; 1; 2] 0 mod 16) [0x41; 2; 0; 7; 5; 0xb1; 97; 0x01; 98; 0xf3; 1; 2])
    with ((11 * 16 + 1) :: [] ++ [] ++ [97] ++ ((0 * 16 + 1) :: [] ++ [] ++ [98] ++ [0xf3; 1; 2])).
  apply (scan_option 0 11 [] 11 1 [] [97]).
  - constructor. lia.
  - left. lia.
  - apply N.ltb_lt. reflexivity.
  - apply (field_short 1). lia.
  - left. apply N.ltb_lt. reflexivity.
  - apply (scan_option 11 0 [] 0 1 [] [98]).
    + constructor. lia.
    + left. lia.
    + apply N.ltb_lt. reflexivity.
    + apply (field_short 1). lia.
    + left. apply N.ltb_lt. reflexivity.
    + apply scan_reserved_delta; [reflexivity|discriminate].
Qed.

(** ** C57 *)

(** Conditions on the packet, on the OSCORE options and on what is inside. A response with a
    Partial IV has a KID of at most 7 bytes. If the payload decrypts at all, the content has at
    most ten options, all announced bytes are there, the path of outer and inner options is not of
    the length that overruns the buffer, and a request carries a Partial IV. The missing part of
    the claim is shown false below condition by condition. *)
Theorem C57_no_ub_partial :
  forall (cr : crypto) (c : ctx) (bs buf : bytes) (opts : list (N * bytes)) (payload : bytes),
  crypto_ok cr -> reachable cr c -> lenN (c_rid c) <= 7 ->
  packet bs opts payload -> 112 < lenN buf -> lenN buf < 2 ^ 32 ->
  (forall v, In (9, v) opts -> osc_reserved v \/
     exists piv kid, osc_value v piv kid /\ (is_req bs \/ piv = [] \/ lenN kid <= 7)) ->
  (forall nonce a pt, cr_aead_dec cr (c_rkey c) nonce a 8 payload = Some pt ->
     (exists inner, inner_message pt inner /\ path_size (opts ++ inner) <> 30) /\
     (is_req bs -> forall v piv kid, In (9, v) opts -> osc_value v piv kid -> piv <> [])) ->
  is_ub (snd (oscore2coap cr c bs buf)) = false.
Proof.
  intros cr c bs buf opts payload OK R HR HP B1 B2 HO HD.
  pose proof (reachable_iv cr c (ok_hmac_len _ OK) R) as HIV.
  destruct (core_safe cr c bs opts payload OK HIV HR HP HO HD) as [S1 S2]. unfold oscore2coap, ok_or_err in *.
  destruct (oscore2coap_core cr c bs) as [c' [out|e|u]]; [|reflexivity|exact S1].
  destruct (S2 _ _ eq_refl) as (k & pt & EK & PB & PL & EG).
  destruct HP as (HB & HL & _).
  assert (HL' : lenN bs < 2 ^ 32) by (change (2 ^ 16) with 65536 in HL; change (2 ^ 32) with 4294967296; lia).
  destruct (pkg_generate_wf bs k pt out HB HL' EK PB PL EG) as (W & (_ & _ & HT & _) & _).
  destruct (C14_exact_partial out (lenN buf) W B2) as (X & _).
  destruct (coap_serialize out (lenN buf)) as [w r]. cbn [snd] in *.
  assert (NU : is_ub r = false).
  { destruct (is_ub r) eqn:E; [|reflexivity]. exfalso. destruct X as [X _]. destruct (X eq_refl) as [Y|(F & _ & Y)]; [lia|].
    unfold opts_fit in F. pose proof (ser_opts_le (k_opts out)). lia. }
  destruct r; [reflexivity|reflexivity|discriminate].
Qed.
Print Assumptions C57_no_ub_partial.

(** Without the key: if nothing that the packet carries decrypts, only the form of the packet and
    of its OSCORE options matters. *)
Theorem C57_unauthenticated_partial :
  forall (cr : crypto) (c : ctx) (bs buf : bytes) (opts : list (N * bytes)) (payload : bytes),
  crypto_ok cr -> reachable cr c -> lenN (c_rid c) <= 7 ->
  packet bs opts payload -> 112 < lenN buf -> lenN buf < 2 ^ 32 ->
  (forall v, In (9, v) opts -> osc_reserved v \/
     exists piv kid, osc_value v piv kid /\ (is_req bs \/ piv = [] \/ lenN kid <= 7)) ->
  (forall nonce a, cr_aead_dec cr (c_rkey c) nonce a 8 payload = None) ->
  exists e, snd (oscore2coap cr c bs buf) = Err e.
Proof.
  intros cr c bs buf opts payload OK R HR HP B1 B2 HO HD.
  pose proof (reachable_iv cr c (ok_hmac_len _ OK) R) as HIV.
  assert (HD' : forall nonce a pt, cr_aead_dec cr (c_rkey c) nonce a 8 payload = Some pt ->
     (exists inner, inner_message pt inner /\ path_size (opts ++ inner) <> 30) /\
     (is_req bs -> forall v piv kid, In (9, v) opts -> osc_value v piv kid -> piv <> [])).
  { intros nonce a pt E. rewrite HD in E. discriminate. }
  destruct (core_safe cr c bs opts payload OK HIV HR HP HO HD') as [S1 S2].
  pose proof (core_opens cr c bs) as S3. unfold oscore2coap, ok_or_err in *.
  destruct (oscore2coap_core cr c bs) as [c' [out|e|u]]; [exfalso|exists e; reflexivity|discriminate].
  destruct (S3 _ _ eq_refl) as (k & nonce & a & pt & EK & E).
  destruct (C13_in_bounds_partial _ _ _ HP) as [_ X]. destruct (X k EK) as [_ X2]. rewrite X2, HD in E. discriminate.
Qed.
Print Assumptions C57_unauthenticated_partial.

(** Both theorems apply to the authentic request of a client and to the same request with a
    changed tag. *)
Lemma toy_dec_prefix k n a c p : toy_dec k n a 8 c = Some p -> p = takeN (lenN c - 8) c /\ dropN (lenN c - 8) c = toy_tag k n a p 8.
Proof.
  unfold toy_dec. destruct (_ <? _); [discriminate|]. destruct (beqb _ _) eqn:E; [|discriminate]. intros H. injection H as <-.
  apply beqb_eq in E. auto.
Qed.
Lemma toy_mix_lt l : toy_mix l < 2 ^ 24.
Proof.
  unfold toy_mix. enough (G : forall a, a < 2 ^ 24 -> fold_left (fun a b => N.land (33 * a + b + 7) 0xFFFFFF) l a < 2 ^ 24)
    by (apply G; apply N.ltb_lt; reflexivity).
  induction l as [|b l IH]; intros a Ha; [exact Ha|]. cbn [fold_left]. apply IH.
  change 0xFFFFFF with (N.ones 24). rewrite N.land_ones. apply N.mod_lt. discriminate.
Qed.
Lemma toy_packet payload : is_bytes payload -> lenN payload < 1000 ->
  packet ([0x41; 2; 0; 5; 5; 0x93; 9; 0; 1; 255] ++ payload) [(9, [9; 0; 1])] payload.
Proof.
  intros HB HL. split; [apply is_bytes_app; split; [repeat constructor|exact HB]|].
  split; [rewrite lenN_app; change (lenN [0x41; 2; 0; 5; 5; 0x93; 9; 0; 1; 255]) with 10; change (2 ^ 16) with 65536; lia|].
  cbn zeta. intros _ _. change (nth 0 ([0x41; 2; 0; 5; 5; 0x93; 9; 0; 1; 255] ++ payload) 0) with 0x41.
  change (dropN (4 + 0x41 mod 16) ([0x41; 2; 0; 5; 5; 0x93; 9; 0; 1; 255] ++ payload))
    with ((9 * 16 + 3) :: [] ++ [] ++ [9; 0; 1] ++ (255 :: payload)).
  apply (scan_option 0 9 [] 9 3 [] [9; 0; 1]).
  - constructor. lia.
  - left. lia.
  - apply N.ltb_lt. reflexivity.
  - apply (field_short 3). lia.
  - left. apply N.ltb_lt. reflexivity.
  - constructor.
Qed.
Lemma toy_option v : In (9, v) [(9, [9; 0; 1])] -> v = 9 :: [0] ++ [] ++ [1] /\ osc_value v [0] [1].
Proof.
  intros [E|[]]. injection E as <-. split; [reflexivity|].
  change (osc_value (9 :: [0] ++ [] ++ [1]) [0] (if 9 / 8 mod 2 =? 0 then [] else [1])).
  constructor; [apply N.leb_le; reflexivity|reflexivity|left; split; reflexivity|apply N.ltb_lt; reflexivity].
Qed.
Lemma osc_value_fun v p1 k1 p2 k2 : is_bytes v -> osc_value v p1 k1 -> osc_value v p2 k2 -> p1 = p2 /\ k1 = k2.
Proof.
  intros B H1 H2. destruct (osc_parse _ _ _ [] H1 B) as (r & E & A & _ & _ & K & _).
  destruct (osc_parse _ _ _ [] H2 B) as (r' & E' & A' & _ & _ & K' & _). rewrite E in E'. injection E' as <-. split; congruence.
Qed.
Example C57_no_ub_ex :
  toy_req5 = [0x41; 2; 0; 5; 5; 0x93; 9; 0; 1; 255] ++ dropN 10 toy_req5 /\
  packet toy_req5 [(9, [9; 0; 1])] (dropN 10 toy_req5) /\ lenN (c_rid toy_server) <= 7 /\
  (forall v, In (9, v) [(9, [9; 0; 1])] -> osc_reserved v \/
     exists piv kid, osc_value v piv kid /\ (is_req toy_req5 \/ piv = [] \/ lenN kid <= 7)) /\
  (forall nonce a pt, cr_aead_dec toy_crypto (c_rkey toy_server) nonce a 8 (dropN 10 toy_req5) = Some pt ->
     (exists inner, inner_message pt inner /\ path_size ([(9, [9; 0; 1])] ++ inner) <> 30) /\
     (is_req toy_req5 -> forall v piv kid, In (9, v) [(9, [9; 0; 1])] -> osc_value v piv kid -> piv <> [])) /\
  exists c b, oscore2coap toy_crypto toy_server toy_req5 toy_out = (c, b, Ok 7).
Proof.
  assert (E : toy_req5 = [0x41; 2; 0; 5; 5; 0x93; 9; 0; 1; 255] ++ dropN 10 toy_req5) by (vm_compute; reflexivity).
  split; [exact E|]. split.
  { rewrite E at 1. apply toy_packet; [|vm_compute; reflexivity]. vm_compute. repeat constructor. }
  split; [apply N.leb_le; vm_compute; reflexivity|]. split.
  { intros v Hv. right. destruct (toy_option v Hv) as [_ V]. exists [0], [1]. split; [exact V|]. right. right. apply N.leb_le. reflexivity. }
  split.
  { intros nonce a pt H. change (cr_aead_dec toy_crypto) with toy_dec in H. apply toy_dec_prefix in H as [H _].
    assert (P : takeN (lenN (dropN 10 toy_req5) - 8) (dropN 10 toy_req5) = [1; 0xb1; 97]) by (vm_compute; reflexivity).
    rewrite P in H. clear P E. subst pt. split.
    - exists [(11, [97])]. split; [|vm_compute; discriminate]. exists 1, [0xb1; 97], []. split; [reflexivity|].
      split; [|apply N.leb_le; reflexivity].
      change [0xb1; 97] with ((11 * 16 + 1) :: [] ++ [] ++ [97] ++ []).
      apply (scan_option 0 11 [] 11 1 [] [97]); [constructor; lia|left; lia|apply N.ltb_lt; reflexivity|apply (field_short 1); lia| |constructor].
      left. apply N.ltb_lt. reflexivity.
    - intros _ v piv kid Hv V. destruct (toy_option v Hv) as [EV V']. assert (B : is_bytes v) by (rewrite EV; repeat constructor).
      destruct (osc_value_fun _ _ _ _ _ B V V') as [-> _]. discriminate. }
  eexists. eexists. vm_compute. reflexivity.
Qed.
Example C57_unauthenticated_ex :
  packet ([0x41; 2; 0; 5; 5; 0x93; 9; 0; 1; 255] ++ [1; 0xb1; 97] ++ repeat 255 8) [(9, [9; 0; 1])] ([1; 0xb1; 97] ++ repeat 255 8) /\
  forall nonce a, cr_aead_dec toy_crypto (c_rkey toy_server) nonce a 8 ([1; 0xb1; 97] ++ repeat 255 8) = None.
Proof.
  split; [apply toy_packet; [repeat constructor|apply N.ltb_lt; reflexivity]|].
  intros nonce a. change (cr_aead_dec toy_crypto) with toy_dec. destruct (toy_dec _ _ _ _ _) as [p|] eqn:E; [|reflexivity].
  exfalso. apply toy_dec_prefix in E as [_ E].
  change (dropN (lenN ([1; 0xb1; 97] ++ repeat 255 8) - 8) ([1; 0xb1; 97] ++ repeat 255 8)) with (repeat 255 8) in E.
  unfold toy_tag in E. pose proof (toy_mix_lt (c_rkey toy_server ++ [300] ++ nonce ++ [300] ++ a ++ [300] ++ p)) as L.
  revert E L. generalize (toy_mix (c_rkey toy_server ++ [300] ++ nonce ++ [300] ++ a ++ [300] ++ p)). intros m E L. change (2 ^ 24) with 16777216 in L.
  assert (V : be_val (repeat 255 8) = m).
  { rewrite E. change (N.to_nat 8) with 8%nat. apply be_val_enc. change (256 ^ N.of_nat 8) with 18446744073709551616. lia. }
  assert (W : be_val (repeat 255 8) = 18446744073709551615) by (vm_compute; reflexivity). lia.
Qed.

(** *** A response with a KID of more than seven bytes *)

Definition long_kid_response (tok : bytes) (p : N) (kid payload : bytes) : bytes :=
  [0x60 + lenN tok; 69; 0; 0] ++ tok ++ [0x90 + (2 + lenN kid); 9; p] ++ kid ++ 255 :: payload.

Lemma long_kid_parse tok p kid payload : lenN tok <= 8 -> lenN kid <= 10 -> lenN payload <= 1032 -> payload <> [] ->
  exists k, coap_deserialize (long_kid_response tok p kid payload) = Ok k /\
    msg_of k = {| m_ver := 1; m_type := 2; m_code := 69; m_mid := 0; m_token := tok; m_opts := [(9, 9 :: p :: kid)]; m_payload := payload |}.
Proof.
  intros HT HK HP HN. unfold long_kid_response.
  destruct (coap_parse_rfc {| m_ver := 1; m_type := 2; m_code := 69; m_mid := 0; m_token := tok; m_opts := [(9, 9 :: p :: kid)];
      m_payload := payload |} (long_kid_response tok p kid payload)) as (k & E & M & _).
  - unfold rfc_message; cbn [m_ver m_type m_code m_mid m_token m_opts m_payload].
    split; [apply N.ltb_lt; reflexivity|]. split; [apply N.ltb_lt; reflexivity|]. split; [apply N.ltb_lt; reflexivity|].
    split; [apply N.ltb_lt; reflexivity|]. split; [exact HT|].
    exists (((9 * 16 + (2 + lenN kid)) :: [] ++ [] ++ (9 :: p :: kid) ++ []) ++ marked payload). split.
    + eexists. split; [|reflexivity]. constructor; [lia|apply (field_short 9); lia| |constructor].
      rewrite !lenN_cons. replace (1 + (1 + lenN kid)) with (2 + lenN kid) by lia. apply field_short. lia.
    + unfold long_kid_response. destruct payload; [contradiction|]. cbn [marked app]. rewrite app_nil_r.
      reflexivity.
  - unfold parsable, long_kid_response; cbn [m_opts deltas fst snd].
    split; [constructor; [left; lia|constructor]|]. split; [constructor; [left; cbn [snd]; rewrite !lenN_cons; lia|constructor]|].
    split; [constructor; [apply N.ltb_lt; reflexivity|constructor]|]. split; [apply N.leb_le; reflexivity|].
    rewrite !lenN_app, !lenN_cons, !lenN_nil. change (2 ^ 16) with 65536. lia.
  - exists k. auto.
Qed.

(** Anybody who has seen the token of an outstanding request can do this, with any payload and
    without any key. *)
Theorem C57_long_kid_refuted :
  forall (cr : crypto) (c : ctx) (x : inter) (p : N) (kid payload buf : bytes),
  reachable cr c -> c_ssn c < 0x7FFFFF -> held (c_inter c) x -> lenN (i_token x) <= 8 ->
  p < 256 -> is_bytes kid -> 7 < lenN kid -> lenN kid <= 10 -> 8 <= lenN payload -> lenN payload <= 1032 ->
  snd (oscore2coap cr c (long_kid_response (i_token x) p kid payload) buf) = UB OobWrite.
Proof.
  intros cr c x p kid payload buf R HS HX HT HP HB K1 K2 P1 P2.
  assert (PN : payload <> []) by (intros ->; rewrite lenN_nil in P1; lia).
  destruct (long_kid_parse (i_token x) p kid payload HT K2 P2 PN) as (k & EK & MK).
  unfold oscore2coap.
  enough (E : oscore2coap_core cr c (long_kid_response (i_token x) p kid payload) = (c, UB OobWrite)) by (rewrite E; reflexivity).
  unfold oscore2coap_core, check_context_freshness, OSCORE_SSN_OVERFLOW_VALUE.
  destruct (N.leb_spec 0x7FFFFF (c_ssn c)); [lia|]. cbn [tryc]. rewrite EK. cbn [tryc].
  unfold msg_of in MK. injection MK as _ _ MC _ MT MO MP.
  destruct (k_opts k) as [|o [|o' l]] eqn:EO; try discriminate. cbn [map] in MO. injection MO as ON OV.
  destruct (osc_parse (9 :: p :: kid) [p] kid (o_tail o)) as (r & ER & A1 & A2 & A3 & A4 & A5).
  { change (9 :: p :: kid) with (9 :: [p] ++ [] ++ kid). change kid with (if 9 / 8 mod 2 =? 0 then [] else kid) at 2.
    constructor; [apply N.leb_le; reflexivity|reflexivity|left; split; reflexivity|lia]. }
  { constructor; [apply N.ltb_lt; reflexivity|]. constructor; assumption. }
  unfold oscore_option_parser. cbn [oscore_option_parser_loop]. rewrite ON, OV. change (9 =? OPT_OSCORE) with true. cbn iota.
  rewrite ER. cbn [bind tryc].
  unfold byte_array_new, check_buffer_size. rewrite MP.
  replace (sub32 (lenN payload) AUTH_TAG_LEN) with (lenN payload - 8)
    by (unfold sub32, u32, AUTH_TAG_LEN; change (2 ^ 32) with 4294967296; lia).
  destruct (N.ltb_spec MAX_PLAINTEXT_LEN (lenN payload - 8)) as [X|_]; [unfold MAX_PLAINTEXT_LEN in X; lia|]. cbn [tryc].
  unfold is_request. rewrite MC. change (69 / 32 =? 0) with false. cbn iota. unfold recv_response. rewrite EO.
  unfold is_observe. cbn [existsb]. rewrite ON. change (9 =? OPT_OBSERVE) with false. cbn [orb]. rewrite A1.
  unfold decrypt_wrapper, coap_get_message_type, is_request, get_observe_value. rewrite MC, EO. change (69 / 32 =? 0) with false.
  cbn [find]. rewrite ON. change (9 =? OPT_OBSERVE) with false. cbn iota. unfold read_wrapper. rewrite MT.
  assert (G : get_record (c_inter c) (i_token x) = Ok x) by (apply get_record_held; [apply reachable_table with cr; exact R|auto]).
  rewrite G. cbn [bind tryc]. rewrite A4. cbn [bind]. rewrite A1.
  rewrite create_nonce_ub; [reflexivity|apply N.leb_le; reflexivity|exact K1].
Qed.
Print Assumptions C57_long_kid_refuted.

(** A client waiting for the answer to its request. *)
Definition toy_waiting : ctx := fst (toy_send toy_client (toy_get 5)).
Lemma toy_waiting_reachable : reachable toy_crypto toy_waiting.
Proof.
  exists (toy_params [1] [2] true), (Ok 0), (repeat 0 13), (repeat 0 12), 0, toy_client, [ASend toy_nw (toy_get 5) toy_out].
  split; vm_compute; reflexivity.
Qed.
Example C57_long_kid_ex :
  reachable toy_crypto toy_waiting /\ c_ssn toy_waiting < 0x7FFFFF /\
  (exists x, held (c_inter toy_waiting) x /\ i_token x = [5]) /\
  snd (oscore2coap toy_crypto toy_waiting (long_kid_response [5] 0 [1; 2; 3; 4; 5; 6; 7; 8] (repeat 0 8)) toy_out) = UB OobWrite.
Proof.
  split; [apply toy_waiting_reachable|]. split; [vm_compute; reflexivity|]. split; [|vm_compute; reflexivity].
  exists {| i_type := MREQUEST; i_token := [5]; i_uri := [97]; i_piv := [0]; i_kid := [1] |}. split; [|reflexivity]. unfold held.
  assert (E : c_inter toy_waiting = [Some {| i_type := MREQUEST; i_token := [5]; i_uri := [97]; i_piv := [0]; i_kid := [1] |}; None; None])
    by (vm_compute; reflexivity).
  rewrite E. left. reflexivity.
Qed.

(** *** A recipient ID of eight bytes *)

(** oscore_context_init takes it; every request with this KID then overruns the nonce, before
    anything is authenticated. *)
Definition kid_request (p : N) (kid payload : bytes) : bytes :=
  [0x40; 2; 0; 0] ++ [0x90 + (2 + lenN kid); 9; p] ++ kid ++ 255 :: payload.
Lemma kid_request_parse p kid payload : lenN kid <= 10 -> lenN payload <= 1032 -> payload <> [] ->
  exists k, coap_deserialize (kid_request p kid payload) = Ok k /\
    msg_of k = {| m_ver := 1; m_type := 0; m_code := 2; m_mid := 0; m_token := []; m_opts := [(9, 9 :: p :: kid)]; m_payload := payload |}.
Proof.
  intros HK HP HN.
  destruct (coap_parse_rfc {| m_ver := 1; m_type := 0; m_code := 2; m_mid := 0; m_token := []; m_opts := [(9, 9 :: p :: kid)];
      m_payload := payload |} (kid_request p kid payload)) as (k & E & M & _).
  - unfold rfc_message; cbn [m_ver m_type m_code m_mid m_token m_opts m_payload].
    split; [apply N.ltb_lt; reflexivity|]. split; [apply N.ltb_lt; reflexivity|]. split; [apply N.ltb_lt; reflexivity|].
    split; [apply N.ltb_lt; reflexivity|]. split; [apply N.leb_le; reflexivity|].
    exists (((9 * 16 + (2 + lenN kid)) :: [] ++ [] ++ (9 :: p :: kid) ++ []) ++ marked payload). split.
    + eexists. split; [|reflexivity]. constructor; [lia|apply (field_short 9); lia| |constructor].
      rewrite !lenN_cons. replace (1 + (1 + lenN kid)) with (2 + lenN kid) by lia. apply field_short. lia.
    + unfold kid_request. destruct payload; [contradiction|]. cbn [marked app]. rewrite app_nil_r. reflexivity.
  - unfold parsable, kid_request; cbn [m_opts deltas fst snd].
    split; [constructor; [left; lia|constructor]|]. split; [constructor; [left; cbn [snd]; rewrite !lenN_cons; lia|constructor]|].
    split; [constructor; [apply N.ltb_lt; reflexivity|constructor]|]. split; [apply N.leb_le; reflexivity|].
    rewrite !lenN_app, !lenN_cons, !lenN_nil. change (2 ^ 16) with 65536. lia.
  - exists k. auto.
Qed.
Theorem C57_long_recipient_id_refuted :
  forall (cr : crypto) (c : ctx) (p : N) (payload buf : bytes),
  reachable cr c -> c_ssn c < 0x7FFFFF -> lenN (c_rid c) = 8 -> is_bytes (c_rid c) -> p < 256 ->
  (c_echo c = ECHO_SYNCHRONIZED -> rw_valid p (c_win c) = true) -> 8 <= lenN payload -> lenN payload <= 1032 ->
  snd (oscore2coap cr c (kid_request p (c_rid c) payload) buf) = UB OobWrite.
Proof.
  intros cr c p payload buf R HS HR HB HP HW P1 P2.
  assert (PN : payload <> []) by (intros ->; rewrite lenN_nil in P1; lia).
  destruct (kid_request_parse p (c_rid c) payload ltac:(lia) P2 PN) as (k & EK & MK). unfold oscore2coap.
  enough (E : oscore2coap_core cr c (kid_request p (c_rid c) payload) = (c, UB OobWrite)) by (rewrite E; reflexivity).
  unfold oscore2coap_core, check_context_freshness, OSCORE_SSN_OVERFLOW_VALUE.
  destruct (N.leb_spec 0x7FFFFF (c_ssn c)); [lia|]. cbn [tryc]. rewrite EK. cbn [tryc].
  unfold msg_of in MK. injection MK as _ _ MC _ MT MO MP.
  destruct (k_opts k) as [|o [|o' l]] eqn:EO; try discriminate. cbn [map] in MO. injection MO as ON OV.
  destruct (osc_parse (9 :: p :: c_rid c) [p] (c_rid c) (o_tail o)) as (r & ER & A1 & A2 & A3 & A4 & A5).
  { change (9 :: p :: c_rid c) with (9 :: [p] ++ [] ++ c_rid c). change (c_rid c) with (if 9 / 8 mod 2 =? 0 then [] else c_rid c) at 2.
    constructor; [apply N.leb_le; reflexivity|reflexivity|left; split; reflexivity|lia]. }
  { constructor; [apply N.ltb_lt; reflexivity|]. constructor; assumption. }
  unfold oscore_option_parser. cbn [oscore_option_parser_loop]. rewrite ON, OV. change (9 =? OPT_OSCORE) with true. cbn iota.
  rewrite ER. cbn [bind tryc].
  unfold byte_array_new, check_buffer_size. rewrite MP.
  replace (sub32 (lenN payload) AUTH_TAG_LEN) with (lenN payload - 8)
    by (unfold sub32, u32, AUTH_TAG_LEN; change (2 ^ 32) with 4294967296; lia).
  destruct (N.ltb_spec MAX_PLAINTEXT_LEN (lenN payload - 8)) as [X|_]; [unfold MAX_PLAINTEXT_LEN in X; lia|]. cbn [tryc].
  unfold is_request. rewrite MC. change (2 / 32 =? 0) with true. cbn iota. unfold recv_request. rewrite A2, N.eqb_refl. cbn [negb].
  rewrite A4. cbn [tryc]. rewrite (proj2 (array_equals_eq (c_rid c) (c_rid c)) eq_refl). cbn [negb]. rewrite A1. unfold piv2ssn.
  change (MAX_PIV_LEN <? lenN [p]) with false. cbn iota. cbn [tryc piv_sum].
  replace (u64 (0 + u64 (p * 2 ^ (8 * lenN (@nil N))))) with p.
  2: { change (2 ^ (8 * lenN (@nil N))) with 1. unfold u64. change (2 ^ 64) with 18446744073709551616. lia. }
  replace (match c_echo c with ECHO_SYNCHRONIZED => negb (rw_valid p (c_win c)) | _ => false end) with false
    by (destruct (c_echo c); [reflexivity|reflexivity|rewrite HW; reflexivity]).
  unfold decrypt_wrapper, coap_get_message_type, is_request, get_observe_value. rewrite MC, EO. change (2 / 32 =? 0) with true.
  cbn [find]. rewrite ON. change (9 =? OPT_OBSERVE) with false. cbn iota. unfold read_wrapper. cbn [tryc].
  rewrite A4. cbn [bind]. rewrite A1.
  rewrite create_nonce_ub; [reflexivity|apply N.leb_le; reflexivity|lia].
Qed.
Print Assumptions C57_long_recipient_id_refuted.
Definition toy_long : ctx := toy_init [2] [1; 1; 1; 1; 1; 1; 1; 1] true 0.
Example C57_long_recipient_id_ex :
  reachable toy_crypto toy_long /\ lenN (c_rid toy_long) = 8 /\
  snd (oscore2coap toy_crypto toy_long (kid_request 0 [1; 1; 1; 1; 1; 1; 1; 1] (repeat 0 8)) toy_out) = UB OobWrite.
Proof.
  split; [|split; vm_compute; reflexivity].
  exists (toy_params [2] [1; 1; 1; 1; 1; 1; 1; 1] true), (Ok 0), (repeat 0 13), (repeat 0 12), 0, toy_long, [].
  split; vm_compute; reflexivity.
Qed.

(** *** A value that is announced but not there *)

Theorem C57_truncated_refuted :
  forall (cr : crypto) (c : ctx) (code mid_h mid_l delta len : N) (token buf : bytes),
  c_ssn c < 0x7FFFFF -> lenN token <= 8 -> delta < 13 -> 0 < len -> len < 13 ->
  snd (oscore2coap cr c ([1 * 64 + 0 * 16 + lenN token; code; mid_h; mid_l] ++ token ++ [delta * 16 + len]) buf) = UB OobRead.
Proof.
  intros cr c code mid_h mid_l delta len token buf HS HT HD L1 L2. unfold oscore2coap, oscore2coap_core, check_context_freshness, OSCORE_SSN_OVERFLOW_VALUE.
  destruct (N.leb_spec 0x7FFFFF (c_ssn c)); [lia|]. cbn [tryc].
  rewrite C13_truncated_refuted; [reflexivity|lia|lia|assumption..].
Qed.
Print Assumptions C57_truncated_refuted.
Example C57_truncated_ex : c_ssn toy_server < 0x7FFFFF /\ lenN [5] <= 8.
Proof. split; vm_compute; [reflexivity|discriminate]. Qed.

(** *** Authentic messages *)

(** In general in Prop_Peer.v; here a request for the path "a" of a client with this code,
    an outer Uri-Path option of 27 bytes added on its way. *)
Example C57_path_ex :
  reachable toy_crypto toy_server /\
  is_ub (snd (oscore2coap toy_crypto toy_server toy_req5 toy_out)) = false /\
  snd (oscore2coap toy_crypto toy_server (takeN 9 toy_req5 ++ [0x2d; 14] ++ repeat 97 27 ++ dropN 9 toy_req5) toy_out) = UB OobWrite.
Proof. split; [apply toy_server_reachable|]. split; vm_compute; reflexivity. Qed.

(** What the peer puts inside: a message of any content in place of the one of [toy_req5]. *)
Definition toy_peer (pt : bytes) : bytes :=
  match ob_enc (snd (exec toy_crypto toy_client (ASend toy_nw (toy_get 5) toy_out))) with
  | Some (nonce, aad, _) =>
      match oscore_cose_encrypt toy_crypto pt nonce aad (c_skey toy_client) with
      | Ok ct => takeN 10 toy_req5 ++ ct
      | _ => []
      end
  | None => []
  end.
(** The same message without a Partial IV in the OSCORE option, nonce and AAD accordingly. *)
Definition toy_no_piv : bytes :=
  match create_nonce [1] [] (c_iv toy_client), create_aad 10 [1] [] MAX_AAD_LEN with
  | Ok nonce, Ok aad =>
      match oscore_cose_encrypt toy_crypto [1; 0xb1; 97] nonce aad (c_skey toy_client) with
      | Ok ct => [0x41; 2; 0; 5; 5; 0x92; 8; 1; 255] ++ ct
      | _ => []
      end
  | _, _ => []
  end.
(** The peer's own message is [toy_req5]; eleven options, an empty message, and a request
    without Partial IV are fatal. *)
Example C57_inner_ex :
  reachable toy_crypto toy_server /\
  toy_peer [1; 0xb1; 97] = toy_req5 /\
  snd (oscore2coap toy_crypto toy_server (toy_peer (1 :: repeat 0 11)) toy_out) = UB OobWrite /\
  snd (oscore2coap toy_crypto toy_server (toy_peer []) toy_out) = UB NullDeref /\
  snd (oscore2coap toy_crypto toy_server toy_no_piv toy_out) = UB NullDeref.
Proof. split; [apply toy_server_reachable|]. repeat split; vm_compute; reflexivity. Qed.
