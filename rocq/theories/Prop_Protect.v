(** Property C55: protecting a supported message succeeds, and a whole exchange of two
    endpoints that have room for it succeeds. Vocabulary in Spec_Protect.v. *)
From Verif Require Import Base Proof_Base Model_Common Model_Crypto Model_OscorePrims Proof_OscorePrims
  Model_Coap Spec_Coap Proof_Coap Model_Interactions Model_Replay Model_Context Spec_Options
  Model_Send Model_Recv Model_Run Spec_Interactions Proof_Send Proof_Recv Proof_Run Proof_Session
  Spec_RoundTrip Proof_RoundTrip Spec_UriPath Spec_Protect Proof_Protect Spec_EdhocRun
  Model_Toy Proof_Toy Model_ToyRun Prop_RoundTrip Prop_EdhocRun.

(** A request within the limits is protected exactly when no inner option needs a longer
    header than in the original message; otherwise the call fails before anything is
    encrypted, and the context is unchanged. *)
Theorem C55_request :
  forall (cr : crypto) (nw : N -> res unit) (c : ctx) (m : message) (input buf : bytes),
  crypto_ok cr -> aead_total cr -> reachable cr c ->
  rfc_message m input -> supported m input -> is_bytes input -> 0 < m_code m < 32 ->
  may_request nw c m -> fits m (request_olen c) (lenN buf) -> lenN buf < 2 ^ 32 ->
  (growth m = 0 -> exists s buf1 n, coap2oscore cr nw c input buf = (s, buf1, Ok n)) /\
  (growth m <> 0 -> coap2oscore cr nw c input buf = (s0 c, buf, Err buffer_to_small)).
Proof.
  intros cr nw c m input buf OK AT HC HM SUP HB CO MR FI LB. destruct (reachable_both cr c OK HC) as [UC KC].
  destruct (request_total cr OK AT nw c m input buf UC KC HM SUP HB CO MR FI LB). auto.
Qed.
Print Assumptions C55_request.

(** The same for a response or notification to a request that is still outstanding. *)
Theorem C55_response :
  forall (cr : crypto) (nw : N -> res unit) (c : ctx) (m : message) (input buf : bytes),
  crypto_ok cr -> aead_total cr -> reachable cr c ->
  rfc_message m input -> supported m input -> is_bytes input -> 32 <= m_code m ->
  may_respond nw c m -> fits m (response_olen c m) (lenN buf) -> lenN buf < 2 ^ 32 ->
  (growth m = 0 -> exists s buf1 n, coap2oscore cr nw c input buf = (s, buf1, Ok n)) /\
  (growth m <> 0 -> coap2oscore cr nw c input buf = (s0 c, buf, Err buffer_to_small)).
Proof.
  intros cr nw c m input buf OK AT HC HM SUP HB CO MR FI LB. destruct (reachable_both cr c OK HC) as [UC KC].
  destruct (response_total cr OK AT nw c m input buf UC KC HM SUP HB CO MR FI LB). auto.
Qed.
Print Assumptions C55_response.

(** A whole exchange: the client protects a request, the server's application gets it,
    the server protects the response, the client's application gets it. All four calls
    succeed; nothing is assumed about their results. *)
Theorem C55_exchange :
  forall (cr : crypto) (nw nw' : N -> res unit) (c d : ctx) (m m' : message)
    (input buf buf2 input' buf' buf2' : bytes),
  crypto_ok cr -> aead_total cr -> reachable cr c -> reachable cr d -> hears c d -> hears d c ->
  rfc_message m input -> supported m input -> is_bytes input -> 0 < m_code m < 32 -> growth m = 0 ->
  rfc_message m' input' -> supported m' input' -> is_bytes input' -> 32 <= m_code m' -> growth m' = 0 ->
  m_token m' = m_token m ->
  may_request nw c m -> c_ssn c + 1 < OSCORE_SSN_OVERFLOW_VALUE ->
  c_ssn d < OSCORE_SSN_OVERFLOW_VALUE -> c_echo d = ECHO_SYNCHRONIZED -> rw_valid (c_ssn c) (c_win d) = true ->
  room (c_inter d) m ->
  (notifies m' = true -> may_number nw' d /\ lenN (c_sid d) <= 7 /\ (c_notif_init c = true -> c_notif c < c_ssn d)) ->
  fits m (request_olen c) (lenN buf) -> lenN buf < 2 ^ 16 -> lenN input <= lenN buf2 -> lenN buf2 < 2 ^ 32 ->
  fits m' (response_olen d m') (lenN buf') -> lenN buf' < 2 ^ 16 ->
  (forall out, rfc_message (received m') out -> lenN out <= lenN buf2') -> lenN buf2' < 2 ^ 32 ->
  exists s wire n d' s' wire' n' out c',
    coap2oscore cr nw c input buf = (s, wire, Ok n) /\
    oscore2coap cr d (takeN n wire) buf2 = (d', written input buf2, Ok (lenN input)) /\
    coap2oscore cr nw' d' input' buf' = (s', wire', Ok n') /\
    rfc_message (received m') out /\
    oscore2coap cr (s_ctx s) (takeN n' wire') buf2' = (c', written out buf2', Ok (lenN out)).
Proof.
  intros cr nw nw' c d m m' input buf buf2 input' buf' buf2' OK AT HC HD HH HH' HM SUP HB CO GR HM' SUP' HB' CO' GR' TOK
    MR B1 B2 A2 A3 A4 NT FI L1 L3 L2 FI' L1' L3' L2'.
  destruct (reachable_both cr c OK HC) as [UC KC]. destruct (reachable_both cr d OK HD) as [UD KD].
  assert (LB : lenN buf < 2 ^ 32) by (change (2 ^ 32) with 4294967296; change (2 ^ 16) with 65536 in L1; lia).
  assert (LB' : lenN buf' < 2 ^ 32) by (change (2 ^ 32) with 4294967296; change (2 ^ 16) with 65536 in L1'; lia).
  destruct (request_total cr OK AT nw c m input buf UC KC HM SUP HB CO MR FI LB) as (_ & RT).
  destruct (RT GR) as (s & wire & n & HS).
  destruct (request_round_trip cr nw c d s m input buf wire n buf2 OK UC UD HH HM SUP HB CO L1 L2 L3 HS B2 A2 A3 A4)
    as (d' & E & NE & piv & PV & _ & (y & Y1 & Y2 & Y3 & Y4)).
  assert (N13 : lenN (c_nonce d') = 13).
  { rewrite NE. destruct (coap_parse_rfc m input HM (proj1 SUP)) as (k & EK & EM & _ & _).
    assert (ECD : h_code (k_hdr k) = m_code m) by (rewrite <- EM; reflexivity).
    destruct (send_full cr nw c input k buf s wire n OK HB) as
      (e & u & elen & pt & ct & opt & nonce & aad & piv' & kid & kctx & rpiv & rkid & uri & out & _ & _ & _ & WI & NN & _ & _ & _ & _ & _ & _ & _ & CN & _);
      try assumption; [|lia|].
    - destruct SUP as ((_ & _ & _ & _ & L) & _). change (2 ^ 32) with 4294967296. change (2 ^ 16) with 65536 in L. lia.
    - assert (RQ : is_request k = true) by (rewrite is_request_code, ECD; apply N.ltb_lt; lia).
      assert (NEW : uses_new_piv c k = true).
      { unfold uses_new_piv, needs_new_piv. destruct (type_request k RQ) as [-> | [-> | ->]]; reflexivity. }
      rewrite NEW in NN. rewrite CN. eapply create_nonce_len; [|exact NN]. apply KC. }
  assert (EY : exec cr d (ARecv (takeN n wire) buf2) =
    (d', {| ob_enc := None; ob_nvm := None; ob_buf := written input buf2; ob_res := Ok (lenN input) |}))
    by (unfold exec; rewrite E; reflexivity).
  pose proof (usable_step _ _ _ _ _ UD EY) as UD1.
  pose proof EY as KY. apply exec_keys in KY as [(Y5 & Y6 & Y7 & Y8 & Y9 & Y10 & _) _].
  assert (KD1 : keyed d') by (destruct KD as (K1 & K2 & K3); unfold keyed; rewrite Y5, Y7, Y10; auto).
  apply exec_recv in EY as (_ & _ & r1 & CY & _). pose proof CY as CY'. apply recv_core_effect in CY as ((_ & SY & _) & _).
  assert (EV : c_echo d' = ECHO_SYNCHRONIZED).
  { apply recv_replay_state in CY' as [[X _]|[(_ & X & _)|[(X & _)|(X & _)]]]; congruence. }
  assert (TN : takes_number d' m' = notifies m') by (unfold takes_number, verifying; rewrite EV; apply orb_false_r).
  assert (OL : response_olen d' m' = response_olen d m').
  { unfold response_olen, request_olen. rewrite TN. unfold takes_number, verifying. rewrite A2, orb_false_r. rewrite SY, Y9, Y6. reflexivity. }
  destruct MR as (MN & _ & SL & _).
  destruct (response_total cr OK AT nw' d' m' input' buf' UD1 KD1 HM' SUP' HB' CO') as (_ & RT').
  - split; [rewrite SY; exact B2|]. split; [unfold echo_ready, verifying; rewrite EV; discriminate|]. split.
    + rewrite TN. destruct (notifies m') eqn:EN; [|exact N13]. destruct (NT eq_refl) as ((M1 & M2 & M3) & M4 & _).
      unfold may_number. rewrite SY, Y8, Y9, Y6. auto.
    + exists y. rewrite TOK. split; [exact Y1|]. split; [exact Y2|]. rewrite Y3, Y4.
      destruct (piv_len_spec _ _ (proj1 MN) PV) as [-> _]. exact SL.
  - rewrite OL. exact FI'.
  - exact LB'.
  - destruct (RT' GR') as (s' & wire' & n' & HS').
    destruct (C19_exchange_partial cr nw nw' c d s s' m m' input buf wire buf2 input' buf' wire' buf2' n n') as (d1 & E1 & R1); try assumption.
    { intros I6 NI. assert (EN : notifies m' = true).
      { apply existsb_exists. apply in_map_iff in I6 as (p & E6 & Ip). exists p. split; [exact Ip|]. rewrite E6. reflexivity. }
      destruct (NT EN) as (_ & _ & X). auto. }
    rewrite E in E1. injection E1 as <-. destruct (R1 HS') as (out & c' & RO & F).
    exists s, wire, n, d', s', wire', n', out, c'. auto.
Qed.
Print Assumptions C55_exchange.

(** The refusal happens for ordinary requests: GET with Uri-Host and Uri-Query but without
    Uri-Path needs one byte more when Uri-Host is taken out, and is refused. *)
Definition toy_query : bytes := [0x41; 1; 0; 5; 5; 0x31; 104; 0xc1; 113].
Definition toy_query_msg : message :=
  {| m_ver := 1; m_type := 0; m_code := 1; m_mid := 5; m_token := [5]; m_opts := [(3, [104]); (15, [113])]; m_payload := [] |}.

Example C55_example :
  crypto_ok toy_crypto /\ aead_total toy_crypto /\ reachable toy_crypto toy_client /\
  (* a request that is protected *)
  rfc_message toy_post_msg toy_post /\ supported toy_post_msg toy_post /\
  may_request toy_nw toy_client toy_post_msg /\ fits toy_post_msg (request_olen toy_client) (lenN toy_out) /\ growth toy_post_msg = 0 /\
  (* one that is refused *)
  rfc_message toy_query_msg toy_query /\ supported toy_query_msg toy_query /\
  fits toy_query_msg (request_olen toy_client) (lenN toy_out) /\ growth toy_query_msg = 1 /\
  snd (coap2oscore toy_crypto toy_nw toy_client toy_query toy_out) = Err buffer_to_small /\
  (* a server that has received the request and may answer it *)
  (let d := fst (toy_recv toy_server (snd (toy_send toy_client toy_post))) in
   may_respond toy_nw d {| m_ver := 1; m_type := 2; m_code := 0x45; m_mid := 5; m_token := [5]; m_opts := []; m_payload := [104; 105] |}) /\
  (* a server that has restarted, has received the request and may answer with an Echo value *)
  (let d := fst (toy_recv (toy_init [2] [1] false 0) (snd (toy_send toy_client toy_post))) in
   verifying d = true /\
   may_respond toy_nw d {| m_ver := 1; m_type := 2; m_code := 0x81; m_mid := 5; m_token := [5]; m_opts := [(252, repeat 7 12)]; m_payload := [] |}).
Proof.
  destruct C19_example as (R1 & R2 & _ & _ & R3 & _).
  split; [exact toy_ok|]. split; [exact toy_total|]. split; [exact R3|]. split; [exact R1|]. split; [exact R2|].
  split.
  { split; [|split; [|split; [|split]]].
    - split; [vm_compute; reflexivity|]. split; [left; vm_compute; reflexivity|]. apply N.leb_le. vm_compute. reflexivity.
    - intros H. vm_compute in H. discriminate H.
    - apply N.leb_le. vm_compute. reflexivity.
    - intros H. exfalso. apply H. left. vm_compute. reflexivity.
    - intros x H. vm_compute in H. destruct H as [H|[H|[H|[]]]]; discriminate H. }
  split; [split; [|split; [|split]]; try (apply N.leb_le; vm_compute; reflexivity); vm_compute; reflexivity|].
  split; [reflexivity|].
  split.
  { unfold rfc_message. cbn [toy_query_msg m_ver m_type m_code m_mid m_token m_opts m_payload]. do 4 (split; [reflexivity|]). split; [apply N.leb_le; reflexivity|].
    exists (dropN 5 toy_query). split; [|reflexivity]. exists [0x31; 104; 0xc1; 113]. split; [|reflexivity].
    refine (rfc_cons 0 3 [104] 3 [] 1 [] _ _ _ _ _ _); [apply N.leb_le; reflexivity|apply (field_short 3); reflexivity|apply (field_short 1); reflexivity|].
    refine (rfc_cons 3 15 [113] 12 [] 1 [] _ _ _ _ _ _); [apply N.leb_le; reflexivity|apply (field_short 12); reflexivity|apply (field_short 1); reflexivity|].
    constructor. }
  split.
  { unfold supported, parsable. cbn [toy_query_msg m_opts m_payload].
    split; [split; [|split; [|split; [|split]]]|split; [|split; [|split; [|split; [|split]]]]].
    - repeat (constructor; [left; reflexivity|]); constructor.
    - repeat (constructor; [left; reflexivity|]); constructor.
    - repeat (constructor; [reflexivity|]); constructor.
    - apply N.leb_le; reflexivity.
    - reflexivity.
    - change (inside_opts toy_query_msg) with [(15, [113])]. repeat (constructor; [left; reflexivity|]); constructor.
    - apply N.leb_le; reflexivity.
    - intros [H|[H|[]]]; discriminate H.
    - change (outside_opts toy_query_msg) with [(3, [104])]. repeat constructor. intros [].
    - apply N.leb_le; reflexivity.
    - left; reflexivity. }
  split; [split; [|split; [|split]]; try (apply N.leb_le; vm_compute; reflexivity); vm_compute; reflexivity|].
  split; [reflexivity|]. split; [vm_compute; reflexivity|].
  assert (E : forall t : itable, hd None t = Some {| i_type := MREQUEST; i_token := [5]; i_uri := [97]; i_piv := [0]; i_kid := [1] |} ->
    held t {| i_type := MREQUEST; i_token := [5]; i_uri := [97]; i_piv := [0]; i_kid := [1] |}).
  { intros [|x t] H; [discriminate H|]. left. exact H. }
  split; cbv zeta.
  - split; [vm_compute; reflexivity|]. split; [intros H; vm_compute in H; discriminate H|]. split; [vm_compute; reflexivity|].
    exists {| i_type := MREQUEST; i_token := [5]; i_uri := [97]; i_piv := [0]; i_kid := [1] |}.
    split; [|split; [reflexivity|apply N.leb_le; reflexivity]]. apply E. vm_compute. reflexivity.
  - split; [vm_compute; reflexivity|]. split; [vm_compute; reflexivity|]. split.
    { intros _. exists (repeat 7 12). split; [reflexivity|]. split; apply N.leb_le; vm_compute; reflexivity. }
    split.
    { match goal with |- if ?b then _ else _ => replace b with true by (vm_compute; reflexivity) end.
      split; [|apply N.leb_le; vm_compute; reflexivity]. split; [vm_compute; reflexivity|]. split; [right; reflexivity|]. apply N.leb_le. vm_compute. reflexivity. }
    exists {| i_type := MREQUEST; i_token := [5]; i_uri := [97]; i_piv := [0]; i_kid := [1] |}.
    split; [|split; [reflexivity|apply N.leb_le; reflexivity]]. apply E. vm_compute. reflexivity.
Qed.
