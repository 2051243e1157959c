(** Property C19: a message protected by one endpoint and received by its peer comes
    out as it went in. *)
From Verif Require Import Base Proof_Base Model_Common Model_Crypto Model_Cbor Model_OscorePrims Spec_OscorePrims
  Model_Coap Spec_Coap Proof_Coap Model_Interactions Model_Replay Model_Context Spec_Options
  Model_Send Model_Recv Model_Run Spec_Interactions Proof_Send Proof_Recv Spec_Session Proof_Run Proof_Session
  Spec_RoundTrip Proof_RoundTrip Model_Toy Proof_Toy Model_ToyRun.

(** The full claim would be that every CoAP message accepted by coap2oscore is
    restored. It is restricted to messages [m] that are [supported] (Proof_RoundTrip.v): no
    option delta in 256..268 (C12), no length the parser misreads (C12), at most 10 inner
    options and 100 bytes of options, no repeated class-U option or OSCORE option of the
    application, and not more class-U options than payload bytes (refuted otherwise, see
    below). [hears c d] says that the recipient keys of [d] are the sender keys of [c]
    (C30). *)
Theorem C19_request_partial :
  forall (cr : crypto) (nw : N -> res unit) (c d : ctx) (s : sstate) (m : message) (input buf buf1 buf2 : bytes) (n : N),
  crypto_ok cr -> reachable cr c -> reachable cr d -> hears c d ->
  rfc_message m input -> supported m input -> is_bytes input -> 0 < m_code m < 32 ->
  lenN buf < 2 ^ 16 -> lenN buf2 < 2 ^ 32 -> lenN input <= lenN buf2 ->
  coap2oscore cr nw c input buf = (s, buf1, Ok n) ->
  c_ssn d < OSCORE_SSN_OVERFLOW_VALUE -> c_echo d = ECHO_SYNCHRONIZED -> rw_valid (c_ssn c) (c_win d) = true ->
  room (c_inter d) m ->
  exists d', oscore2coap cr d (takeN n buf1) buf2 = (d', written input buf2, Ok (lenN input)).
Proof.
  intros cr nw c d s m input buf buf1 buf2 n OK HC HD HH HM SUP HB CO L1 L2 L3 HS A1 A2 A3 A4.
  destruct (request_round_trip cr nw c d s m input buf buf1 n buf2 OK (reachable_usable _ _ HC) (reachable_usable _ _ HD)
    HH HM SUP HB CO L1 L2 L3 HS A1 A2 A3 A4) as (d' & E & _). eauto.
Qed.
Print Assumptions C19_request_partial.

(** Responses and notifications: Observe comes out with an empty value. *)
Theorem C19_response_partial :
  forall (cr : crypto) (nw : N -> res unit) (c d : ctx) (s : sstate) (m : message) (input buf buf1 buf2 : bytes) (n : N),
  crypto_ok cr -> reachable cr c -> reachable cr d -> hears c d ->
  rfc_message m input -> supported m input -> is_bytes input -> 32 <= m_code m ->
  lenN buf < 2 ^ 16 -> lenN buf2 < 2 ^ 32 ->
  coap2oscore cr nw c input buf = (s, buf1, Ok n) ->
  c_ssn d < OSCORE_SSN_OVERFLOW_VALUE ->
  (forall x, held (c_inter c) x -> i_token x = m_token m ->
     exists y, held (c_inter d) y /\ i_token y = m_token m /\ i_piv y = i_piv x /\ i_kid y = i_kid x) ->
  (plain_response c input -> c_nonce c = c_nonce d) ->
  (In 6 (map fst (m_opts m)) -> c_notif_init d = true -> c_notif d < c_ssn c) ->
  exists out, rfc_message (received m) out /\
   (lenN out <= lenN buf2 ->
    exists d', oscore2coap cr d (takeN n buf1) buf2 = (d', written out buf2, Ok (lenN out))).
Proof.
  intros cr nw c d s m input buf buf1 buf2 n OK HC HD HH HM SUP HB CO L1 L2 HS A1 A2 A3 A4.
  apply (response_round_trip cr nw c d s m input buf buf1 n buf2); try assumption; try (apply reachable_usable with cr; assumption).
  intros E. apply A4. apply existsb_exists in E as (p & Hp & E). apply N.eqb_eq in E. apply in_map_iff. eauto.
Qed.
Print Assumptions C19_response_partial.

(** A whole exchange: the client's request reaches the server's application unchanged,
    and then any response of the server to it (same token) reaches the client's
    application. *)
Theorem C19_exchange_partial :
  forall (cr : crypto) (nw nw' : N -> res unit) (c d : ctx) (s s' : sstate) (m m' : message)
    (input buf wire buf2 input' buf' wire' buf2' : bytes) (n n' : N),
  crypto_ok cr -> reachable cr c -> reachable cr d -> hears c d -> hears d c ->
  rfc_message m input -> supported m input -> is_bytes input -> 0 < m_code m < 32 ->
  rfc_message m' input' -> supported m' input' -> is_bytes input' -> 32 <= m_code m' -> m_token m' = m_token m ->
  lenN buf < 2 ^ 16 -> lenN buf2 < 2 ^ 32 -> lenN input <= lenN buf2 ->
  lenN buf' < 2 ^ 16 -> lenN buf2' < 2 ^ 32 -> (forall out, rfc_message (received m') out -> lenN out <= lenN buf2') ->
  coap2oscore cr nw c input buf = (s, wire, Ok n) ->
  c_ssn c + 1 < OSCORE_SSN_OVERFLOW_VALUE -> c_ssn d < OSCORE_SSN_OVERFLOW_VALUE ->
  c_echo d = ECHO_SYNCHRONIZED -> rw_valid (c_ssn c) (c_win d) = true ->
  room (c_inter d) m ->
  (In 6 (map fst (m_opts m')) -> c_notif_init c = true -> c_notif c < c_ssn d) ->
  exists d', oscore2coap cr d (takeN n wire) buf2 = (d', written input buf2, Ok (lenN input)) /\
   (coap2oscore cr nw' d' input' buf' = (s', wire', Ok n') ->
    exists out c', rfc_message (received m') out /\
      oscore2coap cr (s_ctx s) (takeN n' wire') buf2' = (c', written out buf2', Ok (lenN out))).
Proof.
  intros cr nw nw' c d s s' m m' input buf wire buf2 input' buf' wire' buf2' n n' OK HC HD HH HH' HM SUP HB CO
    HM' SUP' HB' CO' TOK L1 L2 L3 L1' L2' L3' HS B1 B2 A2 A3 A4 A6.
  pose proof (reachable_usable _ _ HC) as UC. pose proof (reachable_usable _ _ HD) as UD.
  destruct (request_round_trip cr nw c d s m input buf wire n buf2 OK UC UD HH HM SUP HB CO L1 L2 L3 HS B2 A2 A3 A4)
    as (d' & E & NE & piv & PV & (x & X1 & X2 & X3 & X4) & (y & Y1 & Y2 & Y3 & Y4)).
  exists d'. split; [exact E|]. intros HS'.
  assert (EX : exec cr c (ASend nw input buf) = (s_ctx s, {| ob_enc := s_enc s; ob_nvm := s_nvm s; ob_buf := wire; ob_res := Ok n |}))
    by (unfold exec; rewrite HS; reflexivity).
  assert (EY : exec cr d (ARecv (takeN n wire) buf2) =
    (d', {| ob_enc := None; ob_nvm := None; ob_buf := written input buf2; ob_res := Ok (lenN input) |}))
    by (unfold exec; rewrite E; reflexivity).
  pose proof (usable_step _ _ _ _ _ UC EX) as UC1. pose proof (usable_step _ _ _ _ _ UD EY) as UD1.
  pose proof EX as KX. apply exec_keys in KX as [KX _]. pose proof EY as KY. apply exec_keys in KY as [KY _].
  apply exec_send in EX as (s0 & r0 & CX & E0 & _). pose proof CX as CX'. apply core_effect in CX as (_ & RX & _).
  apply Proof_Nonce.send_ssn in CX' as SX. rewrite <- E0 in RX, SX.
  apply exec_recv in EY as (_ & _ & r1 & CY & _). apply recv_core_effect in CY as ((_ & SY & _) & _).
  assert (H1 : hears d' (s_ctx s)).
  { unfold hears, same_keys in *. destruct KX as (k1 & k2 & k3 & k4 & k5 & k6 & k7 & k8). destruct KY as (j1 & j2 & j3 & j4 & j5 & j6 & j7 & j8).
    destruct HH' as (h1 & h2 & h3 & h4). repeat split; congruence. }
  destruct (response_round_trip cr nw' d' (s_ctx s) s' m' input' buf' wire' n' buf2' OK UD1 UC1 H1 HM' SUP' HB' CO' L1' L2' HS') as (out & RO & FIN).
  - destruct SX as [SX | [SX _]]; rewrite SX; lia.
  - intros z Z1 Z2. exists x. rewrite TOK in *. split; [exact X1|]. split; [exact X2|].
    destruct UD1 as [(T1 & T2 & T3) _]. apply In_nth_error in Z1 as (i & Z1). apply In_nth_error in Y1 as (j & Y1).
    assert (i = j) as -> by (eapply T3; [exact Z1|exact Y1|left; congruence]). assert (z = y) as -> by congruence. split; congruence.
  - intros _. exact NE.
  - intros EB NI. apply existsb_exists in EB as (p & Hp & EB). apply N.eqb_eq in EB.
    destruct RX as (_ & R1 & R2 & _). rewrite R1, R2 in *. rewrite SY. apply A6; [|exact NI]. apply in_map_iff. eauto.
  - destruct (FIN (L3' out RO)) as (c' & F). eauto.
Qed.
Print Assumptions C19_exchange_partial.

(** The sender computes the length of the inner options from the deltas of the original
    message. With two class-U options in between, the encoding is longer than that; the
    one payload byte of this message is silently lost and both calls report success. *)
Definition toy_lost : bytes := [0x41; 3; 0; 5; 5; 0x31; 104; 0xc1; 113; 0x61; 112; 0x71; 9; 255; 42].
Definition toy_lost_msg : message :=
  {| m_ver := 1; m_type := 0; m_code := 3; m_mid := 5; m_token := [5];
     m_opts := [(3, [104]); (15, [113]); (21, [112]); (28, [9])]; m_payload := [42] |}.
Example C19_payload_ex :
  rfc_message toy_lost_msg toy_lost /\ parsable toy_lost_msg toy_lost /\
  exists wire n, toy_send toy_client toy_lost = (fst (toy_send toy_client toy_lost), wire) /\ lenN wire = n /\ 0 < n /\
  snd (toy_recv toy_server wire) = Ok [0x41; 3; 0; 5; 5; 0x31; 104; 0xc1; 113; 0x61; 112; 0x71; 9] /\
  ~ rfc_message toy_lost_msg [0x41; 3; 0; 5; 5; 0x31; 104; 0xc1; 113; 0x61; 112; 0x71; 9].
Proof.
  assert (R : rfc_message toy_lost_msg toy_lost).
  { unfold rfc_message. cbn [toy_lost_msg m_ver m_type m_code m_mid m_token m_opts m_payload]. do 4 (split; [reflexivity|]). split; [apply N.leb_le; reflexivity|].
    exists (dropN 5 toy_lost). split; [|reflexivity]. exists [0x31; 104; 0xc1; 113; 0x61; 112; 0x71; 9]. split; [|reflexivity].
    refine (rfc_cons 0 3 [104] 3 [] 1 [] _ _ _ _ _ _); [apply N.leb_le; reflexivity|apply (field_short 3); reflexivity|apply (field_short 1); reflexivity|].
    refine (rfc_cons 3 15 [113] 12 [] 1 [] _ _ _ _ _ _); [apply N.leb_le; reflexivity|apply (field_short 12); reflexivity|apply (field_short 1); reflexivity|].
    refine (rfc_cons 15 21 [112] 6 [] 1 [] _ _ _ _ _ _); [apply N.leb_le; reflexivity|apply (field_short 6); reflexivity|apply (field_short 1); reflexivity|].
    refine (rfc_cons 21 28 [9] 7 [] 1 [] _ _ _ _ _ _); [apply N.leb_le; reflexivity|apply (field_short 7); reflexivity|apply (field_short 1); reflexivity|].
    constructor. }
  split; [exact R|]. split.
  { unfold parsable. cbn [toy_lost_msg m_opts deltas snd fst]. repeat split; try (repeat constructor; fail);
      try (repeat (constructor; [left; reflexivity|]); constructor); try reflexivity.
    apply N.leb_le; reflexivity. }
  exists (snd (toy_send toy_client toy_lost)), (lenN (snd (toy_send toy_client toy_lost))).
  split; [apply surjective_pairing|]. split; [reflexivity|]. split; [vm_compute; reflexivity|]. split; [vm_compute; reflexivity|].
  intros H. pose proof (message_unique _ _ _ R H) as E. discriminate E.
Qed.

(** A message that meets the hypotheses: POST /a with Uri-Host and payload, between the
    two toy endpoints, and its notification-free response. *)
Definition toy_post : bytes := [0x41; 2; 0; 5; 5; 0x31; 104; 0x81; 97; 255; 42; 43].
Definition toy_post_msg : message :=
  {| m_ver := 1; m_type := 0; m_code := 2; m_mid := 5; m_token := [5]; m_opts := [(3, [104]); (11, [97])]; m_payload := [42; 43] |}.
Example C19_example :
  rfc_message toy_post_msg toy_post /\ supported toy_post_msg toy_post /\ hears toy_client toy_server /\ hears toy_server toy_client /\
  reachable toy_crypto toy_client /\ reachable toy_crypto toy_server /\ rw_valid (c_ssn toy_client) (c_win toy_server) = true /\
  room (c_inter toy_server) toy_post_msg /\
  (let (c1, w) := toy_send toy_client toy_post in
   let (d1, r) := toy_recv toy_server w in
   let (d2, w2) := toy_send d1 (toy_content 5) in
   r = Ok toy_post /\ snd (toy_recv c1 w2) = Ok (toy_content 5)) /\
  (let (c1, w) := toy_send toy_client (toy_observe 6) in
   let (d1, r) := toy_recv toy_server w in
   let (d2, w2) := toy_send d1 (toy_notify 6 7) in
   r = Ok (toy_observe 6) /\ snd (toy_recv c1 w2) = Ok [0x51; 0x45; 0; 6; 6; 0x60; 255; 104; 105]).
Proof.
  split.
  { unfold rfc_message. cbn [toy_post_msg m_ver m_type m_code m_mid m_token m_opts m_payload]. do 4 (split; [reflexivity|]). split; [apply N.leb_le; reflexivity|].
    exists (dropN 5 toy_post). split; [|reflexivity]. exists [0x31; 104; 0x81; 97]. split; [|reflexivity].
    refine (rfc_cons 0 3 [104] 3 [] 1 [] _ _ _ _ _ _); [apply N.leb_le; reflexivity|apply (field_short 3); reflexivity|apply (field_short 1); reflexivity|].
    refine (rfc_cons 3 11 [97] 8 [] 1 [] _ _ _ _ _ _); [apply N.leb_le; reflexivity|apply (field_short 8); reflexivity|apply (field_short 1); reflexivity|].
    constructor. }
  split.
  { unfold supported, parsable. cbn [toy_post_msg m_opts m_payload].
    split; [split; [|split; [|split; [|split]]]|split; [|split; [|split; [|split; [|split]]]]].
    - repeat (constructor; [left; reflexivity|]); constructor.
    - repeat (constructor; [left; reflexivity|]); constructor.
    - repeat (constructor; [reflexivity|]); constructor.
    - apply N.leb_le; reflexivity.
    - reflexivity.
    - change (inside_opts toy_post_msg) with [(11, [97])]. repeat (constructor; [left; reflexivity|]); constructor.
    - apply N.leb_le; reflexivity.
    - intros [H|[H|[]]]; discriminate H.
    - change (outside_opts toy_post_msg) with [(3, [104])]. repeat constructor. intros [].
    - apply N.leb_le; reflexivity.
    - right. apply N.leb_le; reflexivity. }
  split; [repeat split; vm_compute; reflexivity|]. split; [repeat split; vm_compute; reflexivity|].
  split; [exists (toy_params [1] [2] true), (Ok 0), (repeat 0 13), (repeat 0 12), 0, toy_client, []; split; vm_compute; reflexivity|].
  split; [exists (toy_params [2] [1] true), (Ok 0), (repeat 0 13), (repeat 0 12), 0, toy_server, []; split; vm_compute; reflexivity|].
  split; [vm_compute; reflexivity|].
  split; [split; [intros H; exfalso; apply H; left; vm_compute; reflexivity|
                  intros x H; vm_compute in H; destruct H as [H|[H|[H|[]]]]; discriminate H]|].
  split; vm_compute; split; reflexivity.
Qed.
