(** Properties C19 and C55 for every message within the limits of the parser and of the
    option buffers, whatever its payload: when protecting it succeeds, and what of it the
    peer's application gets. Vocabulary in Spec_RoundTrip.v and Spec_Protect.v. *)
From Verif Require Import Base Proof_Base Model_Common Model_Crypto Model_OscorePrims Proof_OscorePrims
  Model_Coap Spec_Coap Proof_Coap Model_Interactions Model_Replay Model_Context Spec_Options
  Model_Send Model_Recv Model_Run Spec_Interactions Proof_Send Proof_Recv Proof_Run Proof_Session
  Spec_Session   Spec_RoundTrip Proof_RoundTrip Spec_UriPath Spec_Protect Proof_Protect Proof_Lost Spec_EdhocRun
  Model_Toy Proof_Toy Model_ToyRun Prop_RoundTrip Prop_EdhocRun Prop_Protect.

(** A request is protected exactly when no inner option needs a longer header than in the
    original message, or when the options grow by just the size of marker and payload. In
    all other cases the call fails and the context is unchanged. *)
Theorem C55_request_exact :
  forall (cr : crypto) (nw : N -> res unit) (c : ctx) (m : message) (input buf : bytes),
  crypto_ok cr -> aead_total cr -> reachable cr c ->
  rfc_message m input -> nearly_supported m input -> is_bytes input -> 0 < m_code m < 32 ->
  may_request nw c m -> fits m (request_olen c) (lenN buf) -> lenN buf < 2 ^ 32 ->
  if (growth m =? 0) || squeezed_out m then exists s buf1 n, coap2oscore cr nw c input buf = (s, buf1, Ok n)
  else coap2oscore cr nw c input buf = (s0 c, buf, Err buffer_to_small).
Proof.
  intros cr nw c m input buf OK AT HC HM SUP HB CO MR FI LB. destruct (reachable_both cr c OK HC) as [UC KC].
  destruct (request_gen cr OK AT nw c m input buf UC KC HM SUP HB CO MR FI LB) as [A B].
  destruct (N.eqb_spec (growth m) 0) as [G|G]; cbn [orb]; [auto|]. destruct (squeezed_out m) eqn:E; auto.
Qed.
Print Assumptions C55_request_exact.

(** The same for a response or notification to a request that is still outstanding. *)
Theorem C55_response_exact :
  forall (cr : crypto) (nw : N -> res unit) (c : ctx) (m : message) (input buf : bytes),
  crypto_ok cr -> aead_total cr -> reachable cr c ->
  rfc_message m input -> nearly_supported m input -> is_bytes input -> 32 <= m_code m ->
  may_respond nw c m -> fits m (response_olen c m) (lenN buf) -> lenN buf < 2 ^ 32 ->
  if (growth m =? 0) || squeezed_out m then exists s buf1 n, coap2oscore cr nw c input buf = (s, buf1, Ok n)
  else coap2oscore cr nw c input buf = (s0 c, buf, Err buffer_to_small).
Proof.
  intros cr nw c m input buf OK AT HC HM SUP HB CO MR FI LB. destruct (reachable_both cr c OK HC) as [UC KC].
  destruct (response_gen cr OK AT nw c m input buf UC KC HM SUP HB CO MR FI LB) as [A B].
  destruct (N.eqb_spec (growth m) 0) as [G|G]; cbn [orb]; [auto|]. destruct (squeezed_out m) eqn:E; auto.
Qed.
Print Assumptions C55_response_exact.

(** Whenever protecting a request succeeds, the peer's application gets the encoding of
    the message with [arriving m] as its payload: all of the payload or nothing of it. *)
Theorem C19_request_exact_partial :
  forall (cr : crypto) (nw : N -> res unit) (c d : ctx) (s : sstate) (m : message) (input buf buf1 buf2 : bytes) (n : N),
  crypto_ok cr -> reachable cr c -> reachable cr d -> hears c d ->
  rfc_message m input -> nearly_supported m input -> is_bytes input -> 0 < m_code m < 32 ->
  lenN buf < 2 ^ 16 -> lenN buf2 < 2 ^ 32 -> lenN input <= lenN buf2 ->
  coap2oscore cr nw c input buf = (s, buf1, Ok n) ->
  c_ssn d < OSCORE_SSN_OVERFLOW_VALUE -> c_echo d = ECHO_SYNCHRONIZED -> rw_valid (c_ssn c) (c_win d) = true ->
  room (c_inter d) m ->
  exists input2 d', rfc_message (with_payload m (arriving m)) input2 /\
    oscore2coap cr d (takeN n buf1) buf2 = (d', written input2 buf2, Ok (lenN input2)).
Proof.
  intros cr nw c d s m input buf buf1 buf2 n OK HC HD HH HM SUP HB CO L1 L2 L3 HS A1 A2 A3 A4.
  destruct (without_payload m input HM) as (input2 & HM2 & LI2). exists input2.
  destruct (request_received_gen cr nw c d s m input buf buf1 n buf2 (arriving m) input2 OK (reachable_usable _ _ HC) (reachable_usable _ _ HD)
    HH HM SUP) as (t & pt & eo & piv & _ & _ & _ & _ & _ & R); try assumption; try lia.
  - intros k e u elen pt EK ES EP. apply (plaintext_sent m input k e u elen pt HM SUP HB EK ES EP).
  - apply arriving_le.
  - intros _. exact A3.
  - rewrite A2 in R. destruct R as (b & _ & R). eauto.
Qed.
Print Assumptions C19_request_exact_partial.

(** The same for responses and notifications. *)
Theorem C19_response_exact_partial :
  forall (cr : crypto) (nw : N -> res unit) (c d : ctx) (s : sstate) (m : message) (input buf buf1 buf2 : bytes) (n : N),
  crypto_ok cr -> reachable cr c -> reachable cr d -> hears c d ->
  rfc_message m input -> nearly_supported m input -> is_bytes input -> 32 <= m_code m ->
  lenN buf < 2 ^ 16 -> lenN buf2 < 2 ^ 32 ->
  coap2oscore cr nw c input buf = (s, buf1, Ok n) ->
  c_ssn d < OSCORE_SSN_OVERFLOW_VALUE ->
  (forall x, held (c_inter c) x -> i_token x = m_token m ->
     exists y, held (c_inter d) y /\ i_token y = m_token m /\ i_piv y = i_piv x /\ i_kid y = i_kid x) ->
  (plain_response c input -> c_nonce c = c_nonce d) ->
  (In 6 (map fst (m_opts m)) -> c_notif_init d = true -> c_notif d < c_ssn c) ->
  exists out, rfc_message (received (with_payload m (arriving m))) out /\
   (lenN out <= lenN buf2 ->
    exists d', oscore2coap cr d (takeN n buf1) buf2 = (d', written out buf2, Ok (lenN out))).
Proof.
  intros cr nw c d s m input buf buf1 buf2 n OK HC HD HH HM SUP HB CO L1 L2 HS A1 A2 A3 A4.
  destruct (response_round_trip_gen cr nw c d s m input buf buf1 n buf2 (arriving m) OK (reachable_usable _ _ HC) (reachable_usable _ _ HD)
    HH HM SUP) as (out & RO & F); try assumption.
  - intros k e u elen pt EK ES EP. apply (plaintext_sent m input k e u elen pt HM SUP HB EK ES EP).
  - apply arriving_le.
  - intros E. apply A4. apply existsb_exists in E as (p & Hp & E). apply N.eqb_eq in E. apply in_map_iff. eauto.
  - exists out. split; [exact RO|]. intros LO. destruct (F LO) as (d' & E & _). eauto.
Qed.
Print Assumptions C19_response_exact_partial.

(** So every request whose options grow by the size of marker and payload is protected,
    accepted, and delivered without its payload; both calls report success. *)
Theorem C19_request_lost_refuted :
  forall (cr : crypto) (nw : N -> res unit) (c d : ctx) (m : message) (input buf buf2 : bytes),
  crypto_ok cr -> aead_total cr -> reachable cr c -> reachable cr d -> hears c d ->
  rfc_message m input -> nearly_supported m input -> is_bytes input -> 0 < m_code m < 32 ->
  squeezed_out m = true ->
  may_request nw c m -> fits m (request_olen c) (lenN buf) ->
  lenN buf < 2 ^ 16 -> lenN buf2 < 2 ^ 32 -> lenN input <= lenN buf2 ->
  c_ssn d < OSCORE_SSN_OVERFLOW_VALUE -> c_echo d = ECHO_SYNCHRONIZED -> rw_valid (c_ssn c) (c_win d) = true ->
  room (c_inter d) m ->
  exists s wire n d' input2,
    coap2oscore cr nw c input buf = (s, wire, Ok n) /\
    oscore2coap cr d (takeN n wire) buf2 = (d', written input2 buf2, Ok (lenN input2)) /\
    rfc_message (with_payload m []) input2 /\ ~ rfc_message m input2.
Proof.
  intros cr nw c d m input buf buf2 OK AT HC HD HH HM SUP HB CO SQ MR FI L1 L2 L3 A1 A2 A3 A4.
  pose proof (C55_request_exact cr nw c m input buf OK AT HC HM SUP HB CO MR FI
    ltac:(change (2 ^ 32) with 4294967296; change (2 ^ 16) with 65536 in L1; lia)) as R.
  rewrite SQ, orb_true_r in R. destruct R as (s & wire & n & HS).
  destruct (C19_request_exact_partial cr nw c d s m input buf wire buf2 n OK HC HD HH HM SUP HB CO L1 L2 L3 HS A1 A2 A3 A4) as (input2 & d' & R2 & E).
  assert (AR : arriving m = [] /\ m_payload m <> []).
  { unfold squeezed_out in SQ. apply andb_prop in SQ as [S1 S2]. apply N.eqb_eq in S2. split.
    - unfold arriving. destruct (N.eqb_spec (growth m) 0); [lia|reflexivity].
    - intros Z. rewrite Z in S1. discriminate S1. }
  destruct AR as [AR NE]. rewrite AR in R2. exists s, wire, n, d', input2. do 3 (split; [assumption|]).
  intros R3. apply NE.
  destruct R2 as (_ & _ & _ & _ & _ & b1 & (o1 & H1 & ->) & ->). destruct R3 as (_ & _ & _ & _ & _ & b2 & (o2 & H2 & ->) & E2).
  cbn [with_payload m_ver m_type m_code m_mid m_token m_opts m_payload] in *.
  rewrite (options_unique _ _ _ _ H1 H2) in E2. apply app_inv_head in E2. apply app_inv_head in E2. apply app_inv_head in E2.
  unfold marked in E2. destruct (m_payload m); [reflexivity|discriminate E2].
Qed.
Print Assumptions C19_request_lost_refuted.

(** The same for responses and notifications. *)
Theorem C19_response_lost_refuted :
  forall (cr : crypto) (nw : N -> res unit) (c d : ctx) (m : message) (input buf buf2 : bytes),
  crypto_ok cr -> aead_total cr -> reachable cr c -> reachable cr d -> hears c d ->
  rfc_message m input -> nearly_supported m input -> is_bytes input -> 32 <= m_code m ->
  squeezed_out m = true ->
  may_respond nw c m -> fits m (response_olen c m) (lenN buf) ->
  lenN buf < 2 ^ 16 -> lenN buf2 < 2 ^ 32 ->
  c_ssn d < OSCORE_SSN_OVERFLOW_VALUE ->
  (forall x, held (c_inter c) x -> i_token x = m_token m ->
     exists y, held (c_inter d) y /\ i_token y = m_token m /\ i_piv y = i_piv x /\ i_kid y = i_kid x) ->
  (plain_response c input -> c_nonce c = c_nonce d) ->
  (In 6 (map fst (m_opts m)) -> c_notif_init d = true -> c_notif d < c_ssn c) ->
  exists s wire n out,
    coap2oscore cr nw c input buf = (s, wire, Ok n) /\
    rfc_message (received (with_payload m [])) out /\ ~ rfc_message (received m) out /\
    (lenN out <= lenN buf2 ->
     exists d', oscore2coap cr d (takeN n wire) buf2 = (d', written out buf2, Ok (lenN out))).
Proof.
  intros cr nw c d m input buf buf2 OK AT HC HD HH HM SUP HB CO SQ MR FI L1 L2 A1 A2 A3 A4.
  pose proof (C55_response_exact cr nw c m input buf OK AT HC HM SUP HB CO MR FI
    ltac:(change (2 ^ 32) with 4294967296; change (2 ^ 16) with 65536 in L1; lia)) as R.
  rewrite SQ, orb_true_r in R. destruct R as (s & wire & n & HS).
  destruct (C19_response_exact_partial cr nw c d s m input buf wire buf2 n OK HC HD HH HM SUP HB CO L1 L2 HS A1 A2 A3 A4) as (out & R2 & E).
  assert (AR : arriving m = [] /\ m_payload m <> []).
  { unfold squeezed_out in SQ. apply andb_prop in SQ as [S1 S2]. apply N.eqb_eq in S2. split.
    - unfold arriving. destruct (N.eqb_spec (growth m) 0); [lia|reflexivity].
    - intros Z. rewrite Z in S1. discriminate S1. }
  destruct AR as [AR NE]. rewrite AR in R2. exists s, wire, n, out. do 2 (split; [assumption|]). split; [|exact E].
  intros R3. apply NE.
  destruct R2 as (_ & _ & _ & _ & _ & b1 & (o1 & H1 & ->) & ->). destruct R3 as (_ & _ & _ & _ & _ & b2 & (o2 & H2 & ->) & E2).
  cbn [received with_payload m_ver m_type m_code m_mid m_token m_opts m_payload] in *.
  rewrite (options_unique _ _ _ _ H1 H2) in E2. apply app_inv_head in E2. apply app_inv_head in E2. apply app_inv_head in E2.
  unfold marked in E2. destruct (m_payload m); [reflexivity|discriminate E2].
Qed.
Print Assumptions C19_response_lost_refuted.

(** The message of C19_payload_ex is one of them; with a payload of two bytes it is
    refused, without payload too. *)
Example C19_lost_example :
  rfc_message toy_lost_msg toy_lost /\ nearly_supported toy_lost_msg toy_lost /\ growth toy_lost_msg = 2 /\
  squeezed_out toy_lost_msg = true /\ arriving toy_lost_msg = [] /\ is_bytes toy_lost /\
  may_request toy_nw toy_client toy_lost_msg /\ fits toy_lost_msg (request_olen toy_client) (lenN toy_out) /\
  rw_valid (c_ssn toy_client) (c_win toy_server) = true /\ room (c_inter toy_server) toy_lost_msg /\
  squeezed_out (with_payload toy_lost_msg [42; 43]) = false /\
  snd (coap2oscore toy_crypto toy_nw toy_client (toy_lost ++ [43]) toy_out) = Err buffer_to_small /\
  squeezed_out (with_payload toy_lost_msg []) = false /\
  snd (coap2oscore toy_crypto toy_nw toy_client (takeN 13 toy_lost) toy_out) = Err buffer_to_small.
Proof.
  destruct C19_payload_ex as (R1 & R2 & _). split; [exact R1|]. split.
  { split; [exact R2|]. split; [repeat (constructor; [first [left; vm_compute; reflexivity|right; vm_compute; auto]|]); constructor|].
    split; [apply N.leb_le; reflexivity|]. split; [vm_compute; intuition discriminate|]. split; [change (NoDup [3; 21]); repeat (constructor; [vm_compute; intuition discriminate|]); constructor|].
    apply N.leb_le; vm_compute; reflexivity. }
  split; [vm_compute; reflexivity|]. split; [vm_compute; reflexivity|]. split; [vm_compute; reflexivity|].
  split; [repeat (constructor; [reflexivity|]); constructor|]. split.
  { split; [|split; [|split; [|split]]].
    - split; [vm_compute; reflexivity|]. split; [left; vm_compute; reflexivity|]. apply N.leb_le. vm_compute. reflexivity.
    - intros H. vm_compute in H. discriminate H.
    - apply N.leb_le. vm_compute. reflexivity.
    - intros H. exfalso. apply H. left. vm_compute. reflexivity.
    - intros x H. vm_compute in H. destruct H as [H|[H|[H|[]]]]; discriminate H. }
  split; [split; [|split; [|split]]; try (apply N.leb_le; vm_compute; reflexivity); vm_compute; reflexivity|].
  split; [vm_compute; reflexivity|]. split.
  { split; [intros H; exfalso; apply H; left; vm_compute; reflexivity|].
    intros x H. vm_compute in H. destruct H as [H|[H|[H|[]]]]; discriminate H. }
  repeat split; vm_compute; reflexivity.
Qed.

(** A response with the same options, to the request of C19_example. *)
Definition toy_lost_resp : bytes := [0x61; 0x45; 0; 5; 5; 0x31; 104; 0xc1; 113; 0x61; 112; 0x71; 9; 255; 42].
Definition toy_lost_resp_msg : message :=
  {| m_ver := 1; m_type := 2; m_code := 0x45; m_mid := 5; m_token := [5];
     m_opts := [(3, [104]); (15, [113]); (21, [112]); (28, [9])]; m_payload := [42] |}.
Example C19_response_lost_example :
  let c := fst (toy_send toy_client toy_post) in
  let d := fst (toy_recv toy_server (snd (toy_send toy_client toy_post))) in
  rfc_message toy_lost_resp_msg toy_lost_resp /\ nearly_supported toy_lost_resp_msg toy_lost_resp /\ squeezed_out toy_lost_resp_msg = true /\
  may_respond toy_nw d toy_lost_resp_msg /\ fits toy_lost_resp_msg (response_olen d toy_lost_resp_msg) (lenN toy_out) /\
  c_nonce c = c_nonce d /\
  (forall x, held (c_inter d) x -> exists y, held (c_inter c) y /\ i_token y = [5] /\ i_piv y = i_piv x /\ i_kid y = i_kid x) /\
  snd (toy_recv c (snd (toy_send d toy_lost_resp))) = Ok [0x61; 0x45; 0; 5; 5; 0x31; 104; 0xc1; 113; 0x61; 112; 0x71; 9].
Proof.
  cbv zeta. split.
  { unfold rfc_message. cbn [toy_lost_resp_msg m_ver m_type m_code m_mid m_token m_opts m_payload]. do 4 (split; [reflexivity|]). split; [apply N.leb_le; reflexivity|].
    exists (dropN 5 toy_lost_resp). split; [|reflexivity]. exists [0x31; 104; 0xc1; 113; 0x61; 112; 0x71; 9]. split; [|reflexivity].
    refine (rfc_cons 0 3 [104] 3 [] 1 [] _ _ _ _ _ _); [apply N.leb_le; reflexivity|apply (field_short 3); reflexivity|apply (field_short 1); reflexivity|].
    refine (rfc_cons 3 15 [113] 12 [] 1 [] _ _ _ _ _ _); [apply N.leb_le; reflexivity|apply (field_short 12); reflexivity|apply (field_short 1); reflexivity|].
    refine (rfc_cons 15 21 [112] 6 [] 1 [] _ _ _ _ _ _); [apply N.leb_le; reflexivity|apply (field_short 6); reflexivity|apply (field_short 1); reflexivity|].
    refine (rfc_cons 21 28 [9] 7 [] 1 [] _ _ _ _ _ _); [apply N.leb_le; reflexivity|apply (field_short 7); reflexivity|apply (field_short 1); reflexivity|].
    constructor. }
  split.
  { split.
    { unfold parsable. cbn [toy_lost_resp_msg m_opts deltas snd fst]. repeat split; try (repeat constructor; fail);
        try (repeat (constructor; [left; reflexivity|]); constructor); try reflexivity.
      apply N.leb_le; reflexivity. }
    split; [repeat (constructor; [first [left; vm_compute; reflexivity|right; vm_compute; auto]|]); constructor|].
    split; [apply N.leb_le; reflexivity|]. split; [vm_compute; intuition discriminate|].
    split; [change (NoDup [3; 21]); repeat (constructor; [vm_compute; intuition discriminate|]); constructor|].
    apply N.leb_le; vm_compute; reflexivity. }
  split; [vm_compute; reflexivity|].
  split.
  { split; [vm_compute; reflexivity|]. split; [intros H; vm_compute in H; discriminate H|]. split; [vm_compute; reflexivity|].
    exists {| i_type := MREQUEST; i_token := [5]; i_uri := [97]; i_piv := [0]; i_kid := [1] |}.
    split; [|split; [reflexivity|apply N.leb_le; reflexivity]].
    unfold held. match goal with |- In ?a ?b => apply (nth_error_In b 0%nat) end. vm_compute. reflexivity. }
  split; [split; [|split; [|split]]; try (apply N.leb_le; vm_compute; reflexivity); vm_compute; reflexivity|].
  split; [vm_compute; reflexivity|]. split; [|vm_compute; reflexivity].
  intros x H. exists {| i_type := MREQUEST; i_token := [5]; i_uri := [97]; i_piv := [0]; i_kid := [1] |}. split.
  { unfold held. match goal with |- In ?a ?b => apply (nth_error_In b 0%nat) end. vm_compute. reflexivity. }
  split; [reflexivity|]. unfold held in H.
  match type of H with In _ ?t => replace t with [Some {| i_type := MREQUEST; i_token := [5]; i_uri := [97]; i_piv := [0]; i_kid := [1] |}; None; None] in H by (vm_compute; reflexivity) end.
  destruct H as [[= <-]|[H|[H|[]]]]; [split; reflexivity|discriminate H|discriminate H].
Qed.
