(** Property C72: messages are exchanged with any other implementation of RFC 8613, not
    only with another copy of this one. What such an implementation sends is described in
    Spec_Interop.v: [rfc_protected cr key nonce aad m o wire]. The limits of this
    implementation are those of C19 ([supported]), C42 (paths below 30 bytes) and C67
    (identifiers), and packets of at most 1032 bytes. *)
From Verif Require Import Base Proof_Base Model_Common Model_Crypto Model_Cbor Model_OscorePrims Spec_OscorePrims Proof_OscorePrims
  Model_Coap Spec_Coap Proof_Coap Model_Interactions Model_Replay Model_Context Spec_Options Spec_OscoreOption
  Model_Send Model_Recv Model_Run Spec_Interactions Proof_Interactions Proof_Send Proof_Recv Spec_Session Proof_Run Proof_Session
  Spec_UriPath Spec_RoundTrip Proof_RoundTrip Spec_Protect Proof_Protect Proof_OscoreOption Spec_Interop Proof_Interop
  Model_Toy Proof_Toy Model_ToyRun Prop_RoundTrip Prop_Context Prop_Channel.

(** Everything that is sent is as in the RFC. A message with a sequence number uses the
    Sender ID and that number for the nonce, and announces both. A request is bound to
    itself, a response to the outstanding request with the same token. The nonce of a
    response without a number is the one used last; whether that is the nonce of the
    request that it answers, as the RFC demands, is part of C72_server. *)
Theorem C72_sent :
  forall (cr : crypto) (nw : N -> res unit) (c : ctx) (s : sstate) (m : message) (input buf buf1 : bytes) (n : N),
  crypto_ok cr -> reachable cr c ->
  rfc_message m input -> supported m input -> is_bytes input -> m_code m <> 0 ->
  (forall v, In (6, v) (m_opts m) -> lenN v <= 3) -> lenN buf < 2 ^ 32 ->
  coap2oscore cr nw c input buf = (s, buf1, Ok n) ->
  exists o nonce rkid rpiv, rfc_protected cr (c_skey c) nonce (rfc_aad (c_alg c) rkid rpiv) m o (takeN n buf1) /\
    (o = {| oo_piv := oo_piv o; oo_ctx := match c_id_context c with [] => None | x => Some x end; oo_kid := Some (c_sid c) |} /\
     minimal_be (c_ssn c) (oo_piv o) /\ nonce = rfc_nonce (c_sid c) (oo_piv o) (c_iv c) \/
     32 <= m_code m /\ notifies m = false /\ o = oo_empty /\ nonce = c_nonce c) /\
    if m_code m <? 32 then rkid = c_sid c /\ rpiv = oo_piv o
    else exists x, held (c_inter c) x /\ i_token x = m_token m /\ rkid = i_kid x /\ rpiv = i_piv x.
Proof.
  intros cr nw c s m input buf buf1 n OK RC HM SUP HB CZ O3 LB HS. destruct (reachable_both cr c OK RC) as [UC KC].
  exact (interop_send cr nw c s m input buf buf1 n OK UC KC HM SUP HB CZ O3 LB HS).
Qed.
Print Assumptions C72_sent.

(** The keys in all of this are the ones that the RFC derives from the shared secret, in
    every state: another implementation needs nothing but the secret, the salt, the
    algorithms, the ID context and the identifiers. *)
Theorem C72_secrets :
  forall (cr : crypto) (p : init_params) (nvm : res N) (gn ge : bytes) (gf : N) (c0 : ctx) (calls : list api_call) (c : ctx),
  crypto_ok cr -> oscore_context_init cr p nvm gn ge gf = Ok c0 -> fst (run cr c0 calls) = c ->
  c_skey c = rfc_derive cr p (ip_sender_id p) false 16 /\ c_rkey c = rfc_derive cr p (ip_recipient_id p) false 16 /\
  c_iv c = rfc_derive cr p [] true 13 /\ c_sid c = ip_sender_id p /\ c_rid c = ip_recipient_id p /\ c_alg c = 10%Z.
Proof.
  intros cr p nvm gn ge gf c0 calls c OK HI <-. pose proof (run_keys cr c0 calls) as (k1 & _ & k3 & _ & k5 & k6 & k7 & k8).
  apply C30_keys_are_rfc in HI as (A & B & C & D & E & F & _ & G & _); [|apply OK].
  rewrite k1, k3, k5, k6, k7, k8. rewrite F, G in *. repeat split; assumption.
Qed.
Print Assumptions C72_secrets.

(** As a server: every request of a client is delivered, byte for byte, and a response
    that the application sends next, to this request, is one that the RFC's client
    accepts: bound to the request and protected with its nonce or with a number of the
    server's own. *)
Theorem C72_server :
  forall (cr : crypto) (d : ctx) (m : message) (input : bytes) (o : oscore_opt) (wire buf : bytes) (num : N),
  crypto_ok cr -> reachable cr d ->
  rfc_message m input -> supported m input -> is_bytes input -> 0 < m_code m < 32 -> segs_size (message_path m) < 30 ->
  oo_kid o = Some (c_rid d) -> minimal_be num (oo_piv o) -> lenN (c_rid d) + lenN (oo_piv o) <= 7 ->
  rfc_protected cr (c_rkey d) (rfc_nonce (c_rid d) (oo_piv o) (c_iv d)) (rfc_aad (c_alg d) (c_rid d) (oo_piv o)) m o wire ->
  lenN wire <= 1032 -> lenN input <= lenN buf < 2 ^ 32 ->
  c_ssn d < OSCORE_SSN_OVERFLOW_VALUE -> c_echo d = ECHO_SYNCHRONIZED -> rw_valid num (c_win d) = true -> room (c_inter d) m ->
  exists d', oscore2coap cr d wire buf = (d', written input buf, Ok (lenN input)) /\
    forall nw m' input' buf' s buf1 n, rfc_message m' input' -> supported m' input' -> is_bytes input' -> 32 <= m_code m' ->
    m_token m' = m_token m -> (forall v, In (6, v) (m_opts m') -> lenN v <= 3) -> lenN buf' < 2 ^ 32 ->
    coap2oscore cr nw d' input' buf' = (s, buf1, Ok n) ->
    exists o' nonce, rfc_protected cr (c_skey d) nonce (rfc_aad (c_alg d) (c_rid d) (oo_piv o)) m' o' (takeN n buf1) /\
      (o' = oo_empty /\ notifies m' = false /\ nonce = rfc_nonce (c_rid d) (oo_piv o) (c_iv d) \/
       oo_kid o' = Some (c_sid d) /\ minimal_be (c_ssn d) (oo_piv o') /\ nonce = rfc_nonce (c_sid d) (oo_piv o') (c_iv d)).
Proof.
  intros cr d m input o wire buf num OK RD HM SUP HB CO PS KI MB L7 RP LW [LI LB] SD SE SW RO.
  destruct (reachable_both cr d OK RD) as [UD KD].
  destruct (interop_request cr d m input o wire num buf OK UD KD HM SUP HB CO PS KI MB L7 RP LW LB LI SD SE SW RO) as (d' & E & NO & HE).
  exists d'. split; [exact E|]. intros nw m' input' buf' s buf1 n HM' SUP' HB' CO' TK O3 LB' HS.
  assert (EX : exec cr d (ARecv wire buf) = (d', {| ob_enc := None; ob_nvm := None; ob_buf := written input buf; ob_res := Ok (lenN input) |}))
    by (unfold exec; rewrite E; reflexivity).
  pose proof EX as K. apply exec_keys in K as [(k1 & k2 & k3 & _ & k5 & k6 & k7 & k8) _].
  pose proof EX as Y. apply exec_recv in Y as (_ & _ & r1 & CY & _). apply recv_core_effect in CY as ((_ & SY & _) & _).
  pose proof (usable_step _ _ _ _ _ UD EX) as UD1.
  assert (KD1 : keyed d') by (destruct KD as (a & b & e); unfold keyed; rewrite k1, k3, k6; auto).
  destruct (interop_send cr nw d' s m' input' buf' buf1 n OK UD1 KD1 HM' SUP' HB' ltac:(lia) O3 LB' HS) as (o' & nonce & rkid & rpiv & RP' & NN & BD).
  destruct (N.ltb_spec (m_code m') 32); [lia|]. destruct BD as (x & HX & TX & -> & ->).
  assert (x = record_for m (oo_piv o) (c_rid d)) as ->.
  { apply (Proof_Net.held_token _ _ _ (proj1 UD1) HX); [apply HE; left; reflexivity|]. cbn [record_for i_token]. congruence. }
  cbn [record_for i_kid i_piv] in RP'. exists o', nonce. rewrite k1, k6 in RP'. split; [exact RP'|].
  destruct NN as [(A & B & C)|(_ & A & B & C)].
  - right. rewrite A at 1. cbn [oo_kid]. rewrite k5. split; [reflexivity|]. rewrite <- SY. split; [exact B|]. rewrite C, k3, k5. reflexivity.
  - left. split; [exact B|]. split; [exact A|]. rewrite C. exact NO.
Qed.
Print Assumptions C72_server.

(** As a client: the request is as in the RFC (C72_sent), and the response of the server,
    protected with the nonce of the request, is delivered. So are responses and
    notifications with a Partial IV of the server if they also say the server's
    identifier, or if that is empty. *)
Theorem C72_client_partial :
  forall (cr : crypto) (nw : N -> res unit) (c : ctx) (s : sstate) (m : message) (input buf buf1 : bytes) (n : N)
    (m' : message) (input' : bytes) (o : oscore_opt) (nonce wire buf2 : bytes),
  crypto_ok cr -> reachable cr c ->
  rfc_message m input -> supported m input -> is_bytes input -> 0 < m_code m < 32 -> lenN buf < 2 ^ 16 ->
  coap2oscore cr nw c input buf = (s, buf1, Ok n) -> c_ssn c + 1 < OSCORE_SSN_OVERFLOW_VALUE ->
  rfc_message m' input' -> supported m' input' -> is_bytes input' -> 32 <= m_code m' -> segs_size (message_path m') < 30 ->
  m_token m' = m_token m ->
  forall piv, minimal_be (c_ssn c) piv ->
  rfc_protected cr (c_rkey c) nonce (rfc_aad (c_alg c) (c_sid c) piv) m' o wire ->
  (o = oo_empty /\ notifies m' = false /\ nonce = rfc_nonce (c_sid c) piv (c_iv c) \/
   exists num, minimal_be num (oo_piv o) /\ match oo_kid o with Some i => i | None => [] end = c_rid c /\ lenN (c_rid c) <= 7 /\ nonce = rfc_nonce (c_rid c) (oo_piv o) (c_iv c) /\
     (notifies m' = true -> c_notif_init c = true -> c_notif c < num)) ->
  lenN wire <= 1032 -> lenN buf2 < 2 ^ 32 ->
  exists out, rfc_message (received m') out /\
   (lenN out <= lenN buf2 -> exists c', oscore2coap cr (s_ctx s) wire buf2 = (c', written out buf2, Ok (lenN out))).
Proof.
  intros cr nw c s m input buf buf1 n m' input' o nonce wire buf2 OK RC HM SUP HB CO LB HS SL HM' SUP' HB' CO' PS TK piv MP RP NON LW LB2.
  destruct (reachable_both cr c OK RC) as [UC KC].
  assert (EX : exec cr c (ASend nw input buf) = (s_ctx s, {| ob_enc := s_enc s; ob_nvm := s_nvm s; ob_buf := buf1; ob_res := Ok n |}))
    by (unfold exec; rewrite HS; reflexivity).
  pose proof EX as K. apply exec_keys in K as [(k1 & k2 & k3 & _ & k5 & k6 & k7 & k8) _].
  pose proof (usable_step _ _ _ _ _ UC EX) as UC1.
  assert (KC1 : keyed (s_ctx s)) by (destruct KC as (a & b & e); unfold keyed; rewrite k1, k3, k6; auto).
  pose proof EX as Y. apply exec_send in Y as (s0 & r0 & CX & E0 & _). pose proof CX as CX'. apply core_effect in CX as (_ & RX & _).
  apply Proof_Nonce.send_ssn in CX' as SX. rewrite <- E0 in RX, SX. destruct RX as (_ & R1 & R2 & _).
  destruct (request_sent cr nw c s m input buf buf1 n OK UC KC HM SUP HB CO ltac:(change (2 ^ 16) with 65536 in LB; change (2 ^ 32) with 4294967296; lia) HS) as (piv0 & MB & CN & HX & L7).
  assert (piv0 = piv) as -> by (eapply minimal_be_unique; eassumption).
  apply (interop_response cr (s_ctx s) m' input' o wire nonce (record_for m piv (c_sid c)) buf2); try assumption.
  - rewrite TK. reflexivity.
  - cbn [record_for i_kid i_piv]. rewrite k1, k8. exact RP.
  - destruct NON as [(-> & A & ->)|(num & A & B & C & -> & D)].
    + left. rewrite CN. auto.
    + right. exists num. change (opt_get (oo_kid o)) with (match oo_kid o with Some i => i | None => [] end). rewrite B, k3. split; [exact A|]. split; [exact C|]. split; [reflexivity|]. rewrite R1, R2. exact D.
  - destruct SX as [SX | [SX _]]; rewrite SX; lia.
Qed.
Print Assumptions C72_client_partial.

(** The RFC does not want that identifier in responses ("kid" is only in requests, section
    5; the nonce is computed from the identifier that the client knows, section 5.2). The
    conforming response or notification with a Partial IV but without kid is decrypted
    with the wrong nonce whenever the server's identifier is not empty: if it gets
    through at all, then the AEAD accepted a ciphertext under a nonce for which it was
    not made. *)
Theorem C72_no_kid_refuted :
  forall (cr : crypto) (d : ctx) (m : message) (input : bytes) (o : oscore_opt) (wire buf : bytes) (x : inter) (d' : ctx) (b : bytes) (nr : N),
  crypto_ok cr -> reachable cr d ->
  rfc_message m input -> supported m input -> is_bytes input -> 32 <= m_code m ->
  held (c_inter d) x -> i_token x = m_token m ->
  oo_piv o <> [] -> oo_kid o = None -> 0 < lenN (c_rid d) <= 7 ->
  rfc_protected cr (c_rkey d) (rfc_nonce (c_rid d) (oo_piv o) (c_iv d)) (rfc_aad (c_alg d) (i_kid x) (i_piv x)) m o wire ->
  lenN wire <= 1032 ->
  oscore2coap cr d wire buf = (d', b, Ok nr) ->
  rfc_nonce [] (oo_piv o) (c_iv d) <> rfc_nonce (c_rid d) (oo_piv o) (c_iv d) /\
  exists pt ct pt', cr_aead_enc cr (c_rkey d) (rfc_nonce (c_rid d) (oo_piv o) (c_iv d)) (rfc_aad (c_alg d) (i_kid x) (i_piv x)) 8 pt = Some ct /\
    cr_aead_dec cr (c_rkey d) (rfc_nonce [] (oo_piv o) (c_iv d)) (rfc_aad (c_alg d) (i_kid x) (i_piv x)) 8 ct = Some pt'.
Proof.
  intros cr d m input o wire buf x d' b nr OK RD HM SUP HB CO HX TX NP NK LR RP LW H.
  destruct (reachable_both cr d OK RD) as [UD KD]. pose proof KD as (_ & _ & IV). split.
  - assert (P5 : lenN (oo_piv o) <= 5).
    { destruct RP as (? & ? & ? & ? & ? & _ & _ & _ & _ & _ & _ & _ & _ & _ & OV & _). destruct OV; [apply N.leb_le; reflexivity|assumption]. }
    intros E. assert (X : create_nonce [] (oo_piv o) (c_iv d) = create_nonce (c_rid d) (oo_piv o) (c_iv d)).
    { rewrite !create_nonce_spec by (rewrite ?lenN_nil; lia). rewrite E. reflexivity. }
    rewrite (create_nonce_spec (c_rid d)) in X by lia.
    destruct (create_nonce_inj _ _ _ _ _ _ IV X (create_nonce_spec _ _ _ (proj2 LR) P5 IV)) as [Y _]. assert (Z : c_rid d = []) by congruence. rewrite Z in LR. destruct LR as [LR _]. discriminate LR.
  - destruct (interop_kid cr d m input o wire _ x buf d' b nr OK UD KD HM SUP HB CO HX TX RP LW H) as (pt & ct & pt' & A & B).
    rewrite NK in B. cbn [opt_get] in B. destruct (N.eqb_spec (lenN (oo_piv o)) 0) as [Z|_]; [apply lenN_0 in Z; contradiction|].
    exists pt, ct, pt'. auto.
Qed.
Print Assumptions C72_no_kid_refuted.

(** The first notification may be without a Partial IV (section 4.1.3.5.2); it is
    always refused. *)
Theorem C72_first_notification_refuted :
  forall (cr : crypto) (d : ctx) (m : message) (input : bytes) (o : oscore_opt) (nonce aad wire buf : bytes),
  crypto_ok cr -> rfc_message m input -> supported m input -> is_bytes input -> 32 <= m_code m ->
  notifies m = true -> oo_piv o = [] -> rfc_protected cr (c_rkey d) nonce aad m o wire -> lenN wire <= 1032 ->
  c_ssn d < OSCORE_SSN_OVERFLOW_VALUE ->
  oscore2coap cr d wire buf = (d, buf, Err not_supported_feature).
Proof. intros. eapply interop_no_piv; eassumption. Qed.
Print Assumptions C72_first_notification_refuted.

(** A client with two outstanding requests: a response without Partial IV is decrypted
    with the nonce that was used last, which is that of the request it belongs to only
    if nothing was sent or received since. *)
Theorem C72_outstanding_refuted :
  forall (cr : crypto) (d : ctx) (m : message) (input wire buf : bytes) (x : inter) (d' : ctx) (b : bytes) (nr : N),
  crypto_ok cr -> reachable cr d ->
  rfc_message m input -> supported m input -> is_bytes input -> 32 <= m_code m ->
  held (c_inter d) x -> i_token x = m_token m -> c_nonce d <> rfc_nonce (i_kid x) (i_piv x) (c_iv d) ->
  rfc_protected cr (c_rkey d) (rfc_nonce (i_kid x) (i_piv x) (c_iv d)) (rfc_aad (c_alg d) (i_kid x) (i_piv x)) m oo_empty wire ->
  lenN wire <= 1032 ->
  oscore2coap cr d wire buf = (d', b, Ok nr) ->
  exists pt ct pt', cr_aead_enc cr (c_rkey d) (rfc_nonce (i_kid x) (i_piv x) (c_iv d)) (rfc_aad (c_alg d) (i_kid x) (i_piv x)) 8 pt = Some ct /\
    cr_aead_dec cr (c_rkey d) (c_nonce d) (rfc_aad (c_alg d) (i_kid x) (i_piv x)) 8 ct = Some pt'.
Proof.
  intros cr d m input wire buf x d' b nr OK RD HM SUP HB CO HX TX _ RP LW H.
  destruct (reachable_both cr d OK RD) as [UD KD].
  exact (interop_kid cr d m input oo_empty wire _ x buf d' b nr OK UD KD HM SUP HB CO HX TX RP LW H).
Qed.
Print Assumptions C72_outstanding_refuted.

(** The client registers at the server, both with non-empty identifiers. The server's
    notification, built by hand as the RFC says: with its kid it arrives, without it is
    not accepted although it is protected correctly. *)
Definition toy_registered : ctx := fst (toy_send toy_client (toy_observe 6)).
Definition toy_noted_msg : message :=
  {| m_ver := 1; m_type := 1; m_code := 69; m_mid := 6; m_token := [6]; m_opts := [(6, [7])]; m_payload := [104; 105] |}.
Definition toy_notify_pt : bytes := [69; 96; 255; 104; 105].
Definition toy_notify_ct : bytes := toy_notify_pt ++ [0; 0; 0; 0; 0; 101; 185; 194].
Definition toy_with_kid : bytes := [81; 69; 0; 6; 6; 97; 7; 51; 9; 0; 2; 255] ++ toy_notify_ct.
Definition toy_without_kid : bytes := [81; 69; 0; 6; 6; 97; 7; 50; 1; 0; 255] ++ toy_notify_ct.

Example C72_example :
  rfc_message toy_noted_msg (toy_notify 6 7) /\ supported toy_noted_msg (toy_notify 6 7) /\
  reachable toy_crypto toy_registered /\
  (forall kid, kid = Some [2] \/ kid = None ->
   rfc_protected toy_crypto (c_rkey toy_registered) (rfc_nonce [2] [0] (c_iv toy_registered)) (rfc_aad 10 [1] [0]) toy_noted_msg
     {| oo_piv := [0]; oo_ctx := None; oo_kid := kid |} (match kid with Some _ => toy_with_kid | None => toy_without_kid end)) /\
  c_rid toy_registered = [2] /\
  snd (toy_recv toy_registered toy_with_kid) = Ok [81; 69; 0; 6; 6; 96; 255; 104; 105] /\
  is_ok (snd (toy_recv toy_registered toy_without_kid)) = false.
Proof.
  split.
  { unfold rfc_message. cbn [toy_noted_msg m_ver m_type m_code m_mid m_token m_opts m_payload]. do 4 (split; [reflexivity|]). split; [apply N.leb_le; reflexivity|].
    exists (dropN 5 (toy_notify 6 7)). split; [|reflexivity]. exists [0x61; 7]. split; [|reflexivity].
    refine (rfc_cons 0 6 [7] 6 [] 1 [] _ _ _ _ _ _); [apply N.leb_le; reflexivity|apply (field_short 6); reflexivity|apply (field_short 1); reflexivity|]. constructor. }
  split.
  { unfold supported, parsable. cbn [toy_noted_msg m_opts m_payload].
    repeat match goal with |- _ /\ _ => split end; try (right; apply N.leb_le; reflexivity); repeat constructor; try (apply N.leb_le; reflexivity); try (apply N.ltb_lt; reflexivity); try (right; apply N.leb_le; reflexivity);
      try (intros X; cbn in X; repeat destruct X as [X|X]; try discriminate; contradiction). }
  split.
  { exists (toy_params [1] [2] true), (Ok 0), (repeat 0 13), (repeat 0 12), 0, toy_client, [ASend toy_nw (toy_observe 6) toy_out].
    split; vm_compute; reflexivity. }
  split.
  { intros kid HK. 
    assert (O : forall w, (exists d v, w = [81; 69; 0; 6; 6; 97; 7; 48 + d] ++ v ++ 255 :: toy_notify_ct /\ lenN v = d /\ d < 13 /\
        rfc_oscore_value {| oo_piv := [0]; oo_ctx := None; oo_kid := kid |} v) ->
      rfc_protected toy_crypto (c_rkey toy_registered) (rfc_nonce [2] [0] (c_iv toy_registered)) (rfc_aad 10 [1] [0]) toy_noted_msg
        {| oo_piv := [0]; oo_ctx := None; oo_kid := kid |} w).
    { intros w (d & v & -> & LV & LD & OV).
      exists {| m_ver := 1; m_type := 1; m_code := 69; m_mid := 6; m_token := [6]; m_opts := [(6, [7]); (9, v)]; m_payload := toy_notify_ct |},
        toy_notify_pt, v, [(6, [7])], []. cbn [m_ver m_type m_code m_mid m_token m_opts m_payload app].
      split.
      { do 4 (split; [reflexivity|]). split; [apply N.leb_le; reflexivity|]. cbn [m_ver m_type m_code m_mid m_token m_opts m_payload].
        exists (97 :: 7 :: (48 + d) :: v ++ 255 :: toy_notify_ct). split; [|reflexivity].
        exists (97 :: 7 :: (48 + d) :: v). split; [|reflexivity].
        refine (rfc_cons 0 6 [7] 6 [] 1 [] _ _ _ _ _ _); [apply N.leb_le; reflexivity|apply (field_short 6); reflexivity|apply (field_short 1); reflexivity|].
        rewrite <- (app_nil_r v) at 2. rewrite <- LV.
        refine (rfc_cons 6 9 v 3 [] (lenN v) [] _ _ _ _ _ _); [apply N.leb_le; reflexivity|apply (field_short 3); reflexivity|apply field_short; lia|]. constructor. }
      do 5 (split; [reflexivity|]). split; [reflexivity|]. split; [reflexivity|].
      split; [intros x [E|[]]; injection E as <-; apply N.leb_le; reflexivity|].
      split; [exact OV|]. split; [lia|]. split; [|vm_compute; reflexivity].
      exists [96]. split; [|reflexivity].
      refine (rfc_cons 0 6 [] 6 [] 0 [] _ _ _ _ _ _); [apply N.leb_le; reflexivity|apply (field_short 6); reflexivity|apply (field_short 0); reflexivity|]. constructor. }
    destruct HK as [-> | ->]; apply O.
    - exists 3, [9; 0; 2]. split; [reflexivity|]. split; [reflexivity|]. split; [reflexivity|].
      apply (oov_bytes {| oo_piv := [0]; oo_ctx := None; oo_kid := Some [2] |}); [apply N.leb_le; reflexivity|discriminate|discriminate].
    - exists 2, [1; 0]. split; [reflexivity|]. split; [reflexivity|]. split; [reflexivity|].
      apply (oov_bytes {| oo_piv := [0]; oo_ctx := None; oo_kid := None |}); [apply N.leb_le; reflexivity|discriminate|discriminate]. }
  split; [vm_compute; reflexivity|]. split; vm_compute; reflexivity.
Qed.

(** What the toy client sends meets the hypotheses of C72_server. *)
Example C72_server_example :
  let d := toy_server in let wire := snd (toy_send toy_client toy_post) in
  exists o num, crypto_ok toy_crypto /\ reachable toy_crypto d /\ rfc_message toy_post_msg toy_post /\ supported toy_post_msg toy_post /\
    is_bytes toy_post /\ segs_size (message_path toy_post_msg) < 30 /\
    oo_kid o = Some (c_rid d) /\ minimal_be num (oo_piv o) /\ lenN (c_rid d) + lenN (oo_piv o) <= 7 /\
    rfc_protected toy_crypto (c_rkey d) (rfc_nonce (c_rid d) (oo_piv o) (c_iv d)) (rfc_aad (c_alg d) (c_rid d) (oo_piv o)) toy_post_msg o wire /\
    lenN wire <= 1032 /\ c_ssn d < OSCORE_SSN_OVERFLOW_VALUE /\ c_echo d = ECHO_SYNCHRONIZED /\ rw_valid num (c_win d) = true /\
    room (c_inter d) toy_post_msg.
Proof.
  cbv zeta. destruct C19_example as (RM & SU & H1 & H2 & RC & RS & RV & RO & _).
  assert (HB : is_bytes toy_post) by (repeat constructor).
  pose proof (C72_sent toy_crypto toy_nw toy_client) as T.
  destruct (coap2oscore toy_crypto toy_nw toy_client toy_post toy_out) as [[s b] r] eqn:E.
  assert (Q : r = Ok (lenN (snd (toy_send toy_client toy_post))) /\ takeN (lenN (snd (toy_send toy_client toy_post))) b = snd (toy_send toy_client toy_post)).
  { assert (X : (snd (coap2oscore toy_crypto toy_nw toy_client toy_post toy_out), snd (fst (coap2oscore toy_crypto toy_nw toy_client toy_post toy_out))) = (r, b)) by (rewrite E; reflexivity).
    vm_compute in X. injection X as <- <-. split; vm_compute; reflexivity. }
  destruct Q as [-> Q].
  specialize (T s toy_post_msg toy_post toy_out b (lenN (snd (toy_send toy_client toy_post))) toy_ok RC RM SU HB ltac:(discriminate)).
  destruct T as (o & nonce & rkid & rpiv & RP & NN & RK); [intros v [X|[X|[]]]; discriminate X|reflexivity|exact E|].
  change (rkid = c_sid toy_client /\ rpiv = oo_piv o) in RK. destruct RK as [-> ->].
  destruct NN as [(EO & MB & ->)|(X & _)]; [|exfalso; apply N.leb_le in X; discriminate X].
  rewrite Q in RP. exists o, (c_ssn toy_client).
  split; [exact toy_ok|]. do 3 (split; [assumption|]). split; [exact HB|]. split; [reflexivity|].
  split; [rewrite EO; reflexivity|]. split; [exact MB|].
  assert (P : oo_piv o = [0]).
  { eapply minimal_be_unique; [exact MB|]. split; [repeat constructor|]. split; [reflexivity|]. split; [apply N.leb_le; reflexivity|auto]. }
  split; [rewrite P; vm_compute; discriminate|].
  split; [exact RP|]. split; [vm_compute; discriminate|]. split; [reflexivity|]. split; [reflexivity|]. split; [exact RV|exact RO].
Qed.
