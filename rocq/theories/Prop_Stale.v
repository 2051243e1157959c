(** C25: what the memory of the context held before it was initialised is as good as a
    challenge. *)
From Verif Require Import Base Proof_Base Model_Common Model_Crypto Model_OscorePrims Proof_OscorePrims
  Model_Coap Spec_Coap Proof_Coap Model_Interactions Model_Replay Model_Context Spec_Options
  Model_Send Model_Recv Model_Run Spec_Interactions Proof_Interactions Proof_Send Proof_Recv Proof_Run Spec_Session Proof_Session
  Spec_RoundTrip Proof_RoundTrip Spec_UriPath Spec_Protect Proof_Protect Spec_Reboot Proof_Reboot
  Model_Toy Proof_Toy Model_ToyRun Prop_Echo.

(** Let [g] be what the Echo buffer held before oscore_context_init, for example the value
    of a challenge of the previous session. Two requests that the client protected at any
    time, before or after, the second one with the Echo value [g], are enough: the first is
    refused, the second is delivered, although the server has not sent anything. Whoever
    recorded the answer to that challenge can repeat it after every restart, and with it a
    request from before. *)
Theorem C25_stale_refuted :
  forall (cr : crypto) (p : init_params) (nvm : res N) (gn g : bytes) (gf : N) (d : ctx)
         (nw1 nw2 : N -> res unit) (c1 c2 : ctx) (s1 s2 : sstate) (m1 m2 : message) (in1 in2 buf1 buf2 w1 w2 out1 out2 : bytes) (n1 n2 : N),
  crypto_ok cr -> lenN g = 12 -> oscore_context_init cr p nvm gn g gf = Ok d -> ip_fresh p = false ->
  c_ssn d < OSCORE_SSN_OVERFLOW_VALUE -> reachable cr c1 -> reachable cr c2 -> hears c1 d -> hears c2 d ->
  rfc_message m1 in1 -> supported m1 in1 -> is_bytes in1 -> 0 < m_code m1 < 32 ->
  rfc_message m2 in2 -> supported m2 in2 -> is_bytes in2 -> 0 < m_code m2 < 32 ->
  lenN buf1 < 2 ^ 16 -> lenN buf2 < 2 ^ 16 -> lenN in1 <= lenN out1 < 2 ^ 32 -> lenN in2 <= lenN out2 < 2 ^ 32 ->
  coap2oscore cr nw1 c1 in1 buf1 = (s1, w1, Ok n1) -> coap2oscore cr nw2 c2 in2 buf2 = (s2, w2, Ok n2) ->
  m_token m1 <> m_token m2 -> echo_of m2 = Some g ->
  exists d1 d2, oscore2coap cr d (takeN n1 w1) out1 = (d1, out1, Err first_request_after_reboot) /\
    oscore2coap cr d1 (takeN n2 w2) out2 = (d2, written in2 out2, Ok (lenN in2)) /\ c_echo d2 = ECHO_SYNCHRONIZED /\
    forall v, ~ challenged cr d [ARecv (takeN n1 w1) out1] v.
Proof.
  intros cr p nvm gn g gf d nw1 nw2 c1 c2 s1 s2 m1 m2 in1 in2 buf1 buf2 w1 w2 out1 out2 n1 n2
    OK LG HI HF SD R1 R2 H1 H2 M1 S1 B1 C1 M2 S2 B2 C2 L1 L2 (O1 & O1') (O2 & O2') E1 E2 TT EG.
  assert (RD : reachable cr d) by (exists p, nvm, gn, g, gf, d, []; auto).
  destruct (reachable_both cr d OK RD) as [UD KD].
  destruct (reachable_both cr c1 OK R1) as [U1 K1]. destruct (reachable_both cr c2 OK R2) as [U2 K2].
  destruct (init_inter cr p nvm gn g gf d HI) as (I1 & I2 & I3 & I4 & I5 & I6 & I7 & I8 & I9 & I10). rewrite HF in I4.
  assert (NH : forall x, ~ held (c_inter d) x).
  { intros x Hx. unfold held in Hx. rewrite I1 in Hx. cbn in Hx. destruct Hx as [Hx|[Hx|[Hx|[]]]]; discriminate. }
  destruct (request_received cr nw1 c1 d s1 m1 in1 buf1 w1 n1 out1) as (t & pt & eo & piv & PV & _ & TH & _ & _ & Q); try assumption.
  { rewrite I4. discriminate. }
  { split; [|intros x Hx; contradiction (NH x Hx)]. intros F. exfalso. apply F. rewrite I1. left. reflexivity. }
  cbv zeta in Q. rewrite I4 in Q. set (d1 := set_echo (set_inter (set_nonce d (c_nonce (s_ctx s1))) t) ECHO_VERIFY) in *.
  assert (KD1 : same_keys d d1) by (unfold d1; repeat split).
  assert (UD1 : usable d1).
  { assert (X : exec cr d (ARecv (takeN n1 w1) out1) = (d1, {| ob_enc := None; ob_nvm := None; ob_buf := out1; ob_res := Err first_request_after_reboot |}))
      by (unfold exec; rewrite Q; reflexivity).
    exact (usable_step cr _ _ _ _ UD X). }
  destruct (request_received cr nw2 c2 d1 s2 m2 in2 buf2 w2 n2 out2) as (t2 & pt2 & eo2 & piv2 & PV2 & _ & TH2 & EP2 & EO2 & Q2); try assumption.
  { discriminate. }
  { change (c_inter d1) with t. split.
    - intros F. exfalso. apply F.
      (* one request, three places *)
      destruct (proj1 UD1) as (L3 & _ & UQ). change (c_inter d1) with t in L3, UQ.
      destruct t as [|[a|] [|[b|] [|x t]]]; try discriminate L3; cbn [In]; auto. exfalso.
      assert (Ia : a = record_for m1 piv (c_sid c1)).
      { destruct (proj1 (TH a)) as [->|[X _]]; [left; reflexivity|reflexivity|contradiction (NH _ X)]. }
      assert (Ib : b = record_for m1 piv (c_sid c1)).
      { destruct (proj1 (TH b)) as [->|[X _]]; [right; left; reflexivity|reflexivity|contradiction (NH _ X)]. }
      specialize (UQ 0%nat 1%nat a b eq_refl eq_refl ltac:(left; congruence)). discriminate UQ.
    - intros x Hx TX. exfalso. apply TH in Hx as [->|[X _]]; [|exact (NH _ X)]. cbn [record_for i_token] in TX. contradiction. }
  cbv zeta in Q2. change (c_echo d1) with ECHO_VERIFY in Q2. destruct Q2 as [Q2 _].
  change (c_echo_buf d1) with (c_echo_buf d) in Q2. change (c_echo_len d1) with (c_echo_len d) in Q2. rewrite I7, I8 in Q2.
  rewrite takeN_all in Q2 by lia. pose proof (trusts_asked g m2 _ pt2 eo2 _ EP2 EO2) as TA. cbn [trusts] in TA. rewrite EG in TA.
  assert (BG : beqb g g = true) by (apply beqb_eq; reflexivity). rewrite BG in TA. specialize (Q2 TA).
  exists d1. eexists. split; [exact Q|]. split; [exact Q2|]. split; [reflexivity|].
  intros v (pre & nw & i & b & post & k & o & E & _). destruct pre as [|a [|a' pre]]; discriminate E.
Qed.
Print Assumptions C25_stale_refuted.

(** The requests of C25_stale_ex meet the hypotheses. *)
Definition toy_echo_msg : message :=
  {| m_ver := 1; m_type := 0; m_code := 1; m_mid := 6; m_token := [6]; m_opts := [(11, [97]); (252, repeat 0 12)]; m_payload := [] |}.
Definition toy_plain_msg : message :=
  {| m_ver := 1; m_type := 0; m_code := 1; m_mid := 5; m_token := [5]; m_opts := [(11, [97])]; m_payload := [] |}.
Example C25_stale_hypotheses :
  (exists p nvm gn gf, oscore_context_init toy_crypto p nvm gn (repeat 0 12) gf = Ok toy_rebooted /\ ip_fresh p = false) /\
  c_ssn toy_rebooted < OSCORE_SSN_OVERFLOW_VALUE /\ hears toy_client toy_rebooted /\
  rfc_message toy_plain_msg (toy_get 5) /\ supported toy_plain_msg (toy_get 5) /\
  rfc_message toy_echo_msg (toy_get_echo 6 (repeat 0 12)) /\ supported toy_echo_msg (toy_get_echo 6 (repeat 0 12)) /\
  is_ok (snd (coap2oscore toy_crypto toy_nw toy_client (toy_get 5) toy_out)) = true /\
  is_ok (snd (coap2oscore toy_crypto toy_nw toy_client (toy_get_echo 6 (repeat 0 12)) toy_out)) = true /\
  m_token toy_plain_msg <> m_token toy_echo_msg /\ echo_of toy_echo_msg = Some (repeat 0 12).
Proof.
  split; [exists (toy_params [2] [1] false), (Ok 0), (repeat 0 13), 0; split; vm_compute; reflexivity|].
  split; [vm_compute; reflexivity|]. split; [repeat split; vm_compute; reflexivity|].
  split.
  { unfold rfc_message, toy_plain_msg. cbn [m_ver m_type m_code m_mid m_token m_opts m_payload]. do 4 (split; [reflexivity|]). split; [apply N.leb_le; reflexivity|].
    exists [0xb1; 97]. split; [|reflexivity]. exists [0xb1; 97]. split; [|reflexivity].
    refine (rfc_cons 0 11 [97] 11 [] 1 [] _ _ _ _ _ _); [apply N.leb_le; reflexivity|apply (field_short 11); reflexivity|apply (field_short 1); reflexivity|constructor]. }
  split.
  { unfold supported, parsable, toy_plain_msg. cbn [m_opts m_payload].
    repeat match goal with |- _ /\ _ => split end; try (right; apply N.leb_le; reflexivity); repeat constructor; try (apply N.leb_le; reflexivity); try (apply N.ltb_lt; reflexivity); try (right; apply N.leb_le; reflexivity);
      try (intros X; cbn in X; repeat destruct X as [X|X]; try discriminate; contradiction). }
  split.
  { unfold rfc_message, toy_echo_msg. cbn [m_ver m_type m_code m_mid m_token m_opts m_payload]. do 4 (split; [reflexivity|]). split; [apply N.leb_le; reflexivity|].
    exists ([0xb1; 97; 0xdc; 228] ++ repeat 0 12). split; [|reflexivity]. exists ([0xb1; 97; 0xdc; 228] ++ repeat 0 12). split; [|reflexivity].
    refine (rfc_cons 0 11 [97] 11 [] 1 [] _ _ _ _ _ _); [apply N.leb_le; reflexivity|apply (field_short 11); reflexivity|apply (field_short 1); reflexivity|].
    refine (rfc_cons 11 252 (repeat 0 12) 13 [228] 12 [] _ [] _ _ _ _); [apply N.leb_le; reflexivity|apply (field_ext8 228); reflexivity|apply (field_short 12); reflexivity|constructor]. }
  split.
  { unfold supported, parsable, toy_echo_msg. cbn [m_opts m_payload].
    repeat match goal with |- _ /\ _ => split end; try (right; apply N.leb_le; reflexivity); repeat constructor; try (apply N.leb_le; reflexivity); try (apply N.ltb_lt; reflexivity); try (right; apply N.leb_le; reflexivity);
      try (intros X; cbn in X; repeat destruct X as [X|X]; try discriminate; contradiction). }
  split; [vm_compute; reflexivity|]. split; [vm_compute; reflexivity|]. split; [discriminate|reflexivity].
Qed.
