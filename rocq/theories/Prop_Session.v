(** Properties C04 and C05: freshness of requests and notifications over whole
    sessions. Vocabulary in Spec_Session.v: [accepts c input buf c'] is a successful
    call of oscore2coap, [later c c'] any sequence of API calls, [reachable c] a
    context made by oscore_context_init and any calls. *)
From Verif Require Import Base Proof_Base Model_Common Model_Crypto Model_Cbor Model_OscorePrims Model_Coap Model_Context Model_Send Proof_Send
  Model_Recv Model_Replay Model_Run Model_Toy Proof_Toy Model_ToyRun Spec_Session Proof_Replay Proof_Run Proof_Session.

(** ** C04 *)

(** Full statement: the conclusion for every accepted request. Proved here for
    requests whose Partial IV has one byte, that is for the first 256 sequence
    numbers, and for packets with the outer code of a request; C04_two_byte_refuted and
    C04_outer_code_refuted show that the full statement fails otherwise. Such a request, once accepted, is refused whenever it comes again,
    whatever happens in between, and so is any other request packet with the same
    number; nothing changes. *)
Theorem C04_one_byte_partial :
  forall (cr : crypto) (c c1 c2 : ctx) (input buf : bytes) (b : N),
  is_bytes input -> lenN input < 2 ^ 32 ->
  reachable cr c -> c_echo c = ECHO_SYNCHRONIZED ->
  request_packet input [b] -> accepts cr c input buf c1 -> later cr c1 c2 ->
  (forall buf2, oscore2coap cr c2 input buf2 =
     (c2, buf2, Err (if OSCORE_SSN_OVERFLOW_VALUE <=? c_ssn c2 then oscore_ssn_overflow
                     else oscore_replay_window_protection_error))) /\
  (forall input2 piv2 buf2 c3 buf3 r, is_bytes input2 -> lenN input2 < 2 ^ 32 ->
     request_packet input2 piv2 -> be_val piv2 = b ->
     oscore2coap cr c2 input2 buf2 = (c3, buf3, r) -> c3 = c2 /\ buf3 = buf2 /\ is_ok r = false).
Proof.
  intros cr c c1 c2 input buf b HB HL HR HE HP HA HT.
  destruct (accepts_core _ _ _ _ _ HA) as (out & HC).
  destruct (reachable_window _ _ HR) as ((H & HI) & _).
  destruct (accepted_request _ _ _ _ _ _ HB HL HP HC) as (E1 & [(_ & V & b' & t & EB & EW)|(X & _)]); [|congruence].
  injection EB as <- <-. assert (EV : be_val [b] = b) by reflexivity. rewrite EV in V.
  assert (S1 : spent b c1).
  { split; [exact E1|]. destruct (update_keeps H _ b HI) as (H' & HI' & _ & G). exists H'. rewrite EW. auto. }
  assert (S2 : spent b c2) by (eapply later_inv; [apply spent_step|exact HT|exact S1]).
  assert (K : same_keys c c2) by (eapply Proof_Send.same_keys_trans; [eapply accepts_keys; exact HA|eapply later_keys; exact HT]).
  split.
  - intros buf2. apply recv_err. eapply replay_error; try eassumption. 
  - intros input2 piv2 buf2 c3 buf3 r HB2 HL2 HP2 EV2 X. apply recv_result in X as (rc & X & _ & G).
    destruct (spent_refused _ _ _ _ _ HB2 HL2 S2 HP2 EV2 _ _ X) as [-> F]. split; [reflexivity|]. apply G. exact F.
Qed.
Print Assumptions C04_one_byte_partial.

(** The request that completes the Echo exchange is protected whatever its number,
    and so is every request with a smaller number. *)
Theorem C04_after_echo :
  forall (cr : crypto) (c c1 c2 : ctx) (input buf piv : bytes),
  is_bytes input -> lenN input < 2 ^ 32 ->
  c_echo c = ECHO_VERIFY -> request_packet input piv -> accepts cr c input buf c1 -> later cr c1 c2 ->
  (forall buf2, oscore2coap cr c2 input buf2 =
     (c2, buf2, Err (if OSCORE_SSN_OVERFLOW_VALUE <=? c_ssn c2 then oscore_ssn_overflow
                     else oscore_replay_window_protection_error))) /\
  (forall input2 piv2 buf2 c3 buf3 r, is_bytes input2 -> lenN input2 < 2 ^ 32 ->
     request_packet input2 piv2 -> be_val piv2 <= be_val piv ->
     oscore2coap cr c2 input2 buf2 = (c3, buf3, r) -> c3 = c2 /\ buf3 = buf2 /\ is_ok r = false).
Proof.
  intros cr c c1 c2 input buf piv HB HL HE HP HA HT.
  destruct (accepts_core _ _ _ _ _ HA) as (out & HC).
  destruct (accepted_request _ _ _ _ _ _ HB HL HP HC) as (E1 & [(X & _)|(_ & EW)]); [congruence|].
  assert (S2 : forall n, n <= be_val piv -> spent n c2).
  { intros n Hn. eapply later_inv; [apply spent_step|exact HT|]. split; [exact E1|].
    exists (Spec_Replay.upto (be_val piv)). rewrite EW. split; [apply reinit_inv|]. apply upto_In. exact Hn. }
  assert (K : same_keys c c2) by (eapply Proof_Send.same_keys_trans; [eapply accepts_keys; exact HA|eapply later_keys; exact HT]).
  split.
  - intros buf2. apply recv_err. eapply replay_error; try eassumption. apply S2. lia.
  - intros input2 piv2 buf2 c3 buf3 r HB2 HL2 HP2 EV2 X. apply recv_result in X as (rc & X & _ & G).
    destruct (spent_refused _ _ _ _ _ HB2 HL2 (S2 _ EV2) HP2 eq_refl _ _ X) as [-> F]. split; [reflexivity|]. apply G. exact F.
Qed.
Print Assumptions C04_after_echo.

(** Larger numbers: see C04_two_byte_refuted in Prop_Replayed.v. *)
Definition toy_request (ssn : N) : bytes := snd (toy_send (set_ssn toy_client ssn) (toy_get 5)).

(** The hypotheses of C04_one_byte_partial can be met. *)
Example C04_example :
  reachable toy_crypto toy_server /\ c_echo toy_server = ECHO_SYNCHRONIZED /\ request_packet (toy_request 200) [200] /\
  exists c1, accepts toy_crypto toy_server (toy_request 200) toy_out c1 /\
    oscore2coap toy_crypto c1 (toy_request 200) toy_out = (c1, toy_out, Err oscore_replay_window_protection_error).
Proof.
  split; [exists (toy_params [2] [1] true), (Ok 0), (repeat 0 13), (repeat 0 12), 0, toy_server, []; split; reflexivity|].
  split; [reflexivity|]. split.
  { eexists. split; [split; [vm_compute; reflexivity|eexists; split; vm_compute; reflexivity]|]. vm_compute. reflexivity. }
  exists (fst (toy_recv toy_server (toy_request 200))). split.
  - exists (written (toy_get 5) toy_out), 7. vm_compute. reflexivity.
  - vm_compute. reflexivity.
Qed.

(** ** C05 *)

(** Packets with an (outer) Observe option are accepted only with strictly growing
    Partial IVs. Missing from the full property: an attacker can remove the outer
    Observe option, see C05_stripped_refuted in Prop_Stripped.v. *)
Theorem C05_monotone_partial :
  forall (cr : crypto) (c c1 c2 c3 : ctx) (input1 buf1 piv1 input2 buf2 piv2 : bytes),
  is_bytes input1 -> lenN input1 < 2 ^ 32 -> is_bytes input2 -> lenN input2 < 2 ^ 32 ->
  response_packet input1 piv1 true -> response_packet input2 piv2 true ->
  accepts cr c input1 buf1 c1 -> later cr c1 c2 -> accepts cr c2 input2 buf2 c3 ->
  be_val piv1 < be_val piv2.
Proof.
  intros cr c c1 c2 c3 i1 b1 p1 i2 b2 p2 HB1 HL1 HB2 HL2 R1 R2 A1 L A2.
  apply accepts_core in A1 as (o1 & A1). apply accepts_core in A2 as (o2 & A2).
  destruct (accepted_notification _ _ _ _ _ _ HB1 HL1 R1 A1) as (S1 & _).
  destruct (accepted_notification _ _ _ _ _ _ HB2 HL2 R2 A2) as (_ & _ & G).
  destruct (later_inv _ _ (seen_step cr (be_val p1)) _ _ L S1) as [I LE]. specialize (G I). lia.
Qed.
Print Assumptions C05_monotone_partial.

(** A refused notification of that kind changes nothing and delivers nothing. *)
Theorem C05_old_rejected :
  forall (cr : crypto) (c c' : ctx) (input buf piv buf' : bytes) (r : res N),
  is_bytes input -> lenN input < 2 ^ 32 -> response_packet input piv true ->
  c_notif_init c = true -> be_val piv <= c_notif c ->
  oscore2coap cr c input buf = (c', buf', r) -> c' = c /\ buf' = buf /\ is_ok r = false.
Proof.
  intros cr c c' input buf piv buf' r HB HL HR HI HN H.
  apply recv_result in H as (rc & H & _ & G).
  destruct HR as (k & HP & HC & HO). destruct (packet_piv _ _ _ HB HL HP) as (PB & P5 & PS).
  assert (X : c' = c /\ is_ok rc = false).
  { apply Proof_Recv.recv_core_inv in H as [X|(k' & o & _ & EK & EO & H)]; [exact X|].
    destruct (packet_fun input k k' piv (co_piv o) HP) as [-> EP]; [split; eauto|].
    assert (RQ : is_request k = false).
    { destruct (is_request k) eqn:E; [|reflexivity]. apply is_request_spec in E. lia. }
    rewrite RQ in H.
    assert (OB : is_observe (k_opts k) = true) by (apply is_observe_spec, HO; reflexivity).
    apply Proof_Recv.recv_response_inv in H as [X|(c1 & rd & D & OBS & _)]; [exact X|].
    destruct (OBS OB) as (_ & ssn' & E2 & L). rewrite EP, PS in E2. injection E2 as <-. specialize (L HI). lia. }
  destruct X as [-> F]. split; [reflexivity|]. apply G, F.
Qed.
Print Assumptions C05_old_rejected.

(** Client registered for notifications; two notifications of the server. *)
Definition toy_registered : ctx := fst (toy_send toy_client (toy_observe 5)).
Definition toy_note (n : N) : bytes :=
  let s := fst (toy_recv toy_server (snd (toy_send toy_client (toy_observe 5)))) in
  snd (toy_send (set_ssn s n) (toy_notify 5 n)).
Example C05_example :
  exists c1 c2, accepts toy_crypto toy_registered (toy_note 1) toy_out c1 /\ accepts toy_crypto c1 (toy_note 2) toy_out c2 /\
    oscore2coap toy_crypto c2 (toy_note 1) toy_out = (c2, toy_out, Err oscore_replay_notification_protection_error).
Proof.
  exists (fst (toy_recv toy_registered (toy_note 1))), (fst (toy_recv (fst (toy_recv toy_registered (toy_note 1))) (toy_note 2))).
  split; [eexists; eexists; vm_compute; reflexivity|]. split; [eexists; eexists; vm_compute; reflexivity|]. vm_compute. reflexivity.
Qed.
