(** Property C08: AEAD nonces of one sender within one boot. *)
From Verif Require Import Base Proof_Base Model_Common Model_Crypto Model_Cbor Model_OscorePrims Spec_OscorePrims Proof_OscorePrims
  Model_Coap Model_Interactions Model_Replay Spec_Replay Proof_Replay Model_Context
  Model_Send Model_Recv Model_Run Model_Toy Proof_Toy Model_ToyRun Spec_Interactions Proof_Interactions Proof_Send Proof_Recv
  Spec_Session Proof_Run Proof_Session Proof_Nonce.

(** Full statement: no two encryptions under the sender key of a context use the same
    nonce. It fails for responses without a Partial IV, see the two refutations
    below. Proved: it holds for all messages that carry a Partial IV, whatever
    happens in between. *)
Theorem C08_numbered_partial :
  forall (cr : crypto) (nw1 nw2 : N -> res unit) (c1 c1' c2 c2' : ctx) (in1 in2 b1 b2 n1 a1 p1 n2 a2 p2 : bytes) (o1 o2 : obs),
  (forall k m, lenN (cr_hmac cr k m) = 32) -> reachable cr c1 ->
  exec cr c1 (ASend nw1 in1 b1) = (c1', o1) -> ob_enc o1 = Some (n1, a1, p1) ->
  later cr c1' c2 ->
  exec cr c2 (ASend nw2 in2 b2) = (c2', o2) -> ob_enc o2 = Some (n2, a2, p2) ->
  ~ plain_response c1 in1 -> ~ plain_response c2 in2 ->
  n1 <> n2.
Proof.
  intros cr nw1 nw2 c1 c1' c2 c2' in1 in2 b1 b2 n1 a1 p1 n2 a2 p2 o1 o2 HL HR X1 E1 LT X2 E2 NP1 NP2 <-.
  pose proof (reachable_iv _ _ HL HR) as HI. pose proof (later_ssn _ _ _ LT) as LS. pose proof (later_keys _ _ _ LT) as K.
  pose proof (exec_keys _ _ _ _ _ X1) as (K1 & _). pose proof (same_keys_trans _ _ _ K1 K) as (_ & _ & EI & _ & ES & _).
  destruct (send_nonce _ _ _ _ _ _ _ _ _ _ X1 E1) as [(_ & S1 & _ & p & P1 & N1)|[X _]]; [|contradiction].
  destruct (send_nonce _ _ _ _ _ _ _ _ _ _ X2 E2) as [(_ & _ & _ & q & P2 & N2)|[X _]]; [|contradiction].
  rewrite EI, ES in N2. destruct (create_nonce_inj _ _ _ _ _ _ HI N1 N2) as [_ E].
  pose proof (ssn2piv_inj _ _ _ _ P1 P2 E). lia.
Qed.
Print Assumptions C08_numbered_partial.

(** All encryptions, when responses without Partial IV are sent directly after the
    request they answer. *)
Theorem C08_prompt_partial :
  forall (cr : crypto) (c c' : ctx) (ns : list bytes),
  (forall k m, lenN (cr_hmac cr k m) = 32) -> reachable cr c -> c_sid c <> c_rid c ->
  prompt cr c ns c' -> NoDup ns.
Proof.
  intros cr c c' ns HL HR HN HP.
  apply (prompt_nodup cr c ns c' HP (reachable_iv _ _ HL HR) HN (proj1 (reachable_window _ _ HR)) []); constructor.
Qed.
Print Assumptions C08_prompt_partial.

(** A response without Partial IV that is sent directly after any other message is encrypted with
    the nonce of that message, for all keys, contexts and messages. So whenever two requests are
    received before either is answered, both responses have the same nonce; the same goes for a response
    sent after a notification. *)
Theorem C08_two_pending_refuted :
  forall (cr : crypto) (nw1 nw2 : N -> res unit) (c1 c2 c3 : ctx) (in1 in2 b1 b2 n1 a1 p1 n2 a2 p2 : bytes) (o1 o2 : obs),
  exec cr c1 (ASend nw1 in1 b1) = (c2, o1) -> ob_enc o1 = Some (n1, a1, p1) ->
  plain_response c2 in2 -> exec cr c2 (ASend nw2 in2 b2) = (c3, o2) -> ob_enc o2 = Some (n2, a2, p2) ->
  n1 = n2.
Proof.
  intros cr nw1 nw2 c1 c2 c3 in1 in2 b1 b2 n1 a1 p1 n2 a2 p2 o1 o2 X1 E1 P2 X2 E2.
  destruct (send_nonce _ _ _ _ _ _ _ _ _ _ X2 E2) as [(X & _)|(_ & _ & -> & _)]; [contradiction|].
  destruct (send_nonce _ _ _ _ _ _ _ _ _ _ X1 E1) as [(_ & _ & E & _)|(_ & _ & _ & E)]; congruence.
Qed.
Print Assumptions C08_two_pending_refuted.

(** The nonce of a response without Partial IV is that of the request before it. So when a request
    is accepted twice, the answers have the same nonce. Requests with a number of at least 256 are
    accepted any number of times (C04_two_byte_refuted). *)
Theorem C08_replay_refuted :
  forall (cr : crypto) (nw1 nw2 : N -> res unit) (c c1 c2 d d1 d2 : ctx) (input piv b1 b2 b3 b4 in1 in2 n1 a1 p1 n2 a2 p2 : bytes) (o1 o2 : obs),
  is_bytes input -> lenN input < 2 ^ 32 -> request_packet input piv ->
  accepts cr c input b1 c1 -> exec cr c1 (ASend nw1 in1 b2) = (c2, o1) -> ob_enc o1 = Some (n1, a1, p1) -> plain_response c1 in1 ->
  later cr c2 d ->
  accepts cr d input b3 d1 -> exec cr d1 (ASend nw2 in2 b4) = (d2, o2) -> ob_enc o2 = Some (n2, a2, p2) -> plain_response d1 in2 ->
  n1 = n2.
Proof.
  intros cr nw1 nw2 c c1 c2 d d1 d2 input piv b1 b2 b3 b4 in1 in2 n1 a1 p1 n2 a2 p2 o1 o2 HB HL HP A1 X1 E1 P1 LT A2 X2 E2 P2.
  destruct (send_nonce _ _ _ _ _ _ _ _ _ _ X1 E1) as [(X & _)|(_ & _ & -> & _)]; [contradiction|].
  destruct (send_nonce _ _ _ _ _ _ _ _ _ _ X2 E2) as [(X & _)|(_ & _ & -> & _)]; [contradiction|].
  pose proof (request_nonce cr _ _ _ _ _ HB HL HP A1) as N1. pose proof (request_nonce cr _ _ _ _ _ HB HL HP A2) as N2.
  assert (K : same_keys c d).
  { eapply same_keys_trans; [eapply accepts_keys; exact A1|]. eapply same_keys_trans; [apply (exec_keys _ _ _ _ _ X1)|]. eapply later_keys; exact LT. }
  destruct K as (_ & _ & EI & _ & _ & _ & ER & _). rewrite EI, ER, N1 in N2. congruence.
Qed.
Print Assumptions C08_replay_refuted.

(** Two requests received before either is answered: both responses are encrypted
    with the nonce of the second request. *)
Definition toy_get_b (t : N) : bytes := [0x41; 1; 0; t; t; 0xb1; 98].
Definition toy_q1 : bytes := snd (toy_send toy_client (toy_get 5)).
Definition toy_q2 : bytes := snd (toy_send (fst (toy_send toy_client (toy_get 5))) (toy_get_b 6)).
Definition toy_two_pending : list api_call :=
  [ARecv toy_q1 toy_out; ARecv toy_q2 toy_out; ASend toy_nw (toy_content 5) toy_out; ASend toy_nw [0x61; 0x45; 0; 6; 6; 255; 110; 111] toy_out].
Example C08_two_pending_example :
  exists (c : ctx) (calls : list api_call) (o1 o2 o3 o4 : obs) (n a1 p1 a2 p2 : bytes),
    reachable toy_crypto c /\ snd (run toy_crypto c calls) = [o1; o2; o3; o4] /\
    is_ok (ob_res o1) = true /\ is_ok (ob_res o2) = true /\ is_ok (ob_res o3) = true /\ is_ok (ob_res o4) = true /\
    ob_enc o3 = Some (n, a1, p1) /\ ob_enc o4 = Some (n, a2, p2) /\ p1 <> p2.
Proof.
  exists toy_server, toy_two_pending. do 9 eexists. split.
  { exists (toy_params [2] [1] true), (Ok 0), (repeat 0 13), (repeat 0 12), 0, toy_server, []. split; vm_compute; reflexivity. }
  split; [vm_compute; reflexivity|]. do 4 (split; [vm_compute; reflexivity|]).
  split; [vm_compute; reflexivity|]. split; [vm_compute; reflexivity|]. vm_compute. discriminate.
Qed.

(** A request with a two-byte Partial IV is accepted again when replayed (C04), and the
    second answer is encrypted with the same nonce. *)
Definition toy_q300 : bytes := snd (toy_send (set_ssn toy_client 300) (toy_get 5)).
Definition toy_replayed : list api_call :=
  [ARecv toy_q300 toy_out; ASend toy_nw (toy_content 5) toy_out; ARecv toy_q300 toy_out; ASend toy_nw [0x61; 0x45; 0; 5; 5; 255; 110; 111] toy_out].
Example C08_replay_example :
  exists (c : ctx) (m : bytes) (calls : list api_call) (o1 o2 o3 o4 : obs) (n a1 p1 a2 p2 r1 r2 b1 b2 : bytes),
    reachable toy_crypto c /\ calls = [ARecv m b1; ASend toy_nw r1 b1; ARecv m b2; ASend toy_nw r2 b2] /\
    snd (run toy_crypto c calls) = [o1; o2; o3; o4] /\
    is_ok (ob_res o1) = true /\ is_ok (ob_res o2) = true /\ is_ok (ob_res o3) = true /\ is_ok (ob_res o4) = true /\
    ob_enc o2 = Some (n, a1, p1) /\ ob_enc o4 = Some (n, a2, p2) /\ p1 <> p2.
Proof.
  exists toy_server, toy_q300, toy_replayed. do 13 eexists. split.
  { exists (toy_params [2] [1] true), (Ok 0), (repeat 0 13), (repeat 0 12), 0, toy_server, []. split; vm_compute; reflexivity. }
  split; [reflexivity|].
  split; [vm_compute; reflexivity|]. do 4 (split; [vm_compute; reflexivity|]).
  split; [vm_compute; reflexivity|]. split; [vm_compute; reflexivity|]. vm_compute. discriminate.
Qed.

(** A server that answers two requests in turn and sends a request of its own. *)
Example C08_example : c_sid toy_server <> c_rid toy_server /\
  exists c' ns, prompt toy_crypto toy_server ns c' /\ length ns = 3%nat.
Proof.
  split; [vm_compute; discriminate|]. do 2 eexists. split.
  1: eapply (prompt_reply toy_crypto toy_server toy_q1 toy_out [0] _ toy_nw (toy_content 5) toy_out).
  - apply is_bytes_dec; vm_compute; reflexivity.
  - apply N.ltb_lt; vm_compute; reflexivity.
  - eexists. split; [split; [vm_compute; reflexivity|eexists; split; vm_compute; reflexivity]|apply N.ltb_lt; vm_compute; reflexivity].
  - eexists. eexists. vm_compute. reflexivity.
  - left; reflexivity.
  - vm_compute. reflexivity.
  - eapply (prompt_reply toy_crypto _ toy_q2 toy_out [1] _ toy_nw (toy_content 6) toy_out).
    + apply is_bytes_dec; vm_compute; reflexivity.
    + apply N.ltb_lt; vm_compute; reflexivity.
    + eexists. split; [split; [vm_compute; reflexivity|eexists; split; vm_compute; reflexivity]|apply N.ltb_lt; vm_compute; reflexivity].
    + eexists. eexists. vm_compute. reflexivity.
    + left; reflexivity.
    + vm_compute. reflexivity.
    + eapply (prompt_send toy_crypto _ toy_nw (toy_get 9) toy_out).
      * vm_compute. reflexivity.
      * intros (_ & k & EK & L & _). vm_compute in EK. injection EK as <-. cbn in L. lia.
      * apply prompt_end.
  - vm_compute. reflexivity.
Qed.
