(** Property C04 for sequence numbers of two or more bytes: there is no replay protection. *)
From Verif Require Import Base Proof_Base Model_Common Model_Crypto Model_Cbor Model_OscorePrims Model_Coap Spec_Coap Proof_Coap
  Model_Interactions Spec_Interactions Proof_Interactions Model_Context Model_Send Proof_Send Model_Recv Proof_Recv Model_Replay Spec_Replay Proof_Replay Model_Run Spec_Session Proof_Run Proof_Session
  Spec_OuterCode Proof_OuterCode Prop_OuterCode Spec_Replayed Proof_Replayed Model_Toy Proof_Toy Model_ToyRun.

(** The property fails for every key, every reachable context and every request with a
    sequence number of at least 256 that is delivered outside the Echo exchange: the same packet is delivered again, any
    number of times, always with the same output. *)
Theorem C04_two_byte_refuted :
  forall (cr : crypto) (c c1 : ctx) (input buf out piv : bytes) (n : N),
  crypto_ok cr -> reachable cr c -> c_echo c = ECHO_SYNCHRONIZED ->
  is_bytes input -> lenN input < 2 ^ 32 -> lenN buf < 2 ^ 32 -> request_packet input piv -> 256 <= be_val piv ->
  oscore2coap cr c input buf = (c1, out, Ok n) -> is_request_message (takeN n out) ->
  forall m, exists c', delivered cr m c1 input buf out n c'.
Proof.
  intros cr c c1 input buf out piv n OK HR HE HB HL HBL (k & HP & HC) HV H HM m.
  destruct HP as (EK & o & EO & EP). destruct (packet_piv input k piv HB HL) as (PB & _ & PS); [split; eauto|].
  apply is_request_spec in HC.
  assert (G : table_ok (c_inter c1) /\ exists ok w, oscore2coap_core cr c input = (c1, Ok ok) /\ coap_serialize ok (lenN buf) = (w, Ok tt) /\
     out = written w buf /\ n = lenN w /\ is_request ok = true).
  { unfold oscore2coap in H. destruct (oscore2coap_core cr c input) as [c1' [ok|e|u]] eqn:C; try discriminate.
    destruct (coap_serialize ok (lenN buf)) as [w [[]|e|u]] eqn:SR; try discriminate. injection H as <- <- <-.
    pose proof C as C'. destruct (request_accepted cr _ _ _ _ _ _ C' EK EO HC HE) as (c2 & pt & b & t & D & _).
    split. { pose proof C as C2. apply recv_core_effect in C2 as (_ & T). apply T, (reachable_table _ _ HR). }
    exists ok, w. conj; auto.
    pose proof D as D'. apply decrypt_wrapper_ok in D' as (rpiv & rkid & nonce & aad & uri & OP & _ & PG & _).
    destruct (opened_bytes cr c (Some o) k rpiv rkid nonce aad pt input OK HB HL EK OP) as [PB' PL].
    eapply (delivered_code cr input k pt ok buf); eassumption. }
  destruct G as (HT1 & ok & w & C & SR & -> & -> & RO).
  destruct (reachable_window _ _ HR) as ((Hh & HI) & _).
  (* invariant: the last call was successful and left a window where the number is valid *)
  assert (K : forall d d', table_ok (c_inter d) -> c_echo d = ECHO_SYNCHRONIZED -> (exists H0, Inv H0 (c_win d)) ->
      rw_valid (be_val piv) (c_win d) = true -> oscore2coap_core cr d input = (d', Ok ok) ->
      c_echo d' = ECHO_SYNCHRONIZED /\ (exists H0, Inv H0 (c_win d')) /\ rw_valid (be_val piv) (c_win d') = true).
  { intros d d' Td Ed (H0 & I0) Vd Cd. destruct (request_accepted cr _ _ _ _ _ _ Cd EK EO HC Ed) as (c2 & pt & b & t & D & EB & ->).
    apply decrypt_wrapper_effect in D as ((_ & (SW & _ & _ & SE) & _) & _). cbn [set_win c_echo c_win].
    assert (LB : b < 256). { rewrite <- EP, EB in PB. apply Forall_inv in PB. exact PB. }
    split; [congruence|]. split; [destruct (update_keeps H0 _ b I0) as (H' & I' & _); eauto|].
    rewrite (update_smaller H0); [exact Vd|exact I0|lia]. }
  assert (V0 : rw_valid (be_val piv) (c_win c) = true).
  { destruct (accepted_request cr c input c1 ok piv HB HL) as (_ & [(_ & V & _)|(X & _)]); [exists k; split; [split; eauto|apply is_request_spec; exact HC]|exact C|exact V|congruence]. }
  assert (M : forall m d d', table_ok (c_inter d) -> c_echo d = ECHO_SYNCHRONIZED -> (exists H0, Inv H0 (c_win d)) ->
      rw_valid (be_val piv) (c_win d) = true -> oscore2coap_core cr d input = (d', Ok ok) ->
      exists c', delivered cr m d' input buf (written w buf) (lenN w) c').
  { clear m. induction m as [|m IH]; intros d d' Td Ed Id Vd Cd; [exists d'; reflexivity|].
    destruct (K d d' Td Ed Id Vd Cd) as (Ed' & Id' & Vd').
    destruct (request_again cr d input d' ok k o Td Cd EK EO HC RO Ed) as (w' & Cd').
    { intros n0 E. rewrite EP, PS in E. injection E as <-. exact Vd'. }
    assert (Td' : table_ok (c_inter d')) by (apply recv_core_effect in Cd as (_ & T); apply T, Td).
    destruct (IH d' (set_win d' w') Td' Ed' Id' Vd' Cd') as (c' & X). exists c'. cbn [delivered].
    exists (set_win d' w'). split; [|exact X]. unfold oscore2coap. rewrite Cd', SR. reflexivity. }
  eapply (M m c c1); try eassumption; [apply (reachable_table _ _ HR)|eauto].
Qed.
Print Assumptions C04_two_byte_refuted.

(** And not only at once: a context that was created as fresh keeps, after any history of
    calls, no memory of the requests with a number of at least 256. They get the same answer as from a
    context whose window has never been used. *)
Theorem C04_no_memory_refuted :
  forall (cr : crypto) (p : init_params) (nvm : res N) (gn ge : bytes) (gf : N) (c0 : ctx) (calls : list api_call)
         (input buf piv : bytes),
  oscore_context_init cr p nvm gn ge gf = Ok c0 -> ip_fresh p = true -> Forall call_ok calls ->
  is_bytes input -> lenN input < 2 ^ 32 -> request_packet input piv -> 256 <= be_val piv ->
  let c := fst (run cr c0 calls) in
  let '(_, buf1, r1) := oscore2coap cr c input buf in
  let '(_, buf2, r2) := oscore2coap cr (set_win c rw_init) input buf in
  buf1 = buf2 /\ r1 = r2.
Proof.
  intros cr p nvm gn ge gf c0 calls input buf piv HI HF HC HB HL (k & HP & HQ) HV c.
  assert (Y : young c).
  { apply young_run; [exact HC|]. apply init_inter in HI as (_ & EW & _ & EE & _). rewrite HF in EE.
    split; [exact EE|]. exists []. rewrite EW. split; [apply init_inv|constructor]. }
  destruct (packet_piv input k piv HB HL HP) as (_ & _ & PS). destruct HP as (EK & o & EO & EP).
  pose proof (window_idle cr c rw_init input k o (be_val piv) EK EO (proj2 (is_request_spec k) HQ) ltac:(rewrite EP; exact PS)
    (young_valid c _ Y HV)) as X.
  assert (VI : rw_valid (be_val piv) rw_init = true).
  { apply (young_valid (set_win c rw_init) (be_val piv)); [|exact HV]. destruct Y as [E _]. split; [exact E|]. exists []. split; [apply init_inv|constructor]. }
  specialize (X VI). unfold oscore2coap.
  destruct (oscore2coap_core cr c input) as [c1 r1], (oscore2coap_core cr (set_win c rw_init) input) as [c2 r2]. cbn [snd] in X. subst r2.
  destruct r1 as [out|e|u]; [|auto|auto]. destruct (coap_serialize out (lenN buf)) as [w [[]|e|u]]; auto.
Qed.
Print Assumptions C04_no_memory_refuted.

(** GET /a of the toy client with number 256, to a server in operation. *)
Definition toy_request256 : bytes := snd (toy_send (set_ssn toy_client 256) (toy_get 5)).
Example C04_two_byte_example :
  reachable toy_crypto toy_server /\ c_echo toy_server = ECHO_SYNCHRONIZED /\ is_bytes toy_request256 /\
  request_packet toy_request256 [1; 0] /\ is_request_message (takeN 7 (written (toy_get 5) toy_out)) /\
  oscore2coap toy_crypto toy_server toy_request256 toy_out =
    (fst (toy_recv toy_server toy_request256), written (toy_get 5) toy_out, Ok 7) /\
  oscore_context_init toy_crypto (toy_params [2] [1] true) (Ok 0) (repeat 0 13) (repeat 0 12) 0 = Ok toy_server.
Proof.
  assert (I : oscore_context_init toy_crypto (toy_params [2] [1] true) (Ok 0) (repeat 0 13) (repeat 0 12) 0 = Ok toy_server) by (vm_compute; reflexivity).
  split. { exists (toy_params [2] [1] true), (Ok 0), (repeat 0 13), (repeat 0 12), 0, toy_server, []. split; [exact I|reflexivity]. }
  split; [vm_compute; reflexivity|]. split; [apply is_bytes_dec; vm_compute; reflexivity|]. split.
  { eexists. split; [split; [vm_compute; reflexivity|eexists; split; vm_compute; reflexivity]|]. vm_compute. reflexivity. }
  split. { exists 1. split; [vm_compute; reflexivity|lia]. }
  split; [vm_compute; reflexivity|exact I].
Qed.
