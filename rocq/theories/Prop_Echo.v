(** Property C25: the Echo exchange after a reboot. Vocabulary in Spec_Session.v:
    [echo_in pt v] reads the Echo option of a plaintext, [challenged c0 calls v] says
    that a message with Echo value [v] was given to coap2oscore during the exchange. *)
From Verif Require Import Base Proof_Base Model_Common Model_Crypto Model_OscorePrims Model_Coap Spec_Coap Proof_Coap
  Model_Interactions Spec_Interactions Proof_Interactions Model_Context Model_Send Proof_Send
  Model_Recv Proof_Recv Model_Replay Model_Run Model_Toy Proof_Toy Model_ToyRun Spec_Options Proof_Options
  Spec_Session Proof_Run Proof_Session Proof_Echo.

(** ** C25 *)

(** Directly after the reboot no packet that comes as a request (outer code) is delivered;
    for other outer codes see C25_outer_code_refuted. The endpoint leaves that state only with the error first_request_after_reboot, on an authenticated request. *)
Theorem C25_none_after_reboot :
  forall (cr : crypto) (c c' : ctx) (input buf buf' : bytes) (r : res N),
  (forall k m, lenN (cr_hmac cr k m) = 32) -> reachable cr c -> c_echo c = ECHO_REBOOT ->
  oscore2coap cr c input buf = (c', buf', r) ->
  ((exists piv, request_packet input piv) -> is_ok r = false /\ buf' = buf) /\
  (c_echo c' <> ECHO_REBOOT ->
     c_echo c' = ECHO_VERIFY /\ r = Err first_request_after_reboot /\ exists k pt, authentic cr c input k pt /\ h_code (k_hdr k) < 32).
Proof.
  intros cr c c' input buf buf' r HL HR HE H. pose proof H as H0. apply recv_result in H as (rc & H & _ & G).
  assert (X : (is_ok rc = false /\ c_echo c' = ECHO_REBOOT) \/
    (rc = Err first_request_after_reboot /\ c_echo c' = ECHO_VERIFY /\ exists k pt, authentic cr c input k pt /\ h_code (k_hdr k) < 32) \/
    (c_echo c' = ECHO_REBOOT /\ ~ exists piv, request_packet input piv)).
  { pose proof (reachable_iv _ _ HL HR) as HI. pose proof (reachable_table _ _ HR) as HT.
    apply recv_core_inv in H as [[-> F]|(k & o & _ & EK & EO & H)]; [auto|].
    destruct (is_request k) eqn:RQ.
    - apply recv_request_inv in H as [[-> F]|(ssn & rd & KV & KL & _ & _ & c1 & D & H)]; [auto|].
      pose proof D as D'. apply decrypt_wrapper_effect in D' as ((_ & (_ & _ & _ & SE) & _) & _).
      destruct H as [(_ & -> & F)|(pt & out & -> & H)]; [left; split; congruence|].
      rewrite HE in H. destruct H as [-> ->]. right; left. split; [reflexivity|]. split; [reflexivity|]. exists k, pt.
      apply decrypt_wrapper_ok in D as (rp & rk & n & a & uri & O & _).
      split; [|apply is_request_spec; exact RQ].
      eapply opened_authentic; try eassumption; [|congruence]. intros _. auto.
    - right; right. split.
      + apply recv_response_inv in H as [[-> _]|(c1 & rd & D & _ & H)]; [auto|].
        apply decrypt_wrapper_effect in D as ((_ & (_ & _ & _ & SE) & _) & _).
        destruct H as [(_ & -> & _)|(pt & out & _ & _ & H)]; [congruence|].
        destruct (is_observe (k_opts k)); [destruct H as (s & _ & ->)|subst c']; cbn; congruence.
      + intros (piv & k' & (EK' & _) & RQ'). rewrite EK in EK'. injection EK' as <-. apply is_request_spec in RQ'. congruence. }
  split.
  - intros P. destruct X as [[F _]|[(-> & _)|(_ & F)]]; [| |contradiction].
    + apply G in F. tauto.
    + destruct (G eq_refl). tauto.
  - intros N. destruct X as [[_ F]|[(-> & E & A)|(F & _)]]; try congruence.
    split; [exact E|]. split; [|exact A]. apply (recv_err cr c input buf) in H. congruence.
Qed.
Print Assumptions C25_none_after_reboot.

(** A request that would be delivered if the endpoint were synchronised gets exactly
    that answer. *)
Theorem C25_first_request :
  forall (cr : crypto) (c c2 : ctx) (input buf piv : bytes),
  c_echo c = ECHO_REBOOT -> request_packet input piv -> accepts cr (set_echo c ECHO_SYNCHRONIZED) input buf c2 ->
  exists c', oscore2coap cr c input buf = (c', buf, Err first_request_after_reboot) /\ c_echo c' = ECHO_VERIFY.
Proof.
  intros cr c c2 input buf piv HE (k' & (EK' & _) & RQ') HA. apply accepts_core in HA as (out & H).
  unfold oscore2coap_core in H. apply tryc_ok in H as ([] & HF & H). apply tryc_ok in H as (k & EK & H).
  apply tryc_ok in H as (o & EO & H). apply tryc_ok in H as ([] & EB & H).
  assert (k' = k) as -> by congruence. apply is_request_spec in RQ'. rewrite RQ' in H.
  assert (HF' : check_context_freshness c = Ok tt) by exact HF.
  unfold recv_request in H. cbn [set_echo c_rid c_echo c_win] in H.
  destruct (negb (lenN (c_rid c) =? co_kid_len o)) eqn:E1; [discriminate H|].
  apply tryc_ok in H as (kid & EKV & H). destruct (negb (array_equals (c_rid c) kid)) eqn:E2; [discriminate H|].
  apply tryc_ok in H as (ssn & ES & H). destruct (negb (rw_valid ssn (c_win c))); [discriminate H|].
  rewrite decrypt_wrapper_echo in H.
  destruct (decrypt_wrapper cr c (Some o) k) as [c1 [[pt o2]|e|u]] eqn:ED; cbn [callc] in H; try discriminate H.
  pose proof ED as ED'. apply decrypt_wrapper_effect in ED' as ((_ & (_ & _ & _ & SE) & _) & _).
  exists (set_echo c1 ECHO_VERIFY). split; [|reflexivity]. apply recv_err.
  unfold oscore2coap_core. rewrite HF'. cbn [tryc]. rewrite EK. cbn [tryc]. rewrite EO. cbn [tryc]. rewrite EB. cbn [tryc].
  rewrite RQ'. unfold recv_request. rewrite E1, EKV. cbn [tryc]. rewrite E2, ES. cbn [tryc]. rewrite HE, ED. cbn [callc].
  rewrite SE, HE. reflexivity.
Qed.
Print Assumptions C25_first_request.

(** While the exchange runs, a protected message that is sent sets the value that is
    waited for: the value of an Echo option of that message. *)
Theorem C25_challenge :
  forall (cr : crypto) (nw : N -> res unit) (c : ctx) (s : sstate) (input buf wire : bytes) (n : N) (k : cpkt),
  is_bytes input -> lenN input < 2 ^ 32 -> c_echo c = ECHO_VERIFY ->
  coap_deserialize input = Ok k -> ~ (h_type (k_hdr k) = 2 /\ h_code (k_hdr k) = 0) ->
  coap2oscore cr nw c input buf = (s, wire, Ok n) ->
  exists o, In o (k_opts k) /\ o_num o = 252 /\ o_val o = takeN (c_echo_len (s_ctx s)) (c_echo_buf (s_ctx s)).
Proof.
  intros cr nw c s input buf wire n k HB HL HE EK HN H. unfold coap2oscore in H.
  destruct (coap2oscore_core cr nw c input) as [s1 rc] eqn:E.
  destruct rc as [[out|w]|e|u]; try discriminate H.
  - assert (s1 = s) as -> by (destruct (coap_serialize out (lenN buf)) as [w [[]|e|u]]; congruence).
    destruct (core_echo _ _ _ _ _ _ E) as [(_ & _ & X)|[(_ & k' & e & u & el & EK' & EI & EC)|(X & _)]]; [|  |congruence].
    { destruct (X HE out eq_refl). }
    assert (k' = k) as -> by congruence. apply cache_echo_spec in EC as (_ & o & HO & HN' & HV).
    destruct (split_inner_in _ _ _ _ _ _ HB HL EK EI HO HN') as (o' & A & B & C). exists o'. repeat split; auto. congruence.
  - apply core_inr in E as (_ & _ & k' & EK' & A & B). assert (k' = k) as -> by congruence. tauto.
Qed.
Print Assumptions C25_challenge.

(** Full statement: whenever a request is delivered after a reboot without fresh keys,
    a request was received before (or is this one) that is authenticated and whose Echo
    option equals an Echo value sent during the exchange. Proved with one exception: the
    Echo option may also equal [g], the bytes that the Echo buffer of the context held
    before oscore_context_init, which does not clear them. C25_stale_refuted (Prop_Stale.v) shows that
    this is a real case. And the request must have come with the outer code of a request,
    see C25_outer_code_refuted. *)
Theorem C25_answered_partial :
  forall (cr : crypto) (p : init_params) (nvm : res N) (g_nonce g : bytes) (g_notif : N) (c0 : ctx)
         (calls : list api_call) (input buf piv : bytes) (c' : ctx),
  (forall k m, lenN (cr_hmac cr k m) = 32) -> lenN g = 12 ->
  oscore_context_init cr p nvm g_nonce g g_notif = Ok c0 -> ip_fresh p = false ->
  Forall input_ok calls -> request_packet input piv ->
  accepts cr (fst (run cr c0 calls)) input buf c' ->
  exists pre input1 buf1 post v,
    calls ++ [ARecv input buf] = pre ++ ARecv input1 buf1 :: post /\
    (c_echo (fst (run cr c0 pre)) = ECHO_VERIFY /\
     exists k pt, authentic cr (fst (run cr c0 pre)) input1 k pt /\ h_code (k_hdr k) < 32 /\ echo_in pt v) /\
    (v = g \/ challenged cr c0 pre v).
Proof.
  intros cr p nvm gn g gf c0 calls input buf piv c' HL HG HI HF HC HP HA.
  assert (IV : lenN (c_iv c0) = 13) by (eapply init_iv; eassumption).
  assert (IT : table_ok (c_inter c0)) by (apply init_inter in HI as (-> & _); apply interactions_init_ok).
  assert (IE : c_echo c0 = ECHO_REBOOT /\ expected c0 = g).
  { unfold oscore_context_init in HI. destruct (negb _) in HI; [discriminate|]. destruct (negb _) in HI; [discriminate|].
    apply bind_ok in HI as (iv & _ & HI). destruct (_ <? _) in HI; [discriminate|].
    apply bind_ok in HI as (rk & _ & HI). apply bind_ok in HI as (ss & _ & HI). apply bind_ok in HI as (sk & _ & HI).
    injection HI as <-. cbn [c_echo expected c_echo_len c_echo_buf]. rewrite HF. split; [reflexivity|].
    unfold expected. cbn [c_echo_len c_echo_buf]. apply takeN_all. change ECHO_OPT_VALUE_LEN with 12. lia. }
  destruct IE as [IE IG].
  pose proof (history cr c0 g calls IV IT IE IG HC) as HH.
  assert (K : same_keys c0 (fst (run cr c0 calls)) /\ (table_ok (c_inter (fst (run cr c0 calls))))).
  { apply (run_inv cr (fun c => same_keys c0 c /\ table_ok (c_inter c))); [|split; [apply same_keys_refl|exact IT]].
    intros c b cc o [A B] X. apply exec_keys in X as [C D]. split; [eapply same_keys_trans; eassumption|auto]. }
  assert (HI' : lenN (c_iv (fst (run cr c0 calls))) = 13).
  { destruct K as [(_ & _ & E & _) _]. rewrite E. exact IV. }
  destruct K as [_ HT'].
  destruct HH as [[NS KE]|(S & pre & i & b & post & v & -> & A & KE)].
  - apply accepts_core in HA as (out & HA).
    exists calls, input, buf, [], (expected (fst (run cr c0 calls))). split; [reflexivity|]. split; [|exact KE].
    assert (EV : c_echo (fst (run cr c0 calls)) = ECHO_VERIFY).
    { destruct (c_echo (fst (run cr c0 calls))) eqn:EE; [|reflexivity|congruence].
      exfalso. apply recv_core_inv in HA as [[_ F]|(k & o & _ & EK & EO & H)]; [discriminate|].
      destruct HP as (k' & (EK' & _) & RQ'). assert (k' = k) as -> by congruence.
      apply is_request_spec in RQ'. rewrite RQ' in H.
      apply recv_request_inv in H as [[_ F]|(ssn & rd & KV & KL & _ & _ & c1 & D & H)]; [discriminate|].
      destruct H as [(_ & _ & F)|(pt & out' & _ & H)]; [discriminate|]. rewrite EE in H. destruct H as [_ H]. discriminate H. }
    eapply verify_request; try eassumption. right. exists piv. auto.
  - exists pre, i, b, (post ++ [ARecv input buf]), v. rewrite <- app_assoc. auto.
Qed.
Print Assumptions C25_answered_partial.

(** GET /a with token [t] and Echo value [e]; 4.01 with Echo value [e]. *)
Definition toy_get_echo (t : N) (e : bytes) : bytes := [0x41; 1; 0; t; t; 0xb1; 97; 0xdc; 228] ++ e.
Definition toy_unauthorized (t : N) (e : bytes) : bytes := [0x61; 0x81; 0; t; t; 0xdc; 239] ++ e.

(** A server that has rebooted, with an Echo buffer that holds zeros (memory that was
    never used), and a client that has seen no challenge: its second request is
    delivered, without any message sent by the server. *)
Definition toy_rebooted : ctx := toy_init [2] [1] false 0.
Definition toy_blind1 : bytes := snd (toy_send toy_client (toy_get_echo 5 (repeat 0 12))).
Definition toy_blind2 : bytes := snd (toy_send (fst (toy_send toy_client (toy_get 5))) (toy_get_echo 6 (repeat 0 12))).
Example C25_stale_ex :
  oscore_context_init toy_crypto (toy_params [2] [1] false) (Ok 0) (repeat 0 13) (repeat 0 12) 0 = Ok toy_rebooted /\
  c_echo toy_rebooted = ECHO_REBOOT /\
  snd (toy_recv toy_rebooted toy_blind1) = Err first_request_after_reboot /\
  snd (toy_recv (fst (toy_recv toy_rebooted toy_blind1)) toy_blind2) = Ok (toy_get_echo 6 (repeat 0 12)) /\
  forall buf v, ~ challenged toy_crypto toy_rebooted [ARecv toy_blind1 buf] v.
Proof.
  split; [vm_compute; reflexivity|]. split; [vm_compute; reflexivity|].
  split; [vm_compute; reflexivity|]. split; [vm_compute; reflexivity|].
  intros buf v (pre & nw & i & b & post & k & o & E & _).
  destruct pre as [|a [|a' pre]]; discriminate E.
Qed.

(** The regular exchange: request, 4.01 with Echo value 1 .. 12, wrong answer, right
    answer. *)
Definition toy_echo : bytes := [1; 2; 3; 4; 5; 6; 7; 8; 9; 10; 11; 12].
Definition toy_ex1 : ctx * res bytes := toy_recv toy_rebooted (snd (toy_send toy_client (toy_get 5))).
Definition toy_ex2 : ctx * bytes := toy_send (fst toy_ex1) (toy_unauthorized 5 toy_echo).
Definition toy_ex3 : ctx * res bytes := toy_recv (fst toy_ex2) (snd (toy_send toy_client (toy_get_echo 6 (repeat 0 12)))).
Definition toy_ex4 : ctx * res bytes := toy_recv (fst toy_ex3) (snd (toy_send toy_client (toy_get_echo 6 toy_echo))).
Example C25_example :
  snd toy_ex1 = Err first_request_after_reboot /\ lenN (snd toy_ex2) = 33 /\
  snd toy_ex3 = Err echo_validation_failed /\ snd toy_ex4 = Ok (toy_get_echo 6 toy_echo) /\
  c_echo (fst toy_ex4) = ECHO_SYNCHRONIZED.
Proof. repeat split; vm_compute; reflexivity. Qed.
