(** Properties C04 and C25 again: the outer code of a packet is not authenticated, and the
    code decides with it whether replay window and Echo challenge apply. *)
From Verif Require Import Base Proof_Base Model_Common Model_Crypto Model_OscorePrims Model_Coap Spec_Coap Proof_Coap
  Model_Interactions Spec_Interactions Proof_Interactions Model_Context Model_Send Proof_Send
  Model_Recv Proof_Recv Model_Replay Model_Run Proof_Options Spec_Session Proof_Run Proof_Session Proof_Echo Spec_OuterCode Proof_OuterCode
  Model_Toy Proof_Toy Model_ToyRun.

Lemma no_observe k : (forall o, In o (k_opts k) -> o_num o <> 6) -> is_observe (k_opts k) = false.
Proof.
  intros H. unfold is_observe. destruct (existsb _ _) eqn:E; [|reflexivity]. apply existsb_exists in E as (o & Ho & E).
  apply N.eqb_eq in E. destruct (H o Ho E).
Qed.

Lemma response_again cr c o k c1 pt out code w e : table_ok (c_inter c) ->
  decrypt_wrapper cr c (Some o) k = (c1, Ok (pt, out)) -> is_request k = true -> is_request out = true -> 32 <= code ->
  is_observe (k_opts k) = false -> co_piv o <> [] ->
  recv_response cr (set_echo (set_win c1 w) e) o (set_code code k) = (set_echo (set_win c1 w) e, Ok out).
Proof.
  intros HT D RQ RO HC NO NP. unfold recv_response. cbn [set_code k_opts]. rewrite NO.
  destruct (co_piv o) as [|b t] eqn:EP; [congruence|].
  fold (set_code code k). rewrite (decrypt_again cr c o k pt out c1 code w e HT D RQ RO HC). reflexivity.
Qed.

Lemma core_again cr c input k o c1 pt out code w e : table_ok (c_inter c) ->
  check_context_freshness c = Ok tt -> coap_deserialize input = Ok k -> oscore_option_parser (k_opts k) = Ok o ->
  byte_array_new MAX_PLAINTEXT_LEN (sub32 (lenN (k_payload k)) AUTH_TAG_LEN) = Ok tt ->
  decrypt_wrapper cr c (Some o) k = (c1, Ok (pt, out)) -> is_request k = true -> is_request out = true -> 32 <= code ->
  is_observe (k_opts k) = false -> co_piv o <> [] ->
  oscore2coap_core cr (set_echo (set_win c1 w) e) (recode code input) = (set_echo (set_win c1 w) e, Ok out).
Proof.
  intros HT HF EK EO EB D RQ RO HC NO NP. unfold oscore2coap_core.
  assert (CF : check_context_freshness (set_echo (set_win c1 w) e) = Ok tt).
  { pose proof D as D'. apply decrypt_wrapper_effect in D' as ((_ & _ & S & _) & _).
    unfold check_context_freshness in *. cbn [set_echo set_win c_ssn]. rewrite S. exact HF. }
  rewrite CF. cbn [tryc]. rewrite (recode_parse code input k EK). cbn [tryc]. cbn [set_code k_opts k_payload]. fold (set_code code k). rewrite EO. cbn [tryc].
  rewrite EB. cbn [tryc].
  assert (F : is_request (set_code code k) = false) by (rewrite is_request_code'; apply N.ltb_ge; exact HC).
  rewrite F. exact (response_again cr c o k c1 pt out code w e HT D RQ RO HC NO NP).
Qed.

Lemma opened_bytes cr c nn k rpiv rkid nonce aad pt input : crypto_ok cr -> is_bytes input -> lenN input < 2 ^ 32 -> coap_deserialize input = Ok k ->
  opened cr c nn k rpiv rkid nonce aad pt -> is_bytes pt /\ lenN pt < 2 ^ 32.
Proof.
  intros OK HB HL EK (_ & _ & CA & DE).
  destruct (coap_parse_sound _ _ EK HB HL) as ((_ & _ & _ & PL & _) & _ & _ & _ & _ & PB & _).
  pose proof (cose_decrypt_rfc cr _ _ _ _ _ _ _ _ CA DE) as X.
  split; [eapply ok_aead_dec_bytes; eassumption|]. apply ok_aead_dec_len in X; [|exact OK]. lia.
Qed.

(** The property fails for every key, context and request: a request that was delivered
    is delivered again, byte for byte, when it comes with the code of a response in the
    unprotected header. The context is the same before and after, so this works any
    number of times, until the application has answered the request. *)
Theorem C04_outer_code_refuted :
  forall (cr : crypto) (c c1 : ctx) (input buf out piv : bytes) (k : cpkt) (n code : N),
  crypto_ok cr -> reachable cr c -> is_bytes input -> lenN input < 2 ^ 32 -> lenN buf < 2 ^ 32 ->
  packet input k piv -> h_code (k_hdr k) < 32 -> piv <> [] -> (forall o, In o (k_opts k) -> o_num o <> 6) ->
  oscore2coap cr c input buf = (c1, out, Ok n) -> is_request_message (takeN n out) -> 32 <= code ->
  oscore2coap cr c1 (recode code input) buf = (c1, out, Ok n).
Proof.
  intros cr c c1 input buf out piv k n code OK HR HB HL HBL (EK & o & EO & EP) HQ NP NO H HM HC.
  pose proof (reachable_table _ _ HR) as HT. apply is_request_spec in HQ. apply no_observe in NO.
  unfold oscore2coap in H. destruct (oscore2coap_core cr c input) as [c1' [ok0|e|u]] eqn:C; try discriminate.
  destruct (coap_serialize ok0 (lenN buf)) as [w [[]|e|u]] eqn:SR; try discriminate. injection H as -> <- <-.
  unfold oscore2coap_core in C. apply tryc_ok in C as ([] & HF & C). apply tryc_ok in C as (k' & EK' & C).
  assert (k' = k) as -> by congruence. apply tryc_ok in C as (o' & EO' & C). assert (o' = o) as -> by congruence.
  apply tryc_ok in C as ([] & EB & C). rewrite HQ in C.
  unfold recv_request in C. destruct (negb _) in C; [discriminate|]. apply tryc_ok in C as (kid & KV & C). destruct (negb _) in C; [discriminate|].
  apply tryc_ok in C as (ssn & ES & C). destruct (match c_echo c with ECHO_SYNCHRONIZED => _ | _ => _ end) in C; [discriminate|].
  apply callc_ok in C as (c2 & [pt out] & D & C).
  assert (X : exists w' e', c1 = set_echo (set_win c2 w') e' /\ ok0 = out).
  { destruct (c_echo c2) eqn:E2.
    - discriminate.
    - destruct (echo_val_is_fresh _ pt) as [x|e|u]; try discriminate. injection C as <- <-. eauto.
    - destruct (co_piv o) as [|b t]; [discriminate|]. injection C as <- <-.
      exists (snd (rw_update b (c_win c2))), ECHO_SYNCHRONIZED. split; [|reflexivity]. rewrite <- E2. destruct c2; reflexivity. }
  destruct X as (w' & e' & -> & ->).
  assert (RO : is_request out = true).
  { pose proof D as D'. apply decrypt_wrapper_ok in D' as (rpiv & rkid & nonce & aad & uri & OP & _ & PG & _).
    destruct (opened_bytes cr c (Some o) k rpiv rkid nonce aad pt input OK HB HL EK OP) as [PB PL].
    eapply (delivered_code cr input k pt out buf); eassumption. }
  unfold oscore2coap.
  rewrite (core_again cr c input k o c2 pt out code w' e' HT HF EK EO EB D HQ RO HC NO ltac:(congruence)), SR. reflexivity.
Qed.
Print Assumptions C04_outer_code_refuted.

(** The same after a reboot: the first request is refused with the demand to challenge
    the client, but then the very same packet with the code of a response is delivered,
    without any challenge: the output is that of an endpoint that does not know about
    the reboot. So an attacker can replay a request recorded before the reboot. *)
Theorem C25_outer_code_refuted :
  forall (cr : crypto) (c c' c1 : ctx) (input buf out piv : bytes) (k : cpkt) (n code : N),
  crypto_ok cr -> reachable cr c -> is_bytes input -> lenN input < 2 ^ 32 -> lenN buf < 2 ^ 32 ->
  packet input k piv -> h_code (k_hdr k) < 32 -> piv <> [] -> (forall o, In o (k_opts k) -> o_num o <> 6) ->
  c_echo c = ECHO_REBOOT ->
  oscore2coap cr (set_echo c ECHO_SYNCHRONIZED) input buf = (c', out, Ok n) -> is_request_message (takeN n out) ->
  oscore2coap cr c input buf = (c1, buf, Err first_request_after_reboot) -> 32 <= code ->
  oscore2coap cr c1 (recode code input) buf = (c1, out, Ok n).
Proof.
  intros cr c c' c1 input buf out piv k n code OK HR HB HL HBL (EK & o & EO & EP) HQ NP NO HE H HM H1 HC.
  pose proof (reachable_table _ _ HR) as HT. apply is_request_spec in HQ. apply no_observe in NO.
  unfold oscore2coap in H. destruct (oscore2coap_core cr _ input) as [c1' [ok0|e|u]] eqn:C in H; try discriminate.
  destruct (coap_serialize ok0 (lenN buf)) as [w [[]|e|u]] eqn:SR; try discriminate. injection H as -> <- <-.
  unfold oscore2coap_core in C. apply tryc_ok in C as ([] & HF & C). apply tryc_ok in C as (k' & EK' & C).
  assert (k' = k) as -> by congruence. apply tryc_ok in C as (o' & EO' & C). assert (o' = o) as -> by congruence.
  apply tryc_ok in C as ([] & EB & C). rewrite HQ in C.
  unfold recv_request in C. cbn [set_echo c_rid c_echo c_win] in C.
  destruct (negb (lenN (c_rid c) =? co_kid_len o)) eqn:E1; [discriminate C|].
  apply tryc_ok in C as (kid & KV & C). destruct (negb (array_equals (c_rid c) kid)) eqn:E2; [discriminate C|].
  apply tryc_ok in C as (ssn & ES & C). destruct (negb (rw_valid ssn (c_win c))) in C; [discriminate|].
  fold (set_echo c ECHO_SYNCHRONIZED) in C. rewrite decrypt_wrapper_echo in C.
  destruct (decrypt_wrapper cr c (Some o) k) as [c2 [[pt out]|e|u]] eqn:D; cbn [callc] in C; try discriminate C.
  assert (ok0 = out) as ->.
  { cbn [set_echo c_echo] in C. destruct (co_piv o) as [|b t]; [discriminate|]. injection C as _ <-. reflexivity. }
  assert (HF' : check_context_freshness c = Ok tt) by exact HF.
  assert (C1 : c1 = set_echo c2 ECHO_VERIFY).
  { unfold oscore2coap in H1. unfold oscore2coap_core in H1. rewrite HF' in H1. cbn [tryc] in H1. rewrite EK in H1. cbn [tryc] in H1.
    rewrite EO in H1. cbn [tryc] in H1. rewrite EB in H1. cbn [tryc] in H1. rewrite HQ in H1. unfold recv_request in H1.
    rewrite E1, KV in H1. cbn [tryc] in H1. rewrite E2, ES in H1. cbn [tryc] in H1. rewrite HE, D in H1. cbn [callc] in H1.
    pose proof D as D'. apply decrypt_wrapper_effect in D' as ((_ & (_ & _ & _ & SE) & _) & _). rewrite SE, HE in H1. congruence. }
  assert (RO : is_request out = true).
  { pose proof D as D'. apply decrypt_wrapper_ok in D' as (rpiv & rkid & nonce & aad & uri & OP & _ & PG & _).
    destruct (opened_bytes cr c (Some o) k rpiv rkid nonce aad pt input OK HB HL EK OP) as [PB PL].
    eapply (delivered_code cr input k pt out buf); eassumption. }
  assert (EC : set_echo c2 ECHO_VERIFY = set_echo (set_win c2 (c_win c2)) ECHO_VERIFY) by (destruct c2; reflexivity).
  rewrite C1, EC. unfold oscore2coap.
  rewrite (core_again cr c input k o c2 pt out code (c_win c2) ECHO_VERIFY HT HF' EK EO EB D HQ RO HC NO ltac:(congruence)), SR. reflexivity.
Qed.
Print Assumptions C25_outer_code_refuted.

(** GET /a of the toy client, to a server in operation and to one after a reboot. *)
Definition toy_req5 : bytes := snd (toy_send toy_client (toy_get 5)).
Definition toy_reboot : ctx := toy_init [2] [1] false 0.
Lemma toy_packet : exists k, packet toy_req5 k [0] /\ h_code (k_hdr k) < 32 /\ (forall o, In o (k_opts k) -> o_num o <> 6).
Proof.
  eexists. split; [split; [vm_compute; reflexivity|eexists; split; vm_compute; reflexivity]|].
  split; [vm_compute; reflexivity|]. intros o [<-|[]]. discriminate.
Qed.
Example C04_outer_code_example :
  reachable toy_crypto toy_server /\ is_bytes toy_req5 /\
  (exists c1 out n, oscore2coap toy_crypto toy_server toy_req5 toy_out = (c1, out, Ok n) /\ is_request_message (takeN n out)) /\
  snd (toy_recv (fst (toy_recv toy_server toy_req5)) toy_req5) = Err oscore_replay_window_protection_error /\
  snd (toy_recv (fst (toy_recv toy_server toy_req5)) (recode 0x44 toy_req5)) = Ok (toy_get 5).
Proof.
  split; [exists (toy_params [2] [1] true), (Ok 0), (repeat 0 13), (repeat 0 12), 0, toy_server, []; split; vm_compute; reflexivity|].
  split; [apply is_bytes_dec; vm_compute; reflexivity|]. split; [|split; vm_compute; reflexivity].
  do 3 eexists. split; [vm_compute; reflexivity|]. exists 1. split; [vm_compute; reflexivity|split; reflexivity].
Qed.
Example C25_outer_code_example :
  reachable toy_crypto toy_reboot /\ c_echo toy_reboot = ECHO_REBOOT /\
  (exists c' out n, oscore2coap toy_crypto (set_echo toy_reboot ECHO_SYNCHRONIZED) toy_req5 toy_out = (c', out, Ok n) /\ is_request_message (takeN n out)) /\
  snd (toy_recv toy_reboot toy_req5) = Err first_request_after_reboot /\
  snd (toy_recv (fst (toy_recv toy_reboot toy_req5)) (recode 0x44 toy_req5)) = Ok (toy_get 5).
Proof.
  split; [exists (toy_params [2] [1] false), (Ok 0), (repeat 0 13), (repeat 0 12), 0, toy_reboot, []; split; vm_compute; reflexivity|].
  split; [vm_compute; reflexivity|]. split; [|split; vm_compute; reflexivity].
  do 3 eexists. split; [vm_compute; reflexivity|]. exists 1. split; [vm_compute; reflexivity|split; reflexivity].
Qed.
