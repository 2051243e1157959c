(** Property C67: identifiers of all lengths that RFC 8613 permits can be used. *)
From Verif Require Import Base Proof_Base Model_Common Model_Crypto Model_OscorePrims Model_Coap Spec_Coap
  Model_Context Model_Send Model_Recv Model_Run Proof_Run Spec_Interactions Spec_RoundTrip Proof_RoundTrip Spec_Session Spec_OuterCode Spec_Safe Proof_Safe Spec_Protect Proof_Protect Spec_EdhocRun Proof_Ids
  Model_Toy Proof_Toy Model_ToyRun Prop_RoundTrip Prop_Protect.

(** With a Sender ID of at most 4 bytes the length of the ID never stands in the way of a
    request, whatever the sequence number. *)
Theorem C67_short_ids_partial :
  forall (cr : crypto) (nw : N -> res unit) (c : ctx) (m : message) (input buf : bytes),
  crypto_ok cr -> aead_total cr -> reachable cr c -> lenN (c_sid c) <= 4 ->
  rfc_message m input -> supported m input -> is_bytes input -> 0 < m_code m < 32 -> growth m = 0 ->
  may_number nw c -> echo_ready c m -> room (c_inter c) m ->
  fits m (request_olen c) (lenN buf) -> lenN buf < 2 ^ 32 ->
  exists s buf1 n, coap2oscore cr nw c input buf = (s, buf1, Ok n).
Proof.
  intros cr nw c m input buf OK AT RC LS HM SUP HB CO GR MN ER RO FI LB.
  refine (proj1 (C55_request cr nw c m input buf OK AT RC HM SUP HB CO _ FI LB) GR).
  split; [exact MN|]. split; [exact ER|]. split; [|exact RO]. unfold piv_len. repeat destruct (_ <? _); lia.
Qed.
Print Assumptions C67_short_ids_partial.

(** If Sender ID and Partial IV have more than 7 bytes together, no request can be
    protected. RFC 8613 permits IDs of 7 bytes and Partial IVs of 5 bytes. *)
Theorem C67_request_refuted :
  forall (cr : crypto) (nw : N -> res unit) (c : ctx) (input buf : bytes),
  crypto_ok cr -> reachable cr c -> 7 < lenN (c_sid c) + piv_len (c_ssn c) -> is_request_message input ->
  exists s r, coap2oscore cr nw c input buf = (s, buf, r) /\ is_ok r = false /\ s_enc s = None.
Proof.
  intros cr nw c input buf OK RC LONG RQ. destruct (reachable_both cr c OK RC) as [_ [AL _]].
  destruct (coap2oscore cr nw c input buf) as [[s b] r] eqn:H. destruct (long_send _ _ _ _ _ _ _ _ (conj AL LONG) RQ H) as (-> & E & F). eauto.
Qed.
Print Assumptions C67_request_refuted.

(** From then on this never changes: whatever the endpoint sends and receives, every
    request fails. With a 7-byte ID this holds from the beginning, with 6 bytes from
    sequence number 256 on, with 5 bytes from 65536 on. *)
Theorem C67_forever_refuted :
  forall (cr : crypto) (c : ctx) (calls : list api_call) (i : nat) (nw : N -> res unit) (input buf : bytes) (o : obs),
  crypto_ok cr -> reachable cr c -> 7 < lenN (c_sid c) + piv_len (c_ssn c) ->
  nth_error calls i = Some (ASend nw input buf) -> is_request_message input -> nth_error (snd (run cr c calls)) i = Some o ->
  is_ok (ob_res o) = false /\ ob_enc o = None /\ ob_buf o = buf.
Proof.
  intros cr c calls i nw input buf o OK RC LONG HI RQ HO. destruct (reachable_both cr c OK RC) as [_ [AL _]].
  assert (LI : long_ids c) by (split; assumption). clear RC LONG AL. revert c i LI HI HO.
  induction calls as [|a calls IH]; intros c i LI HI HO; [destruct i; discriminate|]. cbn [run] in HO.
  destruct (exec cr c a) as [c1 o1] eqn:EX. pose proof (long_exec cr c a c1 o1 LI EX) as LI1.
  destruct i as [|i].
  - injection HI as ->. unfold exec in EX. destruct (coap2oscore cr nw c input buf) as [[s b] r] eqn:H. injection EX as <- <-.
    destruct (long_send _ _ _ _ _ _ _ _ LI RQ H) as (E1 & E2 & E3).
    destruct (is_ub _) in HO; [injection HO as <-; auto|]. destruct (run cr (s_ctx s) calls). injection HO as <-. auto.
  - destruct (is_ub (ob_res o1)); [destruct i; discriminate|]. destruct (run cr c1 calls) as [c2 os] eqn:R. cbn [snd nth_error] in HO.
    apply (IH c1 i LI1 HI). rewrite R. exact HO.
Qed.
Print Assumptions C67_forever_refuted.

(** Nor is such a request of another implementation accepted: the packet is refused
    whatever its payload, and nothing changes. *)
Theorem C67_received_refuted :
  forall (cr : crypto) (c : ctx) (bs buf : bytes) (opts : list (N * bytes)) (payload v piv kid : bytes),
  crypto_ok cr -> reachable cr c -> packet bs opts payload -> is_request_message bs ->
  (forall w, In (9, w) opts -> w = v) -> osc_value v piv kid -> is_bytes v -> 7 < lenN kid + lenN piv ->
  exists r, oscore2coap cr c bs buf = (c, buf, r) /\ is_ok r = false.
Proof.
  intros cr c bs buf opts payload v piv kid OK RC PK RQ ONE OV BV LONG. destruct (reachable_both cr c OK RC) as [_ [AL _]].
  destruct (oscore2coap cr c bs buf) as [[c' b] r] eqn:H.
  destruct (long_receive cr c bs buf opts payload v piv kid c' b r AL PK RQ ONE OV BV LONG H) as (-> & -> & F). eauto.
Qed.
Print Assumptions C67_received_refuted.

(** A new context with a 7-byte Sender ID, and one with 6 bytes after a restart; both were
    set up without error. *)
Definition seven : bytes := [1; 2; 3; 4; 5; 6; 7].
Example C67_ex :
  let c := toy_init seven [9] true 0 in let c6 := toy_init [1; 2; 3; 4; 5; 6] [9] false 236 in
  reachable toy_crypto c /\ 7 < lenN (c_sid c) + piv_len (c_ssn c) /\ reachable toy_crypto c6 /\ c_ssn c6 = 256 /\ 7 < lenN (c_sid c6) + piv_len (c_ssn c6) /\
  is_request_message toy_post /\
  snd (coap2oscore toy_crypto toy_nw c toy_post toy_out) = Err buffer_to_small /\
  snd (coap2oscore toy_crypto toy_nw c6 toy_post toy_out) = Err buffer_to_small /\
  (* one number less, and the request is protected *)
  is_ok (snd (coap2oscore toy_crypto toy_nw (toy_init [1; 2; 3; 4; 5; 6] [9] false 235) toy_post toy_out)) = true.
Proof.
  cbv zeta.
  split. { exists (toy_params seven [9] true), (Ok 0), (repeat 0 13), (repeat 0 12), 0, (toy_init seven [9] true 0), []. split; [vm_compute|]; reflexivity. }
  split; [reflexivity|].
  split. { exists (toy_params [1; 2; 3; 4; 5; 6] [9] false), (Ok 236), (repeat 0 13), (repeat 0 12), 0, (toy_init [1; 2; 3; 4; 5; 6] [9] false 236), []. split; [vm_compute|]; reflexivity. }
  split; [vm_compute; reflexivity|]. split; [vm_compute; reflexivity|]. split; [exists 2; split; [reflexivity|lia]|].
  split; [vm_compute; reflexivity|]. split; vm_compute; reflexivity.
Qed.

(** GET from an endpoint with a 7-byte ID, encrypted as RFC 8613 says: the AEAD would
    accept it with the AAD of section 5.4. *)
Definition seven_server : ctx := toy_init [9] seven true 0.
Definition seven_aad : bytes := rfc_aad 10 seven [0].
Definition seven_nonce : bytes := match create_nonce seven [0] (c_iv seven_server) with Ok n => n | _ => [] end.
Definition seven_payload : bytes := match cr_aead_enc toy_crypto (c_rkey seven_server) seven_nonce seven_aad 8 [1; 0xb1; 97] with Some ct => ct | None => [] end.
Definition seven_packet : bytes := [0x41; 2; 0; 5; 5; 0x99; 9; 0] ++ seven ++ 255 :: seven_payload.
Example C67_received_ex :
  cr_aead_dec toy_crypto (c_rkey seven_server) seven_nonce seven_aad 8 seven_payload = Some [1; 0xb1; 97] /\
  packet seven_packet [(9, 9 :: 0 :: seven)] seven_payload /\ is_request_message seven_packet /\ osc_value (9 :: 0 :: seven) [0] seven /\
  snd (oscore2coap toy_crypto seven_server seven_packet toy_out) = Err buffer_to_small.
Proof.
  split; [vm_compute; reflexivity|]. split.
  { split; [vm_compute; repeat constructor|]. split; [vm_compute; reflexivity|]. intros tkl _ _. unfold tkl.
    change (dropN (4 + nth 0 seven_packet 0 mod 16) seven_packet) with ((9 * 16 + 9) :: [] ++ [] ++ (9 :: 0 :: seven) ++ 255 :: seven_payload).
    change 9 with (0 + 9) at 1. apply scan_option; try (left; reflexivity); try reflexivity; try (constructor; reflexivity). }
  split; [exists 2; split; [reflexivity|lia]|].
  split; [|vm_compute; reflexivity].
  change (9 :: 0 :: seven) with (9 :: [0] ++ [] ++ seven). change seven with (if 9 / 8 mod 2 =? 0 then [] else seven) at 2.
  constructor; [apply N.leb_le; reflexivity|reflexivity|left; split; reflexivity|reflexivity].
Qed.
