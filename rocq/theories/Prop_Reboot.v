(** Property C66: a session over restarts of the devices. *)
From Verif Require Import Base Proof_Base Model_Common Model_Crypto Spec_EdhocRun Model_OscorePrims Proof_OscorePrims Model_Coap Spec_Coap Proof_Coap
  Model_Interactions Model_Replay Spec_Replay Proof_Replay Model_Context Model_Send Model_Recv Model_Run Spec_Interactions Proof_Interactions Proof_Send Proof_Run Proof_Session
  Spec_RoundTrip Proof_RoundTrip Spec_UriPath Spec_Protect Proof_Protect Spec_Traffic Proof_Nvm Model_Net Proof_Net Proof_Safe Spec_Safe Spec_Net Proof_Loss
  Model_Reboot Spec_Reboot Proof_Reboot
  Model_Toy Proof_Toy Model_ToyRun Prop_Context Prop_RoundTrip Prop_Safe Prop_Traffic Prop_Echo Prop_Net.

(** What the first device expects at the start. *)
Definition first_stand (p : init_params) : stand := if ip_fresh p then Synced else Booted.

Lemma tied_init cr p q c d v1 v2 gn ge gf gn' ge' gf' :
  crypto_ok cr ->
  ip_secret q = ip_secret p -> ip_salt q = ip_salt p -> ip_id_context p = [] -> ip_id_context q = [] ->
  ip_sender_id q = ip_recipient_id p -> ip_recipient_id q = ip_sender_id p -> lenN (ip_sender_id p) <= 4 ->
  oscore_context_init cr p (Ok v1) gn ge gf = Ok c -> oscore_context_init cr q (Ok v2) gn' ge' gf' = Ok d ->
  tied c d /\ forall x, ~ held (c_inter c) x.
Proof.
  intros OK Q1 Q2 Q3 Q4 Q5 Q6 L HC HD.
  assert (RC : reachable cr c) by (exists p, (Ok v1), gn, ge, gf, c, []; auto).
  destruct (reachable_both cr c OK RC) as [UC KC].
  destruct (C30_mirrored cr p q (Ok v1) (Ok v2) gn ge gn' ge' gf gf' c d (ok_hmac_len _ OK) Q1 Q2 ltac:(congruence) Q5 Q6 HC HD)
    as (A1 & _ & A3 & A4 & _ & A6 & _).
  destruct (C30_keys_are_rfc cr p (Ok v1) gn ge gf c (ok_hmac_len _ OK) HC) as (_ & _ & _ & _ & _ & _ & IC & _).
  apply init_inter in HC as (I1 & I2 & I3 & I4 & I5 & I6 & _ & _ & I9 & I10).
  apply init_inter in HD as (_ & J2 & J3 & _).
  split; [|intros x Hx; unfold held in Hx; rewrite I1 in Hx; cbn in Hx; destruct Hx as [Hx|[Hx|[Hx|[]]]]; discriminate].
  constructor; try assumption.
  - repeat split; assumption.
  - intros _. exists []. rewrite J2. split; [apply init_inv|constructor].
  - rewrite I5. exact L.
  - congruence.
  - rewrite J3. discriminate.
Qed.

Lemma home_init cr p c v gn ge gf : oscore_context_init cr p (Ok v) gn ge gf = Ok c -> lenN ge = 12 -> v + 20 < OSCORE_SSN_OVERFLOW_VALUE ->
  home cr p {| dv_ctx := c; dv_mem := v |} (first_stand p) /\ c_ssn c <= v + 20.
Proof.
  intros I L LO. pose proof I as I'. apply init_inter in I' as (I1 & I2 & I3 & I4 & I5 & I6 & I7 & I8 & I9 & I10).
  unfold first_stand. split; [constructor; cbn [dv_ctx dv_mem]|].
  - exists v, gn, ge, gf, c. split; [exact I|apply same_keys_refl].
  - split; [rewrite I7; exact L|]. rewrite I4. destruct (ip_fresh p); auto.
  - intros F. rewrite I9 in F. destruct (init_numbers cr p _ _ _ _ _ I F) as (N1 & _ & _). rewrite F, N1.
    unfold u64. rewrite N.mod_small by (unfold OSCORE_SSN_OVERFLOW_VALUE in LO; lia). lia.
  - destruct (ip_fresh p) eqn:F; cbn in I10.
    + injection I10 as E. lia.
    + destruct (init_numbers cr p _ _ _ _ _ I F) as (N1 & _ & _). rewrite N1. unfold u64. apply N.mod_le. discriminate.
Qed.

(** Two devices set up with matching parameters, and with whatever is in their memories,
    exchange requests, responses and notifications for at most three resources. Packets
    get lost, others send packets, and devices that have stored their sequence numbers
    restart at any time. A device that has restarted and is asked something answers with
    an Echo value, and it delivers the requests again as soon as one of them repeats the
    value. No call fails because of a restart, and the applications get exactly the
    messages that they have to get. (C15 and C62 say that no nonce is used twice.)
    Missing: identifiers of more than 4 bytes, an ID context, writes to the memory that
    fail, messages between a request and its response, copies and reordering of packets,
    tokens used for several resources; and everything that a device waiting for an Echo
    value sends must contain an Echo option, not longer than the last one (see below). *)
Theorem C66_restarts_partial :
  forall (cr : crypto) (p q : init_params) (v1 v2 : N) (gn ge gn' ge' : bytes) (gf gf' : N) (c d : ctx)
    (resources : list resource) (owner : bytes -> resource) (l : list occurrence) (outs : list (list bytes)),
  crypto_ok cr -> aead_total cr ->
  ip_secret q = ip_secret p -> ip_salt q = ip_salt p -> ip_id_context p = [] -> ip_id_context q = [] ->
  ip_sender_id q = ip_recipient_id p -> ip_recipient_id q = ip_sender_id p ->
  lenN (ip_sender_id p) <= 4 -> lenN (ip_recipient_id p) <= 4 -> lenN ge = 12 -> lenN ge' = 12 ->
  oscore_context_init cr p (Ok v1) gn ge gf = Ok c -> oscore_context_init cr q (Ok v2) gn' ge' gf' = Ok d ->
  (length resources <= 3)%nat -> v1 + 20 + total_price l < OSCORE_SSN_OVERFLOW_VALUE -> v2 + 20 + total_price l < OSCORE_SSN_OVERFLOW_VALUE ->
  course cr (fun b => c_rkey (if b then c else d)) (fun b => ip_fresh (if b then p else q)) resources owner (fun _ => False)
    (fun b => first_stand (if b then p else q)) l outs ->
  exists c' d', history cr p q {| dv_ctx := c; dv_mem := v1 |} {| dv_ctx := d; dv_mem := v2 |} l = Some (c', d', outs).
Proof.
  intros cr p q v1 v2 gn ge gn' ge' gf gf' c d resources owner l outs OK AT Q1 Q2 Q3 Q4 Q5 Q6 L1 L2 G1 G2 HC HD FEW B1 B2 P.
  destruct (tied_init cr p q c d v1 v2 gn ge gf gn' ge' gf' OK) as [TC IC]; try assumption.
  destruct (tied_init cr q p d c v2 v1 gn' ge' gf' gn ge gf OK) as [TD ID]; try assumption; try (symmetry; assumption).
  { rewrite Q5. exact L2. }
  destruct (home_init cr p c v1 gn ge gf HC G1 ltac:(lia)) as [HOC NC]. destruct (home_init cr q d v2 gn' ge' gf' HD G2 ltac:(lia)) as [HOD ND].
  refine (history_course cr OK AT resources owner FEW l p q _ _ (fun _ => False) _ _ _ (N.max v1 v2 + 20) outs _ ltac:(lia) _ _ _ _ P); try reflexivity.
  constructor; cbn [dv_ctx]; try assumption; try lia.
  - intros x X. destruct (IC x X).
  - intros x X. destruct (ID x X).
Qed.
Print Assumptions C66_restarts_partial.

(** While an Echo value is awaited, nothing is protected without an Echo value, or with one
    that is longer than the last; the call fails, changes nothing and writes nothing. *)
Theorem C55_echo_needed :
  forall (cr : crypto) (nw : N -> res unit) (c : ctx) (m : message) (input buf : bytes),
  rfc_message m input -> supported m input -> is_bytes input -> 0 < m_code m -> verifying c = true ->
  (forall v, echo_of m = Some v -> c_echo_len c < lenN v) ->
  exists r, coap2oscore cr nw c input buf = (s0 c, buf, r) /\ is_ok r = false.
Proof.
  intros cr nw c m input buf HM SUP HB CZ VE NE. destruct (coap2oscore cr nw c input buf) as [[s b] r] eqn:ES.
  destruct (unready_send cr nw c m input buf s b r HM SUP HB CZ VE NE ES) as (-> & -> & R). exists r. auto.
Qed.
Print Assumptions C55_echo_needed.

(** A device that waits for an Echo value is not able to protect a new request, response
    or notification of its own without an Echo option, and not a challenge with a longer
    Echo value than the last one. However often it tries, nothing changes. When two
    devices have restarted and their requests cross, both of them are in that position. *)
Theorem C66_silenced_refuted :
  forall (cr : crypto) (c : ctx) (calls : list api_call),
  verifying c = true ->
  Forall (fun a => exists nw input buf m, a = ASend nw input buf /\ rfc_message m input /\ supported m input /\ is_bytes input /\ 0 < m_code m /\
            forall v, echo_of m = Some v -> c_echo_len c < lenN v) calls ->
  Forall (fun o => is_ok (ob_res o) = false /\ ob_enc o = None) (snd (run cr c calls)) /\ fst (run cr c calls) = c.
Proof.
  intros cr c calls VE H. induction H as [|a calls (nw & input & buf & m & -> & HM & SUP & HB & CZ & NE) _ IH]; cbn [run fst snd].
  { split; [constructor|reflexivity]. }
  destruct (exec cr c (ASend nw input buf)) as [c1 o] eqn:EX. unfold exec in EX.
  destruct (coap2oscore cr nw c input buf) as [[s b] r] eqn:ES. injection EX as <- <-. cbn [ob_res].
  destruct (unready_send cr nw c m input buf s b r HM SUP HB CZ VE NE ES) as (-> & -> & R). cbn [s_ctx s0].
  destruct (is_ub r); cbn [fst snd].
  { split; [repeat constructor; exact R|reflexivity]. }
  destruct IH as [A B]. destruct (run cr c calls) as [c2 os]. cbn [fst snd] in *.
  split; [constructor; [split; [exact R|reflexivity]|exact A]|exact B].
Qed.
Print Assumptions C66_silenced_refuted.

(** Both have restarted, and their requests cross. *)
Definition toy_restarted : ctx := toy_init [1] [2] false 0.
Definition toy_crossed : ctx * ctx :=
  let (c1, w1) := toy_send toy_restarted (toy_get 5) in
  let (d1, w2) := toy_send toy_rebooted (toy_get 5) in
  (fst (toy_recv c1 w2), fst (toy_recv d1 w1)).
Example C66_silenced_ex :
  verifying (fst toy_crossed) = true /\ verifying (snd toy_crossed) = true /\
  rfc_message toy_post_msg toy_post /\ supported toy_post_msg toy_post /\ echo_of toy_post_msg = None /\
  map ob_res (snd (run toy_crypto (fst toy_crossed) [ASend toy_nw toy_post toy_out; ASend toy_nw toy_post toy_out])) = [Err no_echo_option; Err no_echo_option] /\
  (* a challenge of 2 bytes, and then one of 12 *)
  (let d1 := fst (toy_send (snd toy_crossed) [0x61; 0x81; 0; 5; 5; 0xd2; 239; 1; 2]) in
   snd (coap2oscore toy_crypto toy_nw d1 (toy_unauthorized 5 toy_echo) toy_out) = Err buffer_to_small).
Proof.
  destruct C19_example as (R1 & R2 & _). split; [vm_compute; reflexivity|]. split; [vm_compute; reflexivity|]. split; [exact R1|]. split; [exact R2|].
  split; [reflexivity|]. split; vm_compute; reflexivity.
Qed.

(** A run that meets the hypotheses of [C66_restarts_partial]. *)
Definition toy_get_echo_msg : message :=
  {| m_ver := 1; m_type := 0; m_code := 1; m_mid := 5; m_token := [5]; m_opts := [(11, [97]); (252, toy_echo)]; m_payload := [] |}.
Definition toy_unauthorized_msg : message :=
  {| m_ver := 1; m_type := 2; m_code := 0x81; m_mid := 5; m_token := [5]; m_opts := [(252, toy_echo)]; m_payload := [] |}.
(** The server has restarted: it challenges the first request of the client and delivers
    the second one. The client observes /a. The server restarts again. The challenge to
    the next request is lost, and so is the response to the one after it, which repeats
    the Echo value nevertheless. *)
Definition toy_occurrences : list occurrence :=
  let ask lost := Dialogue true (sent toy_post false) (sent (toy_content 5) false) (sent (toy_unauthorized 5 toy_echo) lost) in
  let repeat_it lost := Dialogue true (sent (toy_get_echo 5 toy_echo) false) (sent (toy_content 5) lost) (sent (toy_unauthorized 5 toy_echo) false) in
  [ask false; repeat_it false;
   Dialogue true (sent (toy_observe 6) false) (sent (toy_notify 6 7) false) (sent [] false); Report false (sent (toy_notify 6 7) false);
   Restart false (repeat 1 13) (repeat 2 12) 3; ask true; Intrusion false toy_foreign toy_out; repeat_it true; ask false].
Definition toy_outs : list (list bytes) :=
  [[toy_unauthorized 5 toy_echo]; [toy_get_echo 5 toy_echo; toy_content 5]; [toy_observe 6; toy_noted]; [toy_noted];
   []; []; []; [toy_get_echo 5 toy_echo]; [toy_post; toy_content 5]].

Lemma toy_good_get_echo : good_message toy_get_echo_msg (toy_get_echo 5 toy_echo) 8 (lenN toy_out).
Proof.
  split.
  { unfold rfc_message. cbn [toy_get_echo_msg m_ver m_type m_code m_mid m_token m_opts m_payload]. do 4 (split; [reflexivity|]). split; [apply N.leb_le; reflexivity|].
    exists ([0xb1; 97; 0xdc; 228] ++ toy_echo). split; [|reflexivity]. exists ([0xb1; 97; 0xdc; 228] ++ toy_echo). split; [|reflexivity].
    refine (rfc_cons 0 11 [97] 11 [] 1 [] _ _ _ _ _ _); [apply N.leb_le; reflexivity|apply (field_short 11); reflexivity|apply (field_short 1); reflexivity|].
    refine (rfc_cons 11 252 toy_echo 13 [228] 12 [] _ _ _ _ _ _); [apply N.leb_le; reflexivity|apply (field_ext8 228); reflexivity|apply (field_short 12); reflexivity|constructor]. }
  split.
  { unfold supported, parsable. cbn [toy_get_echo_msg m_opts m_payload].
    split; [split; [|split; [|split; [|split]]]|split; [|split; [|split; [|split; [|split]]]]].
    - repeat (constructor; [first [left; reflexivity|right; reflexivity]|]); constructor.
    - repeat (constructor; [left; reflexivity|]); constructor.
    - repeat (constructor; [reflexivity|]); constructor.
    - apply N.leb_le; reflexivity.
    - reflexivity.
    - change (inside_opts toy_get_echo_msg) with [(11, [97]); (252, toy_echo)]. repeat (constructor; [first [left; reflexivity|right; reflexivity]|]); constructor.
    - apply N.leb_le; reflexivity.
    - intros [H|[H|[]]]; discriminate H.
    - change (outside_opts toy_get_echo_msg) with (@nil (N * bytes)). constructor.
    - apply N.leb_le; reflexivity.
    - left. reflexivity. }
  split; [apply is_bytes_dec; reflexivity|]. split; [reflexivity|]. split; [|reflexivity].
  split; [|split; [|split]]; try (apply N.leb_le; vm_compute; reflexivity); vm_compute; reflexivity.
Qed.
Lemma toy_good_unauthorized : good_message toy_unauthorized_msg (toy_unauthorized 5 toy_echo) 8 (lenN toy_out).
Proof.
  split.
  { unfold rfc_message. cbn [toy_unauthorized_msg m_ver m_type m_code m_mid m_token m_opts m_payload]. do 4 (split; [reflexivity|]). split; [apply N.leb_le; reflexivity|].
    exists ([0xdc; 239] ++ toy_echo). split; [|reflexivity]. exists ([0xdc; 239] ++ toy_echo). split; [|reflexivity].
    refine (rfc_cons 0 252 toy_echo 13 [239] 12 [] _ _ _ _ _ _); [apply N.leb_le; reflexivity|apply (field_ext8 239); reflexivity|apply (field_short 12); reflexivity|constructor]. }
  split.
  { unfold supported, parsable. cbn [toy_unauthorized_msg m_opts m_payload].
    split; [split; [|split; [|split; [|split]]]|split; [|split; [|split; [|split; [|split]]]]].
    - repeat (constructor; [first [left; reflexivity|right; reflexivity]|]); constructor.
    - repeat (constructor; [left; reflexivity|]); constructor.
    - repeat (constructor; [reflexivity|]); constructor.
    - apply N.leb_le; reflexivity.
    - reflexivity.
    - change (inside_opts toy_unauthorized_msg) with [(252, toy_echo)]. repeat (constructor; [first [left; reflexivity|right; reflexivity]|]); constructor.
    - apply N.leb_le; reflexivity.
    - intros [H|[]]; discriminate H.
    - change (outside_opts toy_unauthorized_msg) with (@nil (N * bytes)). constructor.
    - apply N.leb_le; reflexivity.
    - left. reflexivity. }
  split; [apply is_bytes_dec; reflexivity|]. split; [reflexivity|]. split; [|reflexivity].
  split; [|split; [|split]]; try (apply N.leb_le; vm_compute; reflexivity); vm_compute; reflexivity.
Qed.

Notation toy_p := (toy_params [1] [2] true).
Notation toy_q := (toy_params [2] [1] false).
Example C66_example :
  oscore_context_init toy_crypto toy_p (Ok 0) (repeat 0 13) (repeat 0 12) 0 = Ok toy_client /\
  oscore_context_init toy_crypto toy_q (Ok 0) (repeat 0 13) (repeat 0 12) 0 = Ok toy_rebooted /\
  0 + 20 + total_price toy_occurrences < OSCORE_SSN_OVERFLOW_VALUE /\
  course toy_crypto (fun b => c_rkey (if b then toy_client else toy_rebooted)) (fun b => ip_fresh (if b then toy_p else toy_q)) toy_resources toy_owner (fun _ => False)
    (fun b => first_stand (if b then toy_p else toy_q)) toy_occurrences toy_outs /\
  option_map snd (history toy_crypto toy_p toy_q {| dv_ctx := toy_client; dv_mem := 0 |} {| dv_ctx := toy_rebooted; dv_mem := 0 |} toy_occurrences) = Some toy_outs.
Proof.
  split; [vm_compute; reflexivity|]. split; [vm_compute; reflexivity|]. split; [vm_compute; reflexivity|]. split; [|vm_compute; reflexivity].
  assert (NW : forall m b x, v_nw (sent m b) x = Ok tt) by reflexivity.
  assert (LB : forall m b, lenN m <= 256 -> lenN (v_msg (sent m b)) <= lenN (v_out (sent m b)) < 2 ^ 32) by (intros m b L; split; [exact L|reflexivity]).
  assert (RP : request_fits toy_resources toy_owner (sent toy_post false) toy_post_msg).
  { split; [exact toy_good_post|]. split; [split; reflexivity|]. split; [apply LB; apply N.leb_le; reflexivity|]. split; [left; reflexivity|]. split; [reflexivity|apply NW]. }
  assert (RE : request_fits toy_resources toy_owner (sent (toy_get_echo 5 toy_echo) false) toy_get_echo_msg).
  { split; [exact toy_good_get_echo|]. split; [split; reflexivity|]. split; [apply LB; apply N.leb_le; reflexivity|]. split; [left; reflexivity|]. split; [reflexivity|apply NW]. }
  assert (RO : request_fits toy_resources toy_owner (sent (toy_observe 6) false) toy_observe_msg).
  { split; [exact toy_good_observe|]. split; [split; reflexivity|]. split; [apply LB; apply N.leb_le; reflexivity|]. split; [right; left; reflexivity|]. split; [reflexivity|apply NW]. }
  assert (AC : forall b, answer_fits (sent (toy_content 5) b) toy_content_msg 0).
  { intros b. split; [exact toy_good_content|]. split; [apply N.leb_le; reflexivity|]. split; [|apply NW].
    apply (toy_space _ (toy_content 5)); [|apply N.leb_le; reflexivity]. apply toy_good_content. }
  assert (AU : forall b, answer_fits (sent (toy_unauthorized 5 toy_echo) b) toy_unauthorized_msg 8).
  { intros b. split; [exact toy_good_unauthorized|]. split; [apply N.leb_le; reflexivity|]. split; [|apply NW].
    apply (toy_space _ (toy_unauthorized 5 toy_echo)); [|apply N.leb_le; reflexivity]. apply toy_good_unauthorized. }
  assert (AN : forall b, answer_fits (sent (toy_notify 6 7) b) toy_notify_msg 8).
  { intros b. split; [exact toy_good_notify|]. split; [apply N.leb_le; reflexivity|]. split; [|apply NW]. apply (toy_space _ _ toy_noted_rfc); apply N.leb_le; reflexivity. }
  assert (ARC : arrives (sent (toy_content 5) false) toy_content_msg [toy_content 5]) by (exists (toy_content 5); split; [apply toy_good_content|reflexivity]).
  assert (ARU : arrives (sent (toy_unauthorized 5 toy_echo) false) toy_unauthorized_msg [toy_unauthorized 5 toy_echo])
    by (exists (toy_unauthorized 5 toy_echo); split; [apply toy_good_unauthorized|reflexivity]).
  assert (ARN : arrives (sent (toy_notify 6 7) false) toy_notify_msg [toy_noted]) by (exists toy_noted; split; [exact toy_noted_rfc|reflexivity]).
  unfold toy_occurrences, toy_outs.
  eapply (course_challenged _ _ _ _ _ _ _ _ _ _ _ toy_post_msg toy_unauthorized_msg Synced toy_echo);
    [exact RP|reflexivity|reflexivity|reflexivity|apply AU|reflexivity|reflexivity|reflexivity|apply N.leb_le; reflexivity|exact ARU|].
  eapply (course_answered _ _ _ _ _ _ _ _ (sent (toy_get_echo 5 toy_echo) false) _ _ toy_get_echo_msg toy_content_msg Synced);
    [exact RE|reflexivity|reflexivity|reflexivity|apply AC|reflexivity|exact ARC|].
  eapply (course_answered _ _ _ _ _ _ _ _ (sent (toy_observe 6) false) _ _ toy_observe_msg toy_notify_msg Synced);
    [exact RO|reflexivity|reflexivity|reflexivity|apply AN|reflexivity|exact ARN|].
  eapply (course_report _ _ _ _ _ _ _ _ _ toy_notify_msg Synced);
    [apply AN|reflexivity|right; split; reflexivity|reflexivity|exact ARN|].
  apply course_restart; [reflexivity|reflexivity|].
  eapply (course_challenged _ _ _ _ _ _ _ _ _ _ _ toy_post_msg toy_unauthorized_msg Synced toy_echo);
    [exact RP|reflexivity|reflexivity|reflexivity|apply AU|reflexivity|reflexivity|reflexivity|apply N.leb_le; reflexivity|reflexivity|].
  apply course_intrusion.
  { destruct C57_unauthenticated_ex as [X1 X2]. exists [(9, [9; 0; 1])], ([1; 0xb1; 97] ++ repeat 255 8).
    split; [exact X1|]. split; [reflexivity|]. split; [reflexivity|]. split; [|exact X2].
    intros v V. right. exists [0], [1]. split; [apply toy_option; exact V|]. right. right. apply N.leb_le. reflexivity. }
  eapply (course_answered _ _ _ _ _ _ _ _ (sent (toy_get_echo 5 toy_echo) false) _ _ toy_get_echo_msg toy_content_msg Synced);
    [exact RE|reflexivity|reflexivity|reflexivity|apply AC|reflexivity|reflexivity|].
  eapply (course_answered _ _ _ _ _ _ _ _ (sent toy_post false) _ _ toy_post_msg toy_content_msg Synced);
    [exact RP|reflexivity|reflexivity|reflexivity|apply AC|reflexivity|exact ARC|].
  constructor.
Qed.
