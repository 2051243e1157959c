(** Property C63: a session over a network that loses packets, with observations and
    packets of others. *)
From Verif Require Import Base Proof_Base Model_Common Model_Crypto Spec_EdhocRun Model_OscorePrims Proof_OscorePrims Model_Coap Spec_Coap Proof_Coap
  Model_Interactions Model_Replay Model_Context Model_Send Model_Recv Model_Run Spec_Interactions Proof_Interactions Proof_Send Proof_Run Proof_Session
  Spec_RoundTrip Proof_RoundTrip Spec_UriPath Spec_Protect Proof_Protect Spec_Traffic Model_Net Proof_Net Proof_Safe Spec_Safe Spec_Net Proof_Loss
  Model_Toy Proof_Toy Model_ToyRun Prop_RoundTrip Prop_Safe Prop_Traffic.

(** Two endpoints set up with matching parameters exchange requests, responses and
    notifications for at most three resources. The network loses any of the packets and
    delivers packets of others at any time. No call fails because of that, and the
    applications get exactly the messages that were not lost, in order.
    Missing: identifiers of more than 4 bytes, an ID context, messages between a request
    and its response, copies and reordering of packets, and tokens used for several
    resources. *)
Theorem C63_lossy_network_partial :
  forall (cr : crypto) (p q : init_params) (gn ge gn' ge' : bytes) (gf gf' : N) (c d : ctx)
    (resources : list resource) (owner : bytes -> resource) (l : list event) (outs : list (list bytes)),
  crypto_ok cr -> aead_total cr ->
  ip_secret q = ip_secret p -> ip_salt q = ip_salt p -> ip_id_context p = [] -> ip_id_context q = [] ->
  ip_sender_id q = ip_recipient_id p -> ip_recipient_id q = ip_sender_id p -> ip_fresh p = true -> ip_fresh q = true ->
  lenN (ip_sender_id p) <= 4 -> lenN (ip_recipient_id p) <= 4 ->
  oscore_context_init cr p (Ok 0) gn ge gf = Ok c -> oscore_context_init cr q (Ok 0) gn' ge' gf' = Ok d ->
  (length resources <= 3)%nat -> lenN l < OSCORE_SSN_OVERFLOW_VALUE ->
  plan cr (c_rkey c) (c_rkey d) resources owner (fun _ => False) l outs ->
  exists c' d', net cr c d l = Some (c', d', outs).
Proof.
  intros cr p q gn ge gn' ge' gf gf' c d resources owner l outs OK AT Q1 Q2 Q3 Q4 Q5 Q6 F1 F2 L1 L2 HC HD FEW LN P.
  destruct (linked_init cr p q c d gn ge gf gn' ge' gf' OK) as [LC IC]; try assumption.
  destruct (linked_init cr q p d c gn' ge' gf' gn ge gf OK) as [LD ID]; try assumption; try (symmetry; assumption).
  { rewrite Q5. exact L2. }
  pose proof (init_ssn0 _ _ _ _ _ _ F1 HC) as NC. pose proof (init_ssn0 _ _ _ _ _ _ F2 HD) as ND.
  apply (net_plan cr OK AT resources owner FEW l (fun _ => False) c d 0 outs); [|lia|exact P].
  constructor; try assumption; try lia; try (intros t []).
  - intros x X. destruct (IC x X).
  - intros x X. destruct (ID x X).
Qed.
Print Assumptions C63_lossy_network_partial.

(** More than three resources: a request that is never answered is remembered for ever,
    so when three are outstanding, requests for other resources fail, however often they
    are repeated. Nothing in the API gives up an outstanding request. *)
Theorem C63_blocked_refuted :
  forall (cr : crypto) (c : ctx) (calls : list api_call),
  reachable cr c -> full (c_inter c) ->
  Forall (fun a => exists nw input buf m, a = ASend nw input buf /\ rfc_message m input /\ parsable m input /\ 0 < m_code m < 32 /\
            forall x, held (c_inter c) x -> ~ concerns x m) calls ->
  Forall (fun o => is_ok (ob_res o) = false) (snd (run cr c calls)) /\ c_inter (fst (run cr c calls)) = c_inter c.
Proof.
  intros cr c calls R F H. assert (T : table_ok (c_inter c)) by apply (reachable_usable cr c R). clear R.
  enough (G : forall c', c_inter c' = c_inter c ->
    Forall (fun o => is_ok (ob_res o) = false) (snd (run cr c' calls)) /\ c_inter (fst (run cr c' calls)) = c_inter c) by (apply G; reflexivity).
  induction H as [|a calls (nw & input & buf & m & -> & HM & HP & CO & NC) _ IH]; intros c' E; cbn [run fst snd].
  { split; [constructor|exact E]. }
  destruct (exec cr c' (ASend nw input buf)) as [c1 o] eqn:EX. unfold exec in EX.
  destruct (coap2oscore cr nw c' input buf) as [[s b] r] eqn:ES. injection EX as <- <-. cbn [ob_res].
  destruct (send_blocked cr nw c' m input buf s b r) as [I N]; try assumption; try (rewrite E; assumption).
  destruct (is_ub r); cbn [fst snd].
  { split; [repeat constructor; exact N|congruence]. }
  destruct (IH (s_ctx s) ltac:(congruence)) as [A B]. destruct (run cr (s_ctx s) calls) as [c2 os]. cbn [fst snd] in *.
  split; [constructor; assumption|exact B].
Qed.
Print Assumptions C63_blocked_refuted.

(** GET for the resource with the one-letter path [x] and token [t]. *)
Definition toy_get_of (t x : N) : bytes := [0x41; 1; 0; t; t; 0xb1; x].
Definition toy_get_of_msg (t x : N) : message :=
  {| m_ver := 1; m_type := 0; m_code := 1; m_mid := t; m_token := [t]; m_opts := [(11, [x])]; m_payload := [] |}.
Definition toy_stuck : ctx :=
  fst (run toy_crypto toy_client [ASend toy_nw (toy_get_of 1 97) toy_out; ASend toy_nw (toy_get_of 2 98) toy_out; ASend toy_nw (toy_get_of 3 99) toy_out]).
Example C63_blocked_ex :
  reachable toy_crypto toy_stuck /\ full (c_inter toy_stuck) /\
  (rfc_message (toy_get_of_msg 4 100) (toy_get_of 4 100) /\ parsable (toy_get_of_msg 4 100) (toy_get_of 4 100)) /\
  (forall x, held (c_inter toy_stuck) x -> ~ concerns x (toy_get_of_msg 4 100)) /\
  map ob_res (snd (run toy_crypto toy_stuck [ASend toy_nw (toy_get_of 4 100) toy_out; ASend toy_nw (toy_get_of 4 100) toy_out])) =
    [Err oscore_max_interactions; Err oscore_max_interactions].
Proof.
  split.
  { exists (toy_params [1] [2] true), (Ok 0), (repeat 0 13), (repeat 0 12), 0, toy_client,
      [ASend toy_nw (toy_get_of 1 97) toy_out; ASend toy_nw (toy_get_of 2 98) toy_out; ASend toy_nw (toy_get_of 3 99) toy_out].
    split; vm_compute; reflexivity. }
  split; [intros H; vm_compute in H; destruct H as [H|[H|[H|[]]]]; discriminate|]. split; [split|].
  { unfold rfc_message, toy_get_of_msg. cbn [m_ver m_type m_code m_mid m_token m_opts m_payload]. do 4 (split; [reflexivity|]). split; [apply N.leb_le; reflexivity|].
    exists [0xb1; 100]. split; [|reflexivity]. exists [0xb1; 100]. split; [|reflexivity].
    refine (rfc_cons 0 11 [100] 11 [] 1 [] _ _ _ _ _ _); [apply N.leb_le; reflexivity|apply (field_short 11); reflexivity|apply (field_short 1); reflexivity|constructor]. }
  { unfold parsable, toy_get_of_msg. cbn [m_opts]. split; [|split; [|split; [|split]]].
    - repeat (constructor; [left; reflexivity|]); constructor.
    - repeat (constructor; [left; reflexivity|]); constructor.
    - repeat (constructor; [reflexivity|]); constructor.
    - apply N.leb_le; reflexivity.
    - reflexivity. }
  split; [|vm_compute; reflexivity].
  intros x H [_ E]. vm_compute in H. destruct H as [H|[H|[H|[]]]]; injection H as <-; vm_compute in E; discriminate.
Qed.

(** Two requests at a time (in general in Prop_Pending.v): the response to the first one is delivered as long as the client
    has not sent the second one. Once it has, and the server has not received it (it is lost, or
    still on its way when the server answers), the client decrypts the response with the nonce of
    the second request and rejects it. *)
Example C63_pending_ex :
  let (c1, w1) := toy_send toy_client (toy_get_of 1 97) in
  let (c2, w2) := toy_send c1 (toy_get_of 2 98) in
  let (d1, r1) := toy_recv toy_server w1 in
  let (d2, w3) := toy_send d1 (toy_content 1) in
  r1 = Ok (toy_get_of 1 97) /\ snd (toy_recv c1 w3) = Ok (toy_content 1) /\
  snd (toy_recv c2 w3) = Err unexpected_result_from_ext_lib.
Proof. vm_compute. repeat split. Qed.

(** A run that meets the hypotheses of [C63_lossy_network_partial]. *)
Definition toy_observe_msg : message :=
  {| m_ver := 1; m_type := 0; m_code := 1; m_mid := 6; m_token := [6]; m_opts := [(6, []); (11, [97])]; m_payload := [] |}.
Definition toy_notify_msg : message :=
  {| m_ver := 1; m_type := 1; m_code := 0x45; m_mid := 6; m_token := [6]; m_opts := [(6, [7])]; m_payload := [104; 105] |}.
Definition sent (m : bytes) (lost : bool) : transport := {| v_msg := m; v_buf := toy_out; v_out := toy_out; v_nw := toy_nw; v_lost := lost |}.
Definition toy_resources : list resource := [(MREQUEST, [97]); (MREGISTRATION, [97])].
Definition toy_owner (t : bytes) : resource := if beqb t [6] then (MREGISTRATION, [97]) else (MREQUEST, [97]).
Definition toy_foreign : bytes := [0x41; 2; 0; 5; 5; 0x93; 9; 0; 1; 255] ++ [1; 0xb1; 97] ++ repeat 255 8.
(** The client observes /a; the first notification is lost, the next one arrives. A
    request of the client and a response to another one are lost, and somebody sends the
    server a packet. *)
Definition toy_events : list event :=
  [Exchange true (sent (toy_observe 6) false) (sent (toy_notify 6 7) true); Exchange true (sent toy_post true) (sent (toy_content 5) false);
   Injected false toy_foreign toy_out; Exchange true (sent toy_post false) (sent (toy_content 5) true);
   Notification false (sent (toy_notify 6 7) false); Exchange true (sent toy_post false) (sent (toy_content 5) false)].
Definition toy_noted : bytes := [0x51; 0x45; 0; 6; 6; 0x60; 255; 104; 105].

Lemma toy_good_post : good_message toy_post_msg toy_post 8 (lenN toy_out).
Proof. destruct C54_example as ((m & m' & _) & _). destruct C19_example as (R1 & R2 & _).
  split; [exact R1|]. split; [exact R2|]. split; [apply is_bytes_dec; reflexivity|]. split; [reflexivity|]. split; [|reflexivity].
  split; [|split; [|split]]; try (apply N.leb_le; vm_compute; reflexivity); vm_compute; reflexivity.
Qed.
Lemma toy_good_content : good_message toy_content_msg (toy_content 5) 0 (lenN toy_out).
Proof.
  split.
  { unfold rfc_message. cbn [toy_content_msg m_ver m_type m_code m_mid m_token m_opts m_payload]. do 4 (split; [reflexivity|]). split; [apply N.leb_le; reflexivity|].
    exists [255; 104; 105]. split; [|reflexivity]. exists []. split; [constructor|reflexivity]. }
  split.
  { unfold supported, parsable. cbn [toy_content_msg m_opts m_payload].
    split; [split; [|split; [|split; [|split]]]|split; [|split; [|split; [|split; [|split]]]]];
      try (right; apply N.leb_le; reflexivity); try constructor; try (apply N.leb_le; reflexivity); try reflexivity; try (intros []). }
  split; [apply is_bytes_dec; reflexivity|]. split; [reflexivity|]. split; [|reflexivity].
  split; [|split; [|split]]; try (apply N.leb_le; vm_compute; reflexivity); vm_compute; reflexivity.
Qed.
Lemma toy_good_observe : good_message toy_observe_msg (toy_observe 6) 8 (lenN toy_out).
Proof.
  split.
  { unfold rfc_message. cbn [toy_observe_msg m_ver m_type m_code m_mid m_token m_opts m_payload]. do 4 (split; [reflexivity|]). split; [apply N.leb_le; reflexivity|].
    exists [0x60; 0x51; 97]. split; [|reflexivity]. exists [0x60; 0x51; 97]. split; [|reflexivity].
    refine (rfc_cons 0 6 [] 6 [] 0 [] _ _ _ _ _ _); [apply N.leb_le; reflexivity|apply (field_short 6); reflexivity|apply (field_short 0); reflexivity|].
    refine (rfc_cons 6 11 [97] 5 [] 1 [] _ _ _ _ _ _); [apply N.leb_le; reflexivity|apply (field_short 5); reflexivity|apply (field_short 1); reflexivity|constructor]. }
  split.
  { unfold supported, parsable. cbn [toy_observe_msg m_opts m_payload].
    split; [split; [|split; [|split; [|split]]]|split; [|split; [|split; [|split; [|split]]]]].
    - repeat (constructor; [left; reflexivity|]); constructor.
    - repeat (constructor; [left; reflexivity|]); constructor.
    - repeat (constructor; [reflexivity|]); constructor.
    - apply N.leb_le; reflexivity.
    - reflexivity.
    - change (inside_opts toy_observe_msg) with [(6, @nil N); (11, [97])]. repeat (constructor; [left; reflexivity|]); constructor.
    - apply N.leb_le; reflexivity.
    - intros [H|[H|[]]]; discriminate H.
    - change (outside_opts toy_observe_msg) with [(6, @nil N)]. repeat constructor. intros [].
    - apply N.leb_le; reflexivity.
    - left. reflexivity. }
  split; [apply is_bytes_dec; reflexivity|]. split; [reflexivity|]. split; [|reflexivity].
  split; [|split; [|split]]; try (apply N.leb_le; vm_compute; reflexivity); vm_compute; reflexivity.
Qed.
Lemma toy_good_notify : good_message toy_notify_msg (toy_notify 6 7) 8 (lenN toy_out).
Proof.
  split.
  { unfold rfc_message. cbn [toy_notify_msg m_ver m_type m_code m_mid m_token m_opts m_payload]. do 4 (split; [reflexivity|]). split; [apply N.leb_le; reflexivity|].
    exists [0x61; 7; 255; 104; 105]. split; [|reflexivity]. exists [0x61; 7]. split; [|reflexivity].
    refine (rfc_cons 0 6 [7] 6 [] 1 [] _ _ _ _ _ _); [apply N.leb_le; reflexivity|apply (field_short 6); reflexivity|apply (field_short 1); reflexivity|constructor]. }
  split.
  { unfold supported, parsable. cbn [toy_notify_msg m_opts m_payload].
    split; [split; [|split; [|split; [|split]]]|split; [|split; [|split; [|split; [|split]]]]].
    - repeat (constructor; [left; reflexivity|]); constructor.
    - repeat (constructor; [left; reflexivity|]); constructor.
    - repeat (constructor; [reflexivity|]); constructor.
    - apply N.leb_le; reflexivity.
    - reflexivity.
    - change (inside_opts toy_notify_msg) with [(6, [7])]. repeat (constructor; [left; reflexivity|]); constructor.
    - apply N.leb_le; reflexivity.
    - intros [H|[]]; discriminate H.
    - change (outside_opts toy_notify_msg) with [(6, [7])]. repeat constructor. intros [].
    - apply N.leb_le; reflexivity.
    - right. apply N.leb_le. reflexivity. }
  split; [apply is_bytes_dec; reflexivity|]. split; [reflexivity|]. split; [|reflexivity].
  split; [|split; [|split]]; try (apply N.leb_le; vm_compute; reflexivity); vm_compute; reflexivity.
Qed.
Lemma toy_noted_rfc : rfc_message (received toy_notify_msg) toy_noted.
Proof.
  unfold rfc_message, received. cbn [toy_notify_msg m_ver m_type m_code m_mid m_token m_opts m_payload]. do 4 (split; [reflexivity|]). split; [apply N.leb_le; reflexivity|].
  exists [0x60; 255; 104; 105]. split; [|reflexivity]. exists [0x60]. split; [|reflexivity].
  refine (rfc_cons 0 6 [] 6 [] 0 [] _ _ _ _ _ _); [apply N.leb_le; reflexivity|apply (field_short 6); reflexivity|apply (field_short 0); reflexivity|constructor].
Qed.
Lemma toy_space m o : rfc_message (received m) o -> lenN o <= 256 -> forall t b, space m (sent t b).
Proof.
  intros R L t b. split; [|reflexivity]. intros o' R'. rewrite (message_unique _ _ _ R' R). change (lenN (v_out (sent t b))) with 256. exact L.
Qed.

Example C63_example :
  plan toy_crypto (c_rkey toy_client) (c_rkey toy_server) toy_resources toy_owner (fun _ => False) toy_events
    [[toy_observe 6]; []; []; [toy_post]; [toy_noted]; [toy_post; toy_content 5]] /\
  (length toy_resources <= 3)%nat /\ lenN toy_events < OSCORE_SSN_OVERFLOW_VALUE /\
  option_map snd (net toy_crypto toy_client toy_server toy_events) =
    Some [[toy_observe 6]; []; []; [toy_post]; [toy_noted]; [toy_post; toy_content 5]].
Proof.
  split; [|split; [cbn; lia|split; [reflexivity|vm_compute; reflexivity]]].
  assert (SN : forall t b, space toy_notify_msg (sent t b)) by (apply (toy_space _ _ toy_noted_rfc); apply N.leb_le; reflexivity).
  assert (SC : forall t b, space toy_content_msg (sent t b)).
  { apply (toy_space _ (toy_content 5)); [|apply N.leb_le; reflexivity]. apply toy_good_content. }
  assert (LB : forall m b, lenN m <= 256 -> lenN (v_msg (sent m b)) <= lenN (v_out (sent m b)) < 2 ^ 32) by (intros m b L; split; [exact L|reflexivity]).
  assert (POST : forall (live : bytes -> Prop) (b1 b2 : bool) l out outs,
    (if b1 then out = [] else if b2 then out = [toy_post] else exists o, rfc_message (received toy_content_msg) o /\ out = [toy_post; o]) ->
    plan toy_crypto (c_rkey toy_client) (c_rkey toy_server) toy_resources toy_owner
      (fun t => live t /\ toy_owner t <> resource_of toy_post_msg \/ b1 = false /\ notifies toy_content_msg = true /\ t = m_token toy_post_msg) l outs ->
    plan toy_crypto (c_rkey toy_client) (c_rkey toy_server) toy_resources toy_owner live
      (Exchange true (sent toy_post b1) (sent (toy_content 5) b2) :: l) (out :: outs)).
  { intros live b1 b2 l out outs O P. eapply (plan_exchange _ _ _ _ _ _ _ _ _ toy_post_msg toy_content_msg);
      [exact toy_good_post|split; reflexivity|apply LB; apply N.leb_le; reflexivity|left; reflexivity|reflexivity|exact toy_good_content|
       apply N.leb_le; reflexivity|apply SC|reflexivity|exact O|exact P]. }
  eapply (plan_exchange _ _ _ _ _ _ _ _ _ toy_observe_msg toy_notify_msg);
    [exact toy_good_observe|split; reflexivity|apply LB; apply N.leb_le; reflexivity|right; left; reflexivity|reflexivity|exact toy_good_notify|
     apply N.leb_le; reflexivity|apply SN|reflexivity|reflexivity|].
  apply POST; [reflexivity|].
  apply plan_injected.
  { destruct C57_unauthenticated_ex as [X1 X2]. exists [(9, [9; 0; 1])], ([1; 0xb1; 97] ++ repeat 255 8).
    split; [exact X1|]. split; [reflexivity|]. split; [reflexivity|]. split; [|exact X2].
    intros v V. right. exists [0], [1]. split; [apply toy_option; exact V|]. right. right. apply N.leb_le. reflexivity. }
  apply POST; [reflexivity|].
  eapply (plan_notification _ _ _ _ _ _ _ _ toy_notify_msg); [exact toy_good_notify|apply N.leb_le; reflexivity|reflexivity|apply SN| | |].
  { left. split; [left; split; [|vm_compute; discriminate]|vm_compute; discriminate]. right. repeat split; reflexivity. }
  { exists toy_noted. split; [exact toy_noted_rfc|reflexivity]. }
  apply POST; [|constructor]. exists (toy_content 5). split; [apply toy_good_content|reflexivity].
Qed.
