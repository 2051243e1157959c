(** Property C05 fails for notifications whose outer Observe option was removed. *)
From Verif Require Import Base Proof_Base Model_Common Model_Crypto Model_Cbor Model_OscorePrims Model_Coap Spec_Coap Proof_Coap
  Model_Interactions Spec_Interactions Proof_Interactions Model_Context Model_Send Proof_Send
  Model_Recv Proof_Recv Model_Replay Model_Run Proof_Options Spec_Session Proof_Run Proof_Session Proof_Echo
  Spec_OuterCode Proof_OuterCode Prop_OuterCode Spec_Stripped Proof_Stripped Model_Toy Proof_Toy Model_ToyRun Prop_Session.

Lemma response_code_of hdr r k : lenN hdr = 4 -> coap_deserialize (hdr ++ r) = Ok k -> has_response_code hdr -> 32 <= h_code (k_hdr k).
Proof.
  intros H4 H (b & N1 & L). destruct hdr as [|a [|b' [|x [|y [|z hdr]]]]]; unfold lenN in H4; cbn [length] in H4; try lia. clear H4.
  cbn in N1. injection N1 as ->. unfold coap_deserialize in H. destruct (_ <? _) in H; [discriminate|]. cbn [app] in H.
  unfold rd in H. change (N.to_nat 0) with 0%nat in *. change (N.to_nat 1) with 1%nat in *. change (N.to_nat 2) with 2%nat in *. change (N.to_nat 3) with 3%nat in *.
  cbn [nth_error bind] in H. destruct (8 <? _) in H; [discriminate|]. destruct (_ <? _) in H; [discriminate|].
  apply bind_ok in H as ([opts pl] & _ & H). injection H as <-. exact L.
Qed.

Lemma delivered_response cr input k pt out buf : crypto_ok cr -> is_bytes input -> lenN input < 2 ^ 32 -> lenN buf < 2 ^ 32 -> coap_deserialize input = Ok k ->
  is_bytes pt -> lenN pt < 2 ^ 32 -> o_coap_pkg_generate pt k = Ok out ->
  forall w, coap_serialize out (lenN buf) = (w, Ok tt) -> has_response_code (takeN (lenN w) (written w buf)) -> is_request out = false.
Proof.
  intros OK HB HL HBL EK PB PL PG w HS (b & E & Hb).
  destruct (pkg_generate_wf _ _ _ _ HB HL EK PB PL PG) as (W1 & (H1 & H2 & H3 & H4 & H5) & _).
  apply coap_serialize_ok in HS as (-> & _ & _); [|assumption..].
  rewrite written_take in E. unfold pkt_bytes, header_bytes in E. cbn [app nth_error] in E. injection E as E.
  rewrite is_request_code'. apply N.ltb_ge. unfold u8 in E. rewrite N.mod_small in E by (change 256 with (2 ^ 8); unfold is_byte in *; assumption). lia.
Qed.

(** For every key, context and notification: once accepted, it is delivered again at any later time,
    also after newer notifications, when it comes without its outer Observe option. Nothing but the
    entry of the request has to be there, which stays until the observation ends. The output
    is the same, so the application sees an old notification as a new one. *)
Theorem C05_stripped_refuted :
  forall (cr : crypto) (c c1 c2 : ctx) (hdr tok v rest buf out : bytes) (l n : N),
  crypto_ok cr -> reachable cr c -> header_for hdr tok -> has_response_code hdr -> lenN v < 13 -> l < 16 ->
  is_bytes (with_observe hdr tok v l rest) -> lenN (with_observe hdr tok v l rest) < 2 ^ 16 -> lenN buf < 2 ^ 32 ->
  (forall k x, coap_deserialize (without_observe hdr tok l rest) = Ok k -> In x (k_opts k) -> o_num x <> 6) ->
  oscore2coap cr c (with_observe hdr tok v l rest) buf = (c1, out, Ok n) -> has_response_code (takeN n out) ->
  later cr c c2 -> c_ssn c2 < OSCORE_SSN_OVERFLOW_VALUE ->
  (forall r, held (c_inter c) r -> i_token r = tok -> held (c_inter c2) r) ->
  exists c3, oscore2coap cr c2 (without_observe hdr tok l rest) buf = (c3, out, Ok n).
Proof.
  intros cr c c1 c2 hdr tok v rest buf out l n OK HR HH HRC LV LL HB HLI HBL NO H HM HLa HS HK.
  set (input := with_observe hdr tok v l rest) in *.
  assert (HL : lenN input < 2 ^ 32) by (change (2 ^ 16) with 65536 in HLI; change (2 ^ 32) with 4294967296; lia).
  pose proof (reachable_table _ _ HR) as HT.
  unfold oscore2coap in H. destruct (oscore2coap_core cr c input) as [c1' [ok|e|u]] eqn:C; try discriminate.
  destruct (coap_serialize ok (lenN buf)) as [w [[]|e|u]] eqn:SR; try discriminate. injection H as -> <- <-.
  unfold oscore2coap_core in C. apply tryc_ok in C as ([] & HF & C). apply tryc_ok in C as (k & EK & C).
  apply tryc_ok in C as (o & EO & C). apply tryc_ok in C as ([] & EB & C).
  destruct (strip_parse hdr tok v l rest k HH LV LL HLI EK) as (k' & o6 & o9 & o9' & more & EK' & EH & ET & ETt & EPl & OK1 & OK2 & N6 & N9 & SO).
  assert (RC : 32 <= h_code (k_hdr k)) by (eapply response_code_of; [apply HH|exact EK|exact HRC]).
  assert (RQ : is_request k = false) by (rewrite is_request_code'; apply N.ltb_ge; exact RC).
  assert (RQ' : is_request k' = false) by (rewrite is_request_code', EH; apply N.ltb_ge; exact RC).
  rewrite RQ in C. apply recv_response_inv in C as [[_ X]|(c0 & rd & D & OB & X)]; [discriminate X|].
  assert (IO : is_observe (k_opts k) = true) by (rewrite OK1; unfold is_observe; cbn [existsb]; rewrite N6; reflexivity).
  destruct (OB IO) as (NP & _). destruct X as [(_ & _ & X)|(pt & out & -> & X & _)]; [discriminate X|]. injection X as <-.
  assert (EN : resp_nn o = Some o) by (unfold resp_nn; destruct (co_piv o); [destruct NP; reflexivity|reflexivity]). rewrite EN in D.
  pose proof D as D'. apply decrypt_wrapper_ok in D' as (rpiv & rkid & nonce & aad & uri & OP & _ & PG & _).
  destruct (opened_bytes cr c (Some o) k rpiv rkid nonce aad pt input OK HB HL EK OP) as [PB PL].
  assert (RO : is_request ok = false) by (eapply (delivered_response cr input k pt ok buf); eassumption).
  destruct (coap_parse_sound _ _ EK HB HL) as (_ & _ & L19 & _).
  assert (PG' : o_coap_pkg_generate pt k' = Ok ok).
  { unfold o_coap_pkg_generate in *. apply bind_ok in PG as ([[code eopts] payload] & E1 & PG). rewrite E1. cbn [bind].
    apply bind_ok in PG as (opts & E2 & PG). rewrite OK1 in E2, L19. rewrite OK2, (strip_reorder o6 o9 o9' more eopts opts N6 N9 SO L19 E2). cbn [bind].
    rewrite EH, ET. exact PG. }
  assert (HR2 : table_ok (c_inter c2)) by (apply (later_inv cr (fun d => table_ok (c_inter d))) with (c := c); [intros d a d' oo T X; apply exec_keys in X; tauto|exact HLa|exact HT]).
  destruct OP as (RD & _).
  assert (RR : exists r, held (c_inter c) r /\ i_token r = k_token k).
  { apply type_response in RQ as [T|T]; rewrite T in RD; cbn [read_wrapper] in RD; apply bind_ok in RD as (r & GR & _); exists r; apply get_record_held; auto. }
  destruct RR as (r & Hr & Htr).
  destruct (decrypt_stripped cr c c2 o k k' pt ok c0 r HT HR2 (later_keys cr c c2 HLa) D RQ RO RQ' ET EPl PG' Hr Htr) as (c3 & D3).
  { apply HK; [exact Hr|congruence]. }
  exists c3. unfold oscore2coap, oscore2coap_core.
  assert (CF : check_context_freshness c2 = Ok tt). { unfold check_context_freshness. rewrite (proj2 (N.leb_gt _ _) HS). reflexivity. }
  rewrite CF. cbn [tryc]. rewrite EK'. cbn [tryc]. rewrite OK2. rewrite OK1 in EO. rewrite (strip_option o6 o9 o9' more o N6 N9 SO EO). cbn [tryc].
  rewrite EPl, EB. cbn [tryc]. rewrite RQ'. unfold recv_response. rewrite OK2.
  assert (IO' : is_observe (o9' :: more) = false).
  { unfold is_observe. destruct (existsb _ _) eqn:E; [|reflexivity]. apply existsb_exists in E as (x & Hx & E). apply N.eqb_eq in E.
    destruct (NO k' x EK'); [rewrite OK2; exact Hx|exact E]. }
  rewrite IO'. fold (resp_nn o). rewrite EN, D3. cbn [callc]. rewrite SR. reflexivity.
Qed.
Print Assumptions C05_stripped_refuted.

(** Client with an observation; the notification with number 1 comes again after the one with
    number 2. *)
Definition note_hdr : bytes := takeN 4 (toy_note 1).
Definition note_rest : bytes := dropN 8 (toy_note 1).
Example C05_stripped_example :
  toy_note 1 = with_observe note_hdr [5] [1] 3 note_rest /\
  header_for note_hdr [5] /\ has_response_code note_hdr /\ reachable toy_crypto toy_registered /\
  (forall k x, coap_deserialize (without_observe note_hdr [5] 3 note_rest) = Ok k -> In x (k_opts k) -> o_num x <> 6) /\
  exists c1 c2 c3 out n, oscore2coap toy_crypto toy_registered (toy_note 1) toy_out = (c1, out, Ok n) /\ has_response_code (takeN n out) /\
    accepts toy_crypto c1 (toy_note 2) toy_out c2 /\ later toy_crypto toy_registered c2 /\
    c_inter c2 = c_inter toy_registered /\
    oscore2coap toy_crypto c2 (toy_note 1) toy_out = (c2, toy_out, Err oscore_replay_notification_protection_error) /\
    oscore2coap toy_crypto c2 (without_observe note_hdr [5] 3 note_rest) toy_out = (c3, out, Ok n).
Proof.
  split; [vm_compute; reflexivity|]. split.
  { split; [vm_compute; reflexivity|]. eexists. split; vm_compute; reflexivity. }
  split. { eexists. split; [vm_compute; reflexivity|vm_compute; discriminate]. }
  split.
  { exists (toy_params [1] [2] true), (Ok 0), (repeat 0 13), (repeat 0 12), 0, toy_client,
      [ASend toy_nw (toy_observe 5) toy_out]. split; [reflexivity|]. vm_compute. reflexivity. }
  split. { intros k x EK Hx. vm_compute in EK. injection EK as <-. destruct Hx as [<-|[]]. discriminate. }
  set (c1 := fst (toy_recv toy_registered (toy_note 1))).
  set (c2 := fst (toy_recv c1 (toy_note 2))).
  exists c1, c2, (fst (toy_recv c2 (without_observe note_hdr [5] 3 note_rest))), (written (dropN 0 [0x51; 0x45; 0; 5; 5; 0x60; 255; 104; 105]) toy_out), 9.
  split; [vm_compute; reflexivity|]. split. { exists 0x45. split; [vm_compute; reflexivity|lia]. }
  split; [eexists; eexists; vm_compute; reflexivity|]. split.
  { exists [ARecv (toy_note 1) toy_out; ARecv (toy_note 2) toy_out]. vm_compute. reflexivity. }
  split; [vm_compute; reflexivity|]. split; vm_compute; reflexivity.
Qed.
