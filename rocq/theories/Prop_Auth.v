(** Properties C10, C20 - C23 and C26: what oscore2coap accepts, changes and delivers.
    Vocabulary in Spec_Session.v; [authentic c input k pt] says that the AEAD accepts
    the packet under the recipient key of [c], with nonce and AAD of RFC 8613 and the
    KID and Partial IV of the request it belongs to. *)
From Verif Require Import Base Proof_Base Model_Common Model_Crypto Model_Cbor Model_OscorePrims Model_Coap Spec_Coap Proof_Coap
  Model_Interactions Spec_Interactions Proof_Interactions Model_Context Model_Send Proof_Send
  Model_Recv Proof_Recv Model_Replay Model_Run Model_Toy Proof_Toy Model_ToyRun Proof_Options Spec_Session Proof_Run Proof_Session.

(** ** C10 *)

(** At the limit both calls fail, write nothing and change nothing. *)
Theorem C10_stops :
  forall (cr : crypto) (nw : N -> res unit) (c : ctx) (input buf : bytes), 0x7FFFFF <= c_ssn c ->
  coap2oscore cr nw c input buf = ({| s_ctx := c; s_nvm := None; s_enc := None |}, buf, Err oscore_ssn_overflow) /\
  oscore2coap cr c input buf = (c, buf, Err oscore_ssn_overflow).
Proof.
  intros cr nw c input buf H. unfold coap2oscore, coap2oscore_core, oscore2coap, oscore2coap_core, check_context_freshness.
  change OSCORE_SSN_OVERFLOW_VALUE with 0x7FFFFF. destruct (N.leb_spec 0x7FFFFF (c_ssn c)); [|lia]. auto.
Qed.
Print Assumptions C10_stops.

(** Each encryption happens in a context whose number, the one a new Partial IV is made
    of, is below the limit. *)
Theorem C10_never_beyond :
  forall (cr : crypto) (c c' : ctx) (a : api_call) (o : obs), exec cr c a = (c', o) ->
  ob_enc o <> None -> c_ssn c < 0x7FFFFF /\ c_ssn c' <= 0x7FFFFF.
Proof.
  intros cr c c' [nw input buf|input buf] o H HE.
  - destruct (N.lt_ge_cases (c_ssn c) 0x7FFFFF) as [L|L].
    + split; [exact L|]. apply exec_send in H as (s & r & H & -> & EE & _). apply core_effect in H as (_ & _ & SE & _).
      rewrite EE in HE. unfold send_effect in SE. destruct (s_enc s) as [[[n a] p]|]; [|congruence].
      assert (U : u64 (c_ssn c + 1) <= 0x7FFFFF).
      { unfold u64. rewrite N.mod_small by lia. lia. }
      destruct (msg_uses_new_piv c input); destruct SE as (_ & SE & _); rewrite SE; lia.
    + destruct (C10_stops cr nw c input buf L) as [E _]. unfold exec in H. rewrite E in H. injection H as <- <-.
      exfalso. apply HE. reflexivity.
  - apply exec_recv in H as (E & _). congruence.
Qed.
Print Assumptions C10_never_beyond.

(** The last number before the limit is still used, then both calls refuse. *)
Example C10_example :
  let c := set_ssn toy_client 0x7FFFFE in
  lenN (snd (toy_send c (toy_get 5))) = 23 /\ c_ssn (fst (toy_send c (toy_get 5))) = 0x7FFFFF /\
  toy_send (fst (toy_send c (toy_get 5))) (toy_get 6) = (fst (toy_send c (toy_get 5)), []).
Proof. split; [|split]; vm_compute; reflexivity. Qed.

(** ** C20 *)

(** If a call changes the context or the output buffer in any way, or succeeds, then
    the packet was authenticated in the context before the call. *)
Theorem C20_unauthenticated_changes_nothing :
  forall (cr : crypto) (c c' : ctx) (input buf buf' : bytes) (r : res N),
  (forall k m, lenN (cr_hmac cr k m) = 32) -> reachable cr c ->
  oscore2coap cr c input buf = (c', buf', r) ->
  (forall k pt, ~ authentic cr c input k pt) ->
  c' = c /\ buf' = buf /\ is_ok r = false.
Proof.
  intros cr c c' input buf buf' r HL HR H NA. apply recv_result in H as (rc & H & _ & G).
  apply core_authentic in H as [[-> F]|(k & pt & A & _)]; [|destruct (NA k pt A)|apply reachable_iv with cr; assumption|apply reachable_table with cr; assumption].
  split; [reflexivity|]. apply G, F.
Qed.
Print Assumptions C20_unauthenticated_changes_nothing.

(** A flipped bit in the ciphertext. *)
Definition toy_req5 : bytes := snd (toy_send toy_client (toy_get 5)).
Definition toy_forged : bytes := takeN 20 toy_req5 ++ [0].
Lemma toy_server_reachable : reachable toy_crypto toy_server.
Proof.
  exists (toy_params [2] [1] true), (Ok 0), (repeat 0 13), (repeat 0 12), 0, toy_server, []. split; vm_compute; reflexivity.
Qed.
Example C20_example :
  reachable toy_crypto toy_server /\
  oscore2coap toy_crypto toy_server toy_forged toy_out = (toy_server, toy_out, Err unexpected_result_from_ext_lib).
Proof. split; [apply toy_server_reachable|vm_compute; reflexivity]. Qed.

(** ** C21 *)

(** Full statement: code, payload and all class-E options delivered come from the
    authenticated plaintext. Proved: the delivered message [m] is well formed; its
    code and payload are those of the authenticated plaintext; its options are the
    options of the plaintext together with outer options of the packet other than
    OSCORE and Observe. Missing: nothing restricts those outer options to class U,
    see C21_injected_refuted (Prop_Injected.v). *)
Theorem C21_delivered_partial :
  forall (cr : crypto) (c c' : ctx) (input buf buf' : bytes) (n : N),
  crypto_ok cr -> reachable cr c -> is_bytes input -> lenN input < 2 ^ 32 -> lenN buf < 2 ^ 32 ->
  oscore2coap cr c input buf = (c', buf', Ok n) ->
  exists k pt m eopts,
    authentic cr c input k pt /\
    rfc_message m (takeN n buf') /\
    m_token m = k_token k /\ m_mid m = h_mid (k_hdr k) /\ m_type m = h_type (k_hdr k) /\
    (exists body, pt = m_code m :: body /\ options_deserialize body MAX_E_OPTION_COUNT = Ok (eopts, m_payload m)) /\
    (forall num v, In (num, v) (m_opts m) <->
       In (num, v) (map nv eopts) \/ (In (num, v) (map nv (k_opts k)) /\ num <> 9 /\ num <> 6)).
Proof.
  intros cr c c' input buf buf' n OK HR HB HL HBL H.
  pose proof (reachable_iv _ _ (ok_hmac_len _ OK) HR) as HI. pose proof (reachable_table _ _ HR) as HT.
  apply recv_output in H as (out & w & H & HS & -> & ->).
  apply core_authentic in H as [[_ F]|(k & pt & A & G)]; [discriminate| |assumption..]. specialize (G out eq_refl).
  pose proof A as (piv & nonce & rkid & rpiv & (EK & _) & AD & _).
  assert (KB : is_bytes (k_payload k)).
  { destruct (coap_parse_sound _ _ EK HB HL) as (_ & _ & _ & _ & _ & B & _). exact B. }
  assert (PB : is_bytes pt) by (eapply ok_aead_dec_bytes; eassumption).
  assert (PL : lenN pt < 2 ^ 32).
  { apply ok_aead_dec_len in AD; [|exact OK].
    destruct (coap_parse_sound _ _ EK HB HL) as ((_ & _ & _ & B & _) & _). lia. }
  destruct (pkg_generate_wf _ _ _ _ HB HL EK PB PL G) as (W1 & W2 & W3 & W4 & code & body & eopts & -> & ED & EH & ET & ER & _).
  apply coap_serialize_ok in HS as (-> & _ & _); [|assumption..].
  exists k, (code :: body), (msg_of out), eopts. rewrite written_take.
  split; [exact A|]. split; [apply pkt_bytes_rfc; assumption|].
  unfold msg_of; cbn [m_token m_mid m_type m_code m_payload m_opts]. rewrite ET, EH. cbn [h_mid h_type h_code].
  split; [reflexivity|]. split; [reflexivity|]. split; [reflexivity|]. split; [eauto|].
  unfold options_reorder in ER. apply bind_ok in ER as ([] & _ & ER).
  set (l := filter _ (k_opts k) ++ eopts) in *. destruct (N.ltb_spec MAX_OPTION_COUNT (lenN l)); [discriminate|].
  injection ER as ER. pose proof (exchange_sort_perm _ l 0 eq_refl) as P. rewrite <- ER.
  intros num v.
  assert (EQ : In (num, v) (map nv l) <-> In (num, v) (map nv eopts) \/ (In (num, v) (map nv (k_opts k)) /\ num <> 9 /\ num <> 6)).
  { unfold l. rewrite map_app, in_app_iff. 
    assert (X : In (num, v) (map nv (filter (fun o => negb (o_num o =? OPT_OSCORE) && negb (o_num o =? OPT_OBSERVE)) (k_opts k))) <->
      In (num, v) (map nv (k_opts k)) /\ num <> 9 /\ num <> 6).
    { rewrite !in_map_iff. split.
      - intros (o & E & I). apply filter_In in I as [I F]. apply andb_true_iff in F as [F1 F2].
        apply negb_true_iff in F1, F2. apply N.eqb_neq in F1, F2. unfold nv in E. injection E as <- <-.
        split; [exists o; auto|]. auto.
      - intros ((o & E & I) & F1 & F2). exists o. split; [exact E|]. apply filter_In. split; [exact I|].
        unfold nv in E. injection E as <- <-. apply andb_true_iff. split; apply negb_true_iff, N.eqb_neq; assumption. }
    tauto. }
  rewrite <- EQ. split; intros I; [eapply Permutation.Permutation_in; [symmetry; exact P|exact I]|eapply Permutation.Permutation_in; [exact P|exact I]].
Qed.
Print Assumptions C21_delivered_partial.

(** An attacker adds Uri-Query "x" (option 15, class E) outside the ciphertext of a
    protected request; it is delivered with the decrypted options. *)
Definition toy_injected : bytes := takeN 9 toy_req5 ++ [0x61; 120] ++ dropN 9 toy_req5.
Example C21_injected_ex :
  exists (c c' : ctx) (buf buf' : bytes) (n : N) (k : cpkt),
    reachable toy_crypto c /\ oscore2coap toy_crypto c toy_injected buf = (c', buf', Ok n) /\
    coap_deserialize (takeN n buf') = Ok k /\ In (15, [120]) (map nv (k_opts k)) /\
    (forall k' pt eopts payload, authentic toy_crypto c toy_injected k' pt ->
       options_deserialize (dropN 1 pt) MAX_E_OPTION_COUNT = Ok (eopts, payload) -> ~ In (15, [120]) (map nv eopts)).
Proof.
  exists toy_server, (fst (toy_recv toy_server toy_injected)), toy_out, (written [0x41; 1; 0; 5; 5; 0xb1; 97; 0x41; 120] toy_out), 9.
  eexists. split; [apply toy_server_reachable|]. split; [vm_compute; reflexivity|].
  split; [vm_compute; reflexivity|]. split; [vm_compute; auto|].
  intros k' pt eopts payload (piv & nonce & rkid & rpiv & (EK & o & EO & EP) & AD & R) ED.
  assert (X : exists k0, coap_deserialize toy_injected = Ok k0 /\
    match oscore_option_parser (k_opts k0) with Ok o0 => co_piv o0 = [0] | _ => False end /\ h_code (k_hdr k0) <? 32 = true /\
    cr_aead_dec toy_crypto (c_rkey toy_server)
      (Spec_OscorePrims.rfc_nonce (c_rid toy_server) [0] (c_iv toy_server)) (rfc_aad (c_alg toy_server) (c_rid toy_server) [0]) 8 (k_payload k0)
      = Some [1; 0xb1; 97]).
  { eexists. split; [vm_compute; reflexivity|]. split; [vm_compute; reflexivity|]. split; vm_compute; reflexivity. }
  destruct X as (k0 & EK0 & EO0 & EC & ED0). rewrite EK in EK0. injection EK0 as <-. rewrite EO in EO0.
  rewrite EC in R. destruct R as (-> & -> & ->). rewrite <- EP, EO0 in AD. rewrite ED0 in AD. injection AD as <-.
  vm_compute in ED. injection ED as <- <-. vm_compute. intros [X|[]]. discriminate.
Qed.

Example C21_example :
  crypto_ok toy_crypto /\ reachable toy_crypto toy_server /\
  exists c', oscore2coap toy_crypto toy_server toy_req5 toy_out = (c', written (toy_get 5) toy_out, Ok 7).
Proof.
  split; [apply toy_ok|]. split; [apply toy_server_reachable|].
  exists (fst (toy_recv toy_server toy_req5)). vm_compute. reflexivity.
Qed.

(** ** C22 *)

(** An accepted response was verified with the KID and Partial IV recorded for its
    token. *)
Theorem C22_verified_with_request :
  forall (cr : crypto) (c c' : ctx) (input buf piv : bytes) (observe : bool),
  (forall k m, lenN (cr_hmac cr k m) = 32) -> reachable cr c ->
  response_packet input piv observe -> accepts cr c input buf c' ->
  exists k r nonce pt, coap_deserialize input = Ok k /\ held (c_inter c) r /\ i_token r = k_token k /\
    cr_aead_dec cr (c_rkey c) nonce (rfc_aad (c_alg c) (i_kid r) (i_piv r)) 8 (k_payload k) = Some pt.
Proof.
  intros cr c c' input buf piv ob HL HR (k & HP & HC & _) HA. apply accepts_core in HA as (out & H).
  apply core_authentic in H as [[_ F]|(k' & pt & A & _)];
    [discriminate| |apply reachable_iv with cr; assumption|apply reachable_table with cr; assumption].
  destruct A as (p' & nonce & rkid & rpiv & HP' & AD & R). destruct (packet_fun _ _ _ _ _ HP HP') as [-> ->].
  destruct (N.ltb_spec (h_code (k_hdr k)) 32); [lia|]. destruct R as ((r & R1 & R2 & -> & ->) & _).
  exists k, r, nonce, pt. destruct HP as (EK & _). auto.
Qed.
Print Assumptions C22_verified_with_request.

(** A response with an unknown token is refused; no cryptographic operation takes
    part in that decision (the result is the same whatever the AEAD would say). *)
Theorem C22_unknown_token :
  forall (cr cr' : crypto) (c c' : ctx) (input buf buf' piv : bytes) (k : cpkt) (r : res N),
  reachable cr c -> packet input k piv -> 32 <= h_code (k_hdr k) ->
  (forall x, held (c_inter c) x -> i_token x <> k_token k) ->
  oscore2coap cr' c input buf = (c', buf', r) ->
  c' = c /\ buf' = buf /\ is_ok r = false /\ is_ub r = false /\ oscore2coap cr c input buf = (c', buf', r).
Proof.
  intros cr cr' c c' input buf buf' piv k r HR (EK & o & EO & EP) HC NH H.
  pose proof (reachable_table _ _ HR) as HT.
  assert (RQ : is_request k = false).
  { destruct (is_request k) eqn:E; [|reflexivity]. apply is_request_spec in E. lia. }
  assert (GR : exists e, get_record (c_inter c) (k_token k) = Err e).
  { destruct (get_remove_err _ _ HT NH) as [-> _]. destruct (8 <? lenN (k_token k)); eauto. }
  destruct GR as (e & GR).
  assert (RW : forall cur, read_wrapper (coap_get_message_type k) (k_token k) (c_inter c) cur = Err e).
  { intros cur. apply type_response in RQ as [T|T]; rewrite T; cbn [read_wrapper]; rewrite GR; reflexivity. }
  assert (X : exists e', forall cr0, oscore2coap_core cr0 c input = (c, Err e')).
  { unfold oscore2coap_core. unfold check_context_freshness.
    destruct (OSCORE_SSN_OVERFLOW_VALUE <=? c_ssn c); [eexists; reflexivity|]. rewrite EK. cbn [tryc]. rewrite EO. cbn [tryc].
    destruct (byte_array_new MAX_PLAINTEXT_LEN (sub32 (lenN (k_payload k)) AUTH_TAG_LEN)) as [bn|e1|u1] eqn:BN; cbn [tryc];
      [|eexists; reflexivity|exfalso; revert BN; unfold byte_array_new, check_buffer_size; destruct (_ <? _); discriminate].
    rewrite RQ.
    assert (DW : forall cr0 nn, decrypt_wrapper cr0 c nn k = (c, Err e)).
    { intros. unfold decrypt_wrapper. rewrite RW. reflexivity. }
    unfold recv_response. destruct (is_observe (k_opts k)).
    - destruct (co_piv o) as [|b t] eqn:E; [eexists; reflexivity|]. rewrite <- E.
      destruct (check_notification (c_notif c) (c_notif_init c) (co_piv o)) as [[]|e1|u1] eqn:CN; cbn [tryc].
      + exists e. intros. rewrite DW. reflexivity.
      + exists e1. reflexivity.
      + exfalso. unfold check_notification, piv2ssn in CN.
        destruct (_ <? _) in CN; cbn [bind] in CN; [discriminate|]. destruct (_ && _) in CN; discriminate.
    - exists e. intros. rewrite DW. reflexivity. }
  destruct X as (e' & X). rewrite (recv_err _ _ _ buf _ _ (X cr')) in H. injection H as <- <- <-.
  cbn. rewrite (recv_err _ _ _ buf _ _ (X cr)). auto.
Qed.
Print Assumptions C22_unknown_token.

(** A request that was sent is recorded under its token with the sender's own ID and
    Partial IV. *)
Theorem C22_request_recorded :
  forall (cr : crypto) (nw : N -> res unit) (c : ctx) (input buf buf' : bytes) (s : sstate) (k : cpkt) (n : N),
  reachable cr c -> coap_deserialize input = Ok k -> 0 < h_code (k_hdr k) < 32 ->
  coap2oscore cr nw c input buf = (s, buf', Ok n) ->
  exists r, held (c_inter (s_ctx s)) r /\ i_token r = k_token k /\ i_kid r = c_sid c /\ ssn2piv (c_ssn c) = Ok (i_piv r).
Proof.
  intros cr nw c input buf buf' s k n HR EK HC H. pose proof (reachable_table _ _ HR) as HT.
  unfold coap2oscore in H. destruct (coap2oscore_core cr nw c input) as [s' rc] eqn:C.
  assert (X : s' = s /\ exists out, rc = Ok (inl out)).
  { destruct rc as [[out|w]|e|u]; try discriminate.
    - destruct (coap_serialize out (lenN buf)) as [w [x|e|u]]; try discriminate. injection H as <- <- <-. eauto.
    - apply core_inr in C as (_ & _ & k' & EK' & _ & Z). rewrite EK in EK'. injection EK' as <-. lia. }
  destruct X as (-> & out & ->).
  apply core_inl in C as (k' & e & u & elen & pt & s1 & ct & opt & _ & EK' & _ & _ & _ & ES & EW & _).
  rewrite EK in EK'. injection EK' as <-.
  assert (RQ : is_request k = true) by (apply is_request_spec; lia).
  apply echo_stage_spec in ES as (_ & _ & ES).
  assert (I1 : c_inter (s_ctx s1) = c_inter c /\ c_sid (s_ctx s1) = c_sid c /\ c_ssn (s_ctx s1) = c_ssn c).
  { destruct ES as [->|(b & m & _ & _ & ->)]; cbn; auto. }
  destruct I1 as (I1 & I2 & I3).
  apply encrypt_wrapper_ok in EW as (piv & kid & kctx & nonce & rpiv & rkid & aad & uri & t & WI & _ & _ & RW & _ & _ & _ & UW & <- & _).
  rewrite I1 in UW, RW.
  apply type_request in RQ as TY.
  assert (NP : uses_new_piv (s_ctx s1) k = true).
  { unfold uses_new_piv. destruct TY as [-> | [-> | ->]]; reflexivity. }
  rewrite NP in WI. cbn [wire_ids] in WI. destruct WI as (WP & WK & _). rewrite I3 in WP. rewrite I2 in WK.
  assert (EP : (rpiv, rkid) = (piv, kid)).
  { destruct TY as [T|[T|T]]; rewrite T in RW; cbn [read_wrapper] in RW; congruence. }
  injection EP as -> ->.
  destruct (update_wrapper_sets _ _ _ _ _ _ _ HT UW TY) as (r & R1 & R2 & R3 & R4). exists r. subst. auto.
Qed.
Print Assumptions C22_request_recorded.

(** Every entry of the table of a used context belongs to a request sent in this
    context, with its own number, or to one received from the peer. *)
Theorem C22_table_provenance :
  forall (cr : crypto) (c : ctx) (r : inter), reachable cr c -> held (c_inter c) r ->
  (i_kid r = c_sid c /\ exists m, m < c_ssn c /\ ssn2piv m = Ok (i_piv r)) \/ i_kid r = c_rid c.
Proof.
  intros cr c r HR. revert r.
  enough (P : table_ok (c_inter c) /\ forall r, held (c_inter c) r ->
    (i_kid r = c_sid c /\ exists m, m < c_ssn c /\ ssn2piv m = Ok (i_piv r)) \/ i_kid r = c_rid c) by tauto.
  revert c HR. apply reachable_inv with (P := fun c => table_ok (c_inter c) /\ forall r, held (c_inter c) r ->
    (i_kid r = c_sid c /\ exists m, m < c_ssn c /\ ssn2piv m = Ok (i_piv r)) \/ i_kid r = c_rid c).
  - intros p nvm gn ge gf c H. apply init_inter in H as (-> & _). split; [apply interactions_init_ok|].
    intros r [X|[X|[X|[]]]]; discriminate.
  - intros c a c' o [HT HP] H. pose proof H as HK. apply exec_keys in HK as (K & T').
    assert (ES : c_sid c' = c_sid c) by (unfold same_keys in K; tauto).
    assert (ER : c_rid c' = c_rid c) by (unfold same_keys in K; tauto).
    split; [auto|]. intros r Hr. rewrite ES, ER. destruct a as [nw input buf|input buf].
    + apply exec_send in H as (s & rs & H & -> & _).
      assert (MO : c_ssn (s_ctx s) = c_ssn c \/ (c_ssn (s_ctx s) = u64 (c_ssn c + 1) /\ c_ssn c < OSCORE_SSN_OVERFLOW_VALUE)).
      { destruct (N.lt_ge_cases (c_ssn c) OSCORE_SSN_OVERFLOW_VALUE) as [L|L].
        - apply core_effect in H as (_ & _ & SE & _). unfold send_effect in SE.
          destruct (s_enc s) as [[[? ?] ?]|]; destruct (msg_uses_new_piv c input); intuition discriminate.
        - left. unfold coap2oscore_core, check_context_freshness in H.
          destruct (N.leb_spec OSCORE_SSN_OVERFLOW_VALUE (c_ssn c)); [|lia]. injection H as <- _. reflexivity. }
      assert (ME : c_ssn c <= c_ssn (s_ctx s)).
      { destruct MO as [-> | [-> L]]; [lia|]. unfold u64. rewrite N.mod_small; [lia|]. unfold OSCORE_SSN_OVERFLOW_VALUE in L. lia. }
      destruct (core_table _ _ _ _ _ _ _ HT H Hr) as [X|(XK & XP & XS & XL)].
      * destruct (HP r X) as [(A & m & M1 & M2)|A]; [left; split; [exact A|exists m; split; [lia|exact M2]]|auto].
      * left. split; [exact XK|]. exists (c_ssn c). split; [|exact XP]. rewrite XS. unfold u64.
        rewrite N.mod_small; [lia|]. unfold OSCORE_SSN_OVERFLOW_VALUE in XL. lia.
    + apply exec_recv in H as (_ & _ & rs & H & _).
      assert (ESN : c_ssn c' = c_ssn c) by (apply recv_core_effect in H as ((_ & E & _) & _); exact E). rewrite ESN.
      destruct (recv_table _ _ _ _ _ _ HT H Hr) as [X|[X|(y & Y & E1 & E2)]]; [auto|auto|].
      rewrite E1, E2. apply HP. exact Y.
Qed.
Print Assumptions C22_table_provenance.

Example C22_example :
  let c := fst (toy_send toy_client (toy_get 5)) in
  let s := fst (toy_recv toy_server toy_req5) in
  let resp := snd (toy_send s (toy_content 5)) in
  response_packet resp [] false /\
  (exists c', accepts toy_crypto c resp toy_out c') /\
  oscore2coap toy_crypto toy_client resp toy_out = (toy_client, toy_out, Err oscore_interaction_not_found).
Proof.
  cbn zeta. split.
  { eexists. split; [split; [vm_compute; reflexivity|eexists; split; vm_compute; reflexivity]|].
    split; [apply N.leb_le; vm_compute; reflexivity|]. rewrite <- is_observe_spec. vm_compute. split; discriminate. }
  split; [eexists; eexists; eexists; vm_compute; reflexivity|]. vm_compute. reflexivity.
Qed.

(** ** C23 *)

(** The table invariant holds in every context in use, also after failed calls. *)
Theorem C23_context_invariant :
  forall (cr : crypto) (c : ctx), reachable cr c ->
  forall i j r s, nth_error (c_inter c) i = Some (Some r) -> nth_error (c_inter c) j = Some (Some s) -> i <> j ->
    i_token r <> i_token s /\ ~ (i_type r = i_type s /\ i_uri r = i_uri s).
Proof.
  intros cr c HR i j r s Hi Hj Hne. destruct (reachable_table _ _ HR) as (_ & _ & HU).
  split; intros X; apply Hne; eapply HU; eauto.
Qed.
Print Assumptions C23_context_invariant.

Example C23_context_example :
  exists c r s, reachable toy_crypto c /\ nth_error (c_inter c) 0 = Some (Some r) /\ nth_error (c_inter c) 1 = Some (Some s).
Proof.
  exists (fst (run toy_crypto toy_client [ASend toy_nw (toy_get 5) toy_out; ASend toy_nw (toy_observe 6) toy_out])).
  eexists. eexists. split.
  { exists (toy_params [1] [2] true), (Ok 0), (repeat 0 13), (repeat 0 12), 0, toy_client, [ASend toy_nw (toy_get 5) toy_out; ASend toy_nw (toy_observe 6) toy_out].
    split; vm_compute; reflexivity. }
  split; vm_compute; reflexivity.
Qed.

(** ** C26 *)

Theorem C26_not_oscore :
  forall (cr : crypto) (c : ctx) (input buf : bytes) (k : cpkt),
  c_ssn c < 0x7FFFFF -> coap_deserialize input = Ok k -> (forall o, In o (k_opts k) -> o_num o <> 9) ->
  oscore2coap cr c input buf = (c, buf, Err not_oscore_pkt).
Proof.
  intros cr c input buf k HS EK HO. apply recv_err. unfold oscore2coap_core, check_context_freshness.
  change OSCORE_SSN_OVERFLOW_VALUE with 0x7FFFFF. destruct (N.leb_spec 0x7FFFFF (c_ssn c)); [lia|]. rewrite EK. cbn [tryc].
  assert (E : oscore_option_parser (k_opts k) = Err not_oscore_pkt).
  { unfold oscore_option_parser. generalize (@Err coscore not_oscore_pkt). induction (k_opts k) as [|o l IH]; intros cur; [reflexivity|].
    cbn [oscore_option_parser_loop]. change OPT_OSCORE with 9. destruct (N.eqb_spec (o_num o) 9) as [E|_].
    - destruct (HO o (or_introl eq_refl) E).
    - apply IH. intros x Hx. apply HO. right. exact Hx. }
  rewrite E. reflexivity.
Qed.
Print Assumptions C26_not_oscore.

(** Conversely the option parser, the only place where that error is raised, returns it
    for no packet with an OSCORE option. *)
Theorem C26_only_not_oscore :
  forall (k : cpkt) (o : copt), In o (k_opts k) -> o_num o = 9 ->
  oscore_option_parser (k_opts k) <> Err not_oscore_pkt.
Proof.
  intros k o HI HN. unfold oscore_option_parser.
  assert (V : forall m l, oscore_value_parse m l <> Err not_oscore_pkt).
  { intros m l. unfold oscore_value_parse. destruct (l =? 0); [discriminate|].
    unfold rd. destruct (nth_error m _) as [fl|]; cbn [bind]; [|discriminate].
    destruct (_ || _); [discriminate|]. unfold slice.
    destruct (_ <=? _); cbn [bind]; [|discriminate]. destruct (_ =? 0); cbn [bind]; [discriminate|].
    destruct (nth_error m _) as [s|]; cbn [bind]; [|discriminate].
    destruct (_ <=? _); cbn [bind]; discriminate. }
  assert (G : forall l cur, (In o l \/ cur <> Err not_oscore_pkt) -> oscore_option_parser_loop l cur <> Err not_oscore_pkt).
  { induction l as [|x l IH]; intros cur [HI'|HC]; cbn [oscore_option_parser_loop]; [destruct HI'|assumption| |].
    - change OPT_OSCORE with 9. destruct HI' as [->|HI'].
      + rewrite HN, N.eqb_refl. destruct (oscore_value_parse (o_val o ++ o_tail o) (lenN (o_val o))) eqn:E; cbn [bind];
          [apply IH; right; discriminate| |discriminate]. rewrite <- E. apply V.
      + destruct (o_num x =? 9); [|auto]. destruct (oscore_value_parse (o_val x ++ o_tail x) (lenN (o_val x))) eqn:E; cbn [bind];
          [apply IH; right; discriminate| |discriminate]. rewrite <- E. apply V.
    - destruct (o_num x =? OPT_OSCORE); [|auto]. destruct (oscore_value_parse (o_val x ++ o_tail x) (lenN (o_val x))) eqn:E; cbn [bind];
        [apply IH; right; discriminate| |discriminate]. rewrite <- E. apply V. }
  apply G. auto.
Qed.
Print Assumptions C26_only_not_oscore.

Example C26_example :
  exists k, coap_deserialize (toy_get 5) = Ok k /\ (forall o, In o (k_opts k) -> o_num o <> 9) /\
  oscore2coap toy_crypto toy_server (toy_get 5) toy_out = (toy_server, toy_out, Err not_oscore_pkt).
Proof.
  eexists. split; [vm_compute; reflexivity|]. split; [|vm_compute; reflexivity].
  intros o [<-|[]]. discriminate.
Qed.
