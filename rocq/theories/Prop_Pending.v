(** C63: two requests of a client at a time. *)
From Verif Require Import Base Proof_Base Model_Common Model_Crypto Model_Cbor Model_OscorePrims Spec_OscorePrims Proof_OscorePrims
  Model_Coap Spec_Coap Proof_Coap Model_Interactions Model_Replay Model_Context Spec_Options Spec_OscoreOption
  Model_Send Model_Recv Model_Run Spec_Interactions Proof_Interactions Proof_Send Proof_Recv Spec_Session Proof_Run Proof_Session Proof_Nonce
  Spec_UriPath Spec_RoundTrip Proof_RoundTrip Spec_Protect Proof_Protect Proof_OscoreOption Spec_Interop Proof_Interop
  Proof_CborTree Proof_Channel Prop_Interactions Spec_Peer Proof_Peer Proof_Toy Model_Toy Model_ToyRun Prop_Net.

Lemma cose_rejects cr kid piv aad nonce key ct : create_aad 10 kid piv MAX_AAD_LEN = Ok aad -> lenN aad <= 14 ->
  cr_aead_dec cr key nonce (rfc_aad 10 kid piv) 8 ct = None -> oscore_cose_decrypt cr ct nonce aad key = Err unexpected_result_from_ext_lib.
Proof.
  intros EA L AD. unfold oscore_cose_decrypt.
  assert (U : u32 (lenN aad + ENCRYPT0_ENCODING_OVERHEAD) = lenN aad + 16).
  { unfold u32, ENCRYPT0_ENCODING_OVERHEAD. change (2 ^ 32) with 4294967296. rewrite N.mod_small; lia. }
  rewrite U. unfold byte_array_new. rewrite check_ok by (unfold MAX_AAD_LEN; lia). cbn [bind].
  assert (ES : exists b, oscore_enc_structure aad (lenN aad + 16) = Ok b).
  { unfold oscore_enc_structure, cbor_put. set (b := enc_list 3 ++ _).
    assert (LB : lenN b <= lenN aad + 16).
    { unfold b. rewrite !lenN_app, !Proof_Cbor.enc_bstr_len.
      change (lenN (enc_list 3)) with 1. change (lenN (enc_tstr str_Encrypt0)) with 9.
      assert (Q : forall n, n < 24 -> Proof_Cbor.head_len n = 1) by (intros n X; unfold Proof_Cbor.head_len; destruct (N.ltb_spec n 24); [reflexivity|lia]).
      rewrite !Q by (rewrite ?lenN_nil; lia). rewrite lenN_nil. lia. }
    destruct (N.leb_spec (lenN b) (lenN aad + 16)); [eauto|lia]. }
  destruct ES as (b & ES). rewrite ES. cbn [bind]. rewrite Proof_CborTree.enc_structure_is_rfc in ES. apply Proof_Cbor.cbor_put_ok in ES as [-> _].
  rewrite <- (Proof_Channel.rfc_aad_created _ _ _ _ EA). change AUTH_TAG_LEN with 8. rewrite AD. reflexivity.
Qed.

(** What a sent request leaves in the table of the sender. *)
Lemma sent_table cr nw c s m input buf buf1 n : crypto_ok cr -> table_ok (c_inter c) ->
  rfc_message m input -> supported m input -> is_bytes input -> 0 < m_code m < 32 -> lenN buf < 2 ^ 32 ->
  coap2oscore cr nw c input buf = (s, buf1, Ok n) -> exists piv, ssn2piv (c_ssn c) = Ok piv /\
  forall x, held (c_inter (s_ctx s)) x <-> x = record_for m piv (c_sid c) \/ held (c_inter c) x /\ ~ concerns x m.
Proof.
  intros OK HC HM SUP HB CO LB HS.
  destruct (coap_parse_rfc m input HM (proj1 SUP)) as (k & EK & EM & TK & DC).
  assert (ECD : h_code (k_hdr k) = m_code m) by (rewrite <- EM; reflexivity).
  assert (LIN : lenN input < 2 ^ 32). { destruct SUP as ((_ & _ & _ & _ & PB) & _). change (2 ^ 32) with 4294967296. change (2 ^ 16) with 65536 in PB. lia. }
  destruct (send_full cr nw c input k buf s buf1 n OK HB LIN LB EK ltac:(lia) HS)
    as (e & u & elen & pt & ct & opt & nonce & aad & piv & kid & kctx & rpiv & rkid & uri & out & ES & EP & LPT & WI & NN & OG & RW & AA & CE & LC & UR & UW & CN & _).
  assert (RQ : is_request k = true) by (rewrite is_request_code, ECD; apply N.ltb_lt; lia).
  assert (NEW : uses_new_piv c k = true).
  { unfold uses_new_piv, needs_new_piv. destruct (type_request k RQ) as [-> | [-> | ->]]; reflexivity. }
  unfold wire_ids in WI. rewrite NEW in WI, NN. destruct WI as (PV & -> & ->).
  assert (RR : rpiv = piv /\ rkid = c_sid c).
  { destruct (type_request k RQ) as [T | [T | T]]; rewrite T in RW; cbn [read_wrapper] in RW; injection RW as <- <-; auto. }
  destruct RR as [-> ->].
  pose proof (uri_of_message k m uri EM UR) as EU.
  destruct (update_request k m (c_inter c) uri piv (c_sid c) HC EM RQ EU) as [UC _]. destruct (UC _ UW) as [SZ HELD].
  exists piv. split; [exact PV|exact HELD].
Qed.

(** A client with an outstanding request [x] sends another one. From then on the response
    that RFC 8613 prescribes for the first one, protected with its nonce, is decrypted
    with the nonce of the second one, which is a different one. Unless the AEAD accepts
    that, the response is refused, and the context stays as it is. (C72_client_partial: without the
    second request the response is delivered.) *)
Theorem C63_pending_refuted :
  forall (cr : crypto) (nw : N -> res unit) (c : ctx) (s : sstate) (m : message) (input buf buf1 : bytes) (n : N)
    (x : inter) (num : N) (w : message) (wire pt out : bytes),
  crypto_ok cr -> reachable cr c ->
  rfc_message m input -> supported m input -> is_bytes input -> 0 < m_code m < 32 -> lenN buf < 2 ^ 16 ->
  coap2oscore cr nw c input buf = (s, buf1, Ok n) -> c_ssn c + 1 < OSCORE_SSN_OVERFLOW_VALUE ->
  held (c_inter c) x -> ~ concerns x m -> i_kid x = c_sid c -> minimal_be num (i_piv x) -> num <> c_ssn c ->
  lenN (c_sid c) + lenN (i_piv x) <= 7 -> lenN (i_piv x) <= 5 ->
  rfc_sealed cr (c_rkey c) (rfc_nonce (i_kid x) (i_piv x) (c_iv c)) (rfc_aad (c_alg c) (i_kid x) (i_piv x)) pt oo_empty w wire ->
  parsable w wire -> lenN pt <= 1024 -> 32 <= m_code w -> ~ In 6 (map fst (m_opts w)) -> m_token w = i_token x ->
  c_nonce (s_ctx s) <> rfc_nonce (i_kid x) (i_piv x) (c_iv c) /\
  (cr_aead_dec cr (c_rkey c) (c_nonce (s_ctx s)) (rfc_aad (c_alg c) (i_kid x) (i_piv x)) 8 (m_payload w) = None ->
   oscore2coap cr (s_ctx s) wire out = (s_ctx s, out, Err unexpected_result_from_ext_lib)).
Proof.
  intros cr nw c s m input buf buf1 n x num w wire pt out OK RC HM SUP HB CO LB HS SL HX NC KX MX NN LK L5 RS PO LP HC NO TX.
  destruct (reachable_both cr c OK RC) as [UC KC].
  assert (EX : exec cr c (ASend nw input buf) = (s_ctx s, {| ob_enc := s_enc s; ob_nvm := s_nvm s; ob_buf := buf1; ob_res := Ok n |}))
    by (unfold exec; rewrite HS; reflexivity).
  pose proof EX as K. apply exec_keys in K as [(k1 & k2 & k3 & _ & k5 & k6 & k7 & k8) _].
  pose proof (usable_step _ _ _ _ _ UC EX) as UC1. pose proof (proj1 UC1) as TD.
  pose proof EX as Y. apply exec_send in Y as (s0 & r0 & CX & E0 & _). apply send_ssn in CX as SX. rewrite <- E0 in SX.
  destruct (request_sent cr nw c s m input buf buf1 n OK UC KC HM SUP HB CO ltac:(change (2 ^ 16) with 65536 in LB; change (2 ^ 32) with 4294967296; lia) HS) as (piv & MB & CN & HR & L7).
  pose proof KC as (AL & _ & IV).
  destruct (sent_table cr nw c s m input buf buf1 n OK (proj1 UC) HM SUP HB CO ltac:(change (2 ^ 16) with 65536 in LB; change (2 ^ 32) with 4294967296; lia) HS) as (piv' & PV & ST).
  apply ssn2piv_ok in PV as (_ & MB' & P5'). assert (piv' = piv) as -> by (eapply minimal_be_unique; eassumption).
  assert (HX1 : held (c_inter (s_ctx s)) x) by (apply ST; right; split; assumption).
  split.
  { rewrite CN. intros E. assert (P5 : lenN piv <= 5) by lia.
    pose proof (create_nonce_spec (c_sid c) piv (c_iv c) ltac:(lia) P5 IV) as N1.
    pose proof (create_nonce_spec (c_sid c) (i_piv x) (c_iv c) ltac:(lia) L5 IV) as N2. rewrite KX in E. rewrite <- E in N2.
    destruct (create_nonce_inj _ _ _ _ _ _ IV N1 N2) as [_ E']. destruct MX as (_ & MX & _), MB as (_ & MB & _). congruence. }
  intros AD. rewrite AL in RS, AD.
  destruct (opens_sealed _ _ _ _ _ _ _ _ OK RS PO) as (k & co & EK & EM & EO & OP & OK' & P5 & LC).
  assert (EP : k_payload k = m_payload w) by (rewrite <- EM; reflexivity).
  assert (RQK : is_request k = false).
  { rewrite is_request_code. change (h_code (k_hdr k)) with (m_code (msg_of k)). rewrite EM. apply N.ltb_ge. exact HC. }
  assert (OBK : is_observe (k_opts k) = false).
  { rewrite is_observe_nv. change (map nv (k_opts k)) with (m_opts (msg_of k)). rewrite EM.
    destruct (existsb _ _) eqn:X; [|reflexivity]. apply existsb_exists in X as (y & IY & Y). apply N.eqb_eq in Y. exfalso. apply NO. rewrite <- Y. apply in_map. exact IY. }
  pose proof (type_by_observe k RQK) as TYK. rewrite OBK in TYK.
  assert (GD : get_record (c_inter (s_ctx s)) (k_token k) = Ok x).
  { apply (C24_get _ _ TD). split; [exact HX1|]. rewrite <- TX, <- EM. reflexivity. }
  destruct (aad_total (i_kid x) (i_piv x) ltac:(rewrite KX; exact LK)) as (aad & EA & LA).
  pose proof (cose_rejects cr _ _ _ _ _ _ EA LA AD) as CD. rewrite <- EP in CD.
  assert (DW : decrypt_wrapper cr (s_ctx s) None k = (s_ctx s, Err unexpected_result_from_ext_lib)).
  { unfold decrypt_wrapper. rewrite TYK. cbn [read_wrapper]. rewrite GD. cbn [bind tryc].
    assert (AL1 : c_alg (s_ctx s) = 10%Z) by congruence. assert (RK1 : c_rkey (s_ctx s) = c_rkey c) by congruence. rewrite AL1, RK1.
    rewrite EA. cbn [tryc]. rewrite CD. reflexivity. }
  assert (CORE : oscore2coap_core cr (s_ctx s) wire = (s_ctx s, Err unexpected_result_from_ext_lib)).
  { unfold oscore2coap_core, check_context_freshness. destruct (N.leb_spec OSCORE_SSN_OVERFLOW_VALUE (c_ssn (s_ctx s))); [lia|]. cbn [tryc].
    rewrite EK. cbn [tryc]. rewrite EO. cbn [tryc]. rewrite EP, LC. change AUTH_TAG_LEN with 8. rewrite sub32_small by lia.
    unfold byte_array_new. replace (lenN pt + 8 - 8) with (lenN pt) by lia. unfold check_buffer_size, MAX_PLAINTEXT_LEN.
    destruct (N.ltb_spec 1024 (lenN pt)); [lia|]. cbn [tryc]. rewrite RQK. unfold recv_response.
    rewrite OBK, OP. cbn [oo_empty oo_piv]. rewrite DW. reflexivity. }
  unfold oscore2coap. rewrite CORE. reflexivity.
Qed.
Print Assumptions C63_pending_refuted.

(** The client of C63_pending_ex: it has asked for /a, and asks for /b. The server's answer
    to the first request (2.04 with the plaintext 69) carries the token of that one. *)
Definition toy_asked : ctx := fst (exec toy_crypto toy_client (ASend toy_nw (toy_get_of 1 97) toy_out)).
Definition toy_asked_ct : bytes :=
  match cr_aead_enc toy_crypto (c_rkey toy_asked) (rfc_nonce [1] [0] (c_iv toy_asked)) (rfc_aad 10 [1] [0]) 8 [69] with Some ct => ct | None => [] end.
Definition toy_answer : message :=
  {| m_ver := 1; m_type := 2; m_code := 68; m_mid := 1; m_token := [1]; m_opts := [(9, [])]; m_payload := toy_asked_ct |}.
Definition toy_answer_wire : bytes := [0x61; 68; 0; 1; 1; 0x90; 255] ++ toy_asked_ct.
Example C63_pending_hypotheses :
  exists x, reachable toy_crypto toy_asked /\
  rfc_message (toy_get_of_msg 2 98) (toy_get_of 2 98) /\ supported (toy_get_of_msg 2 98) (toy_get_of 2 98) /\
  is_ok (snd (coap2oscore toy_crypto toy_nw toy_asked (toy_get_of 2 98) toy_out)) = true /\
  c_ssn toy_asked + 1 < OSCORE_SSN_OVERFLOW_VALUE /\
  held (c_inter toy_asked) x /\ ~ concerns x (toy_get_of_msg 2 98) /\ i_kid x = c_sid toy_asked /\ minimal_be 0 (i_piv x) /\ 0 <> c_ssn toy_asked /\
  rfc_sealed toy_crypto (c_rkey toy_asked) (rfc_nonce (i_kid x) (i_piv x) (c_iv toy_asked)) (rfc_aad (c_alg toy_asked) (i_kid x) (i_piv x)) [69] oo_empty
    toy_answer toy_answer_wire /\
  parsable toy_answer toy_answer_wire /\ m_token toy_answer = i_token x /\
  cr_aead_dec toy_crypto (c_rkey toy_asked) (c_nonce (fst (exec toy_crypto toy_asked (ASend toy_nw (toy_get_of 2 98) toy_out))))
    (rfc_aad 10 [1] [0]) 8 (m_payload toy_answer) = None.
Proof.
  exists {| i_type := MREQUEST; i_token := [1]; i_uri := [97]; i_piv := [0]; i_kid := [1] |}. cbn [i_kid i_piv i_token].
  split; [exists (toy_params [1] [2] true), (Ok 0), (repeat 0 13), (repeat 0 12), 0, toy_client, [ASend toy_nw (toy_get_of 1 97) toy_out]; split; vm_compute; reflexivity|].
  split.
  { unfold rfc_message, toy_get_of_msg. cbn [m_ver m_type m_code m_mid m_token m_opts m_payload]. do 4 (split; [reflexivity|]). split; [apply N.leb_le; reflexivity|].
    exists [0xb1; 98]. split; [|reflexivity]. exists [0xb1; 98]. split; [|reflexivity].
    refine (rfc_cons 0 11 [98] 11 [] 1 [] _ _ _ _ _ _); [apply N.leb_le; reflexivity|apply (field_short 11); reflexivity|apply (field_short 1); reflexivity|constructor]. }
  split.
  { unfold supported, parsable, toy_get_of_msg. cbn [m_opts m_payload].
    repeat match goal with |- _ /\ _ => split end; try (right; apply N.leb_le; reflexivity); repeat constructor; try (apply N.leb_le; reflexivity); try (apply N.ltb_lt; reflexivity); try (right; apply N.leb_le; reflexivity);
      try (intros X; cbn in X; repeat destruct X as [X|X]; try discriminate; contradiction). }
  split; [vm_compute; reflexivity|]. split; [vm_compute; reflexivity|].
  split.
  { assert (E : nth_error (c_inter toy_asked) 0 = Some (Some {| i_type := MREQUEST; i_token := [1]; i_uri := [97]; i_piv := [0]; i_kid := [1] |}))
      by (vm_compute; reflexivity). exact (nth_error_In _ _ E). }
  split; [intros [_ E]; vm_compute in E; discriminate|]. split; [vm_compute; reflexivity|].
  split; [split; [repeat constructor|split; [reflexivity|split; [apply N.leb_le; reflexivity|reflexivity]]]|].
  split; [vm_compute; discriminate|]. split; [split; [|split]|].
  - unfold rfc_message. cbn [toy_answer m_ver m_type m_code m_mid m_token m_opts m_payload]. do 4 (split; [reflexivity|]). split; [apply N.leb_le; reflexivity|].
    exists (0x90 :: 255 :: toy_asked_ct). split; [|reflexivity]. exists [0x90]. split; [|vm_compute; reflexivity].
    refine (rfc_cons 0 9 [] 9 [] 0 [] _ _ _ _ _ _); [apply N.leb_le; reflexivity|apply (field_short 9); reflexivity|apply (field_short 0); reflexivity|constructor].
  - exists [], [], []. split; [reflexivity|]. split; [constructor|]. split; [constructor|apply N.leb_le; reflexivity].
  - vm_compute. reflexivity.
  - split; [unfold parsable; split; [repeat constructor|split; [repeat constructor|split; [repeat constructor|split; [apply N.leb_le; reflexivity|vm_compute; reflexivity]]]]|].
    split; [reflexivity|]. vm_compute. reflexivity.
Qed.
