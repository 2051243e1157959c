(** What arrives when the peer puts anything at all inside of its messages. *)
From Coq Require Import Permutation.
From Verif Require Import Base Proof_Base Model_Common Model_Crypto Model_Cbor Proof_Cbor Model_OscorePrims Spec_OscorePrims Proof_OscorePrims
  Model_Coap Spec_Coap Proof_Coap Proof_Stripped Proof_CoapExact Model_Interactions Model_Context Spec_Options Proof_Options
  Spec_OscoreOption Proof_OscoreOption Prop_Options Prop_Interactions
  Model_Send Model_Recv Model_Run Spec_Interactions Proof_Interactions Proof_Send Proof_Recv
  Spec_Session Proof_Run Proof_Session Proof_Nonce Proof_Wire Spec_UriPath Proof_UriPath Spec_RoundTrip Proof_RoundTrip
  Spec_Protect Proof_Protect Spec_CborTree Proof_CborTree Spec_Channel Proof_Channel Proof_Ids Proof_Net Spec_Interop Proof_Interop
  Spec_Safe Proof_Safe Spec_Cut Prop_Cut Spec_Peer.

Lemma walk_many slots n d : starts_with n d -> forall room num k, lenN d < 2 ^ 16 -> k <= slots -> slots < k + n -> (N.to_nat n < room)%nat ->
  walk slots room d num k = UB OobWrite.
Proof.
  intros H. induction H as [r|n dn dx x ln lx v r D V PL S IH]; intros room num k HL HK HN HR; [lia|].
  destruct (N.eq_dec k slots) as [->|NE].
  - pose proof (field_nibble _ _ _ D). pose proof (field_nibble _ _ _ V). rewrite walk_cons. destruct (N.eqb_spec (dn * 16 + ln) 255); [lia|].
    replace ((dn * 16 + ln) / 16) with dn by lia. replace ((dn * 16 + ln) mod 16) with ln by lia.
    rewrite lenN_cons, !lenN_app in HL. set (s := dn * 16 + ln :: dx ++ lx ++ v ++ r).
    assert (S1 : s = [dn * 16 + ln] ++ dx ++ (lx ++ v ++ r)) by reflexivity.
    assert (S2 : s = ([dn * 16 + ln] ++ dx) ++ lx ++ (v ++ r)) by (rewrite S1, <- !app_assoc; reflexivity).
    destruct (parse_delta_any _ _ _ [dn * 16 + ln] (lx ++ v ++ r) D) as (y & ED). change (lenN [dn * 16 + ln]) with 1 in ED.
    rewrite <- S1 in ED. rewrite ED. cbn [bind]. change 1 with (lenN [dn * 16 + ln]) at 1. rewrite <- lenN_app.
    assert (EL : parse_len s (lenN ([dn * 16 + ln] ++ dx)) ln = Ok (lenN v, lenN ([dn * 16 + ln] ++ dx) + lenN lx)).
    { rewrite S2. apply parse_len_field; [exact V|exact PL|lia]. }
    rewrite EL. cbn [bind]. destruct (N.leb_spec slots slots); [reflexivity|lia].
  - destruct (walk_option slots room dn dx x ln lx v r num k D V PL HL ltac:(lia)) as (y & o & ->).
    destruct room as [|[|room]]; [lia..|]. rewrite lenN_cons, !lenN_app in HL. rewrite IH by lia. reflexivity.
Qed.

Lemma inner_many code body k : starts_with 11 body -> lenN body < 2 ^ 16 -> o_coap_pkg_generate (code :: body) k = UB OobWrite.
Proof.
  intros S L. unfold o_coap_pkg_generate. cbn [oscore_decrypted_payload_parser]. unfold options_deserialize.
  destruct body as [|b body]; [exfalso; inversion S; lia|].
  change (N.to_nat MAX_OPTION_COUNT) with 20%nat. rewrite loop_start by exact L.
  rewrite (walk_many _ _ _ S) by (try exact L; unfold MAX_E_OPTION_COUNT; lia). reflexivity.
Qed.
Lemma inner_cut code body k n : cut n body -> n < 10 -> lenN body < 2 ^ 16 -> o_coap_pkg_generate (code :: body) k = UB OobRead.
Proof.
  intros S N L. unfold o_coap_pkg_generate. cbn [oscore_decrypted_payload_parser]. unfold options_deserialize.
  destruct body as [|b body]; [exfalso; inversion S|].
  change (N.to_nat MAX_OPTION_COUNT) with 20%nat. rewrite loop_start by exact L.
  rewrite (walk_cut _ _ _ S) by (try exact L; unfold MAX_E_OPTION_COUNT; lia). reflexivity.
Qed.
Lemma inner_path code inner obs payload k : rfc_options 0 inner obs ->
  Forall delta_ok (deltas 0 inner) -> Forall (fun p => len_ok (lenN (snd p)) /\ fst p < 2 ^ 16) inner ->
  lenN (obs ++ marked payload) < 2 ^ 16 -> lenN inner <= 10 -> lenN (k_opts k) + lenN inner <= 20 ->
  path_size (map nv (k_opts k) ++ inner) = 30 ->
  exists out, o_coap_pkg_generate (code :: obs ++ marked payload) k = Ok out /\
    uri_path_create (k_opts out) OSCORE_MAX_URI_PATH_LEN = UB OobWrite.
Proof.
  intros IO DI FI LB LI LT PS.
  destruct (options_parse inner payload (obs ++ marked payload) MAX_E_OPTION_COUNT) as (eo & EEO & NEO & DEO).
  { exists obs. split; [exact IO|reflexivity]. }
  { exact DI. }
  { eapply Forall_impl; [|exact FI]. cbn. tauto. }
  { eapply Forall_impl; [|exact FI]. cbn. tauto. }
  { exact LB. }
  { lia. }
  { exact LI. }
  assert (LEO : lenN eo = lenN inner). { rewrite <- NEO. unfold lenN. rewrite map_length. reflexivity. }
  assert (RE : exists opts, options_reorder (k_opts k) eo = Ok opts).
  { unfold options_reorder. set (l := filter _ _ ++ eo).
    assert (LL : lenN l <= 20).
    { unfold l. rewrite lenN_app.
      pose proof (filter_le (fun o0 : copt => negb (o_num o0 =? OPT_OSCORE) && negb (o_num o0 =? OPT_OBSERVE)) (k_opts k)). lia. }
    assert (P1 : 1 <= lenN (k_opts k) + lenN eo).
    { destruct (N.leb_spec 1 (lenN (k_opts k) + lenN eo)); [assumption|exfalso].
      destruct (k_opts k); [|rewrite lenN_cons in *; lia]. destruct inner; [cbn in PS; lia|rewrite LEO, lenN_cons in *; lia]. }
    assert (U8 : u8 (lenN (k_opts k) + lenN eo + 2 ^ 8 - 1) <= 20).
    { unfold u8. change (2 ^ 8) with 256. replace (lenN (k_opts k) + lenN eo + 256 - 1) with (lenN (k_opts k) + lenN eo - 1 + 1 * 256) by lia.
      rewrite N.mod_add by lia. rewrite N.mod_small by lia. lia. }
    unfold check_buffer_size, MAX_OPTION_COUNT. destruct (N.ltb_spec 20 (u8 (lenN (k_opts k) + lenN eo + 2 ^ 8 - 1))); [lia|]. cbn [bind].
    destruct (N.ltb_spec 20 (lenN l)); [lia|]. eauto. }
  destruct RE as (opts & RE). unfold o_coap_pkg_generate. cbn [oscore_decrypted_payload_parser]. rewrite EEO. cbn [bind]. rewrite RE. cbn [bind].
  eexists. split; [reflexivity|]. cbn [k_opts].
  change OSCORE_MAX_URI_PATH_LEN with 30. rewrite uri_path_create_exact by (apply N.ltb_lt; reflexivity). cbv zeta.
  assert (E : segs_size (path_segments opts) = 30).
  { rewrite path_size_segs. unfold options_reorder in RE. apply bind_ok in RE as ([] & _ & RE).
    destruct (_ <? _); [discriminate|]. injection RE as <-.
    match goal with |- context [exchange_sort _ ?l 0] => set (ll := l) end.
    rewrite <- (path_size_perm _ _ (exchange_sort_perm _ ll 0 eq_refl)). unfold ll. rewrite map_app, !path_size_app, path_size_filter, NEO.
    rewrite path_size_app in PS. exact PS. }
  rewrite E. reflexivity.
Qed.

Section WithCrypto.
Variable cr : crypto.

Lemma opens_sealed key nonce aad pt o w wire : crypto_ok cr -> rfc_sealed cr key nonce aad pt o w wire -> parsable w wire ->
  exists k co, coap_deserialize wire = Ok k /\ msg_of k = w /\ oscore_option_parser (k_opts k) = Ok co /\
    co_piv co = oo_piv o /\ kid_view co = Ok (opt_get (oo_kid o)) /\ lenN (oo_piv o) <= 5 /\
    lenN (m_payload w) = lenN pt + 8.
Proof.
  intros OK (RW & (osc & before & after & WO & FX & OV & LOS) & AE) PO.
  destruct (coap_parse_rfc _ _ RW PO) as (k & EK & EM & TK & DC).
  assert (EO : map nv (k_opts k) = before ++ (9, osc) :: after) by (rewrite <- WO, <- EM; reflexivity).
  destruct (map_eq_app nv _ _ _ EO) as (ka & kb & EKO & EA & EB).
  apply map_eq_cons in EB as (x & kc & -> & EX & EB).
  unfold nv in EX. injection EX as EX1 EX2.
  assert (N9K : Forall (fun o => o_num o <> 9) ka /\ Forall (fun o => o_num o <> 9) kc).
  { apply Forall_app in FX as [FX1 FX2]. split; apply (forall_nums (fun n => n <> 9)); [rewrite EA|rewrite EB]; assumption. }
  destruct N9K as [N9KA N9KC].
  assert (OPT : exists co, oscore_value_parse (osc ++ o_tail x) (lenN osc) = Ok co /\ co_piv co = oo_piv o /\ kid_view co = Ok (opt_get (oo_kid o)) /\ lenN (oo_piv o) <= 5).
  { destruct OV as [|o P5 OC NE].
    - eexists. split; [reflexivity|]. repeat split. apply N.leb_le. reflexivity.
    - rewrite (parse_bytes o (o_tail x) P5 OC ltac:(lia)). eexists. split; [reflexivity|]. cbn [co_piv kid_view]. split; [reflexivity|]. split; [|exact P5].
      unfold kid_view; cbn [co_kid_mem co_kid_len]. destruct (oo_kid o) as [kk|]; cbn [opt_get]; [exact (slice_app [] kk (o_tail x))|reflexivity]. }
  destruct OPT as (co & OP & OP1 & OP2 & OP5).
  exists k, co. conj; try assumption.
  - rewrite EKO. rewrite parser_one by assumption. rewrite EX2. exact OP.
  - apply (ok_aead_enc_len _ OK _ _ _ _ _ _ AE).
Qed.

(** The undefined behaviour that a plaintext leads to in the packet [k]. *)
Definition ends_in (u : ub) (pt : bytes) (k : cpkt) : Prop :=
  o_coap_pkg_generate pt k = UB u \/
  exists out, o_coap_pkg_generate pt k = Ok out /\ uri_path_create (k_opts out) OSCORE_MAX_URI_PATH_LEN = UB u.

Lemma decrypt_ends d nn k rpiv rkid nonce aad pt u :
  read_wrapper (coap_get_message_type k) (k_token k) (c_inter d)
      (match nn with Some o => Some (co_piv o, takeN (co_kid_len o) (co_kid_mem o)) | None => None end) = Ok (rpiv, rkid) ->
  match nn with Some o => let* kid := kid_view o in create_nonce kid (co_piv o) (c_iv d) | None => Ok (c_nonce d) end = Ok nonce ->
  create_aad (c_alg d) rkid rpiv MAX_AAD_LEN = Ok aad ->
  oscore_cose_decrypt cr (k_payload k) nonce aad (c_rkey d) = Ok pt -> ends_in u pt k ->
  snd (decrypt_wrapper cr d nn k) = UB u.
Proof.
  intros RW NO AA DE E. unfold decrypt_wrapper. rewrite RW. cbn [tryc]. rewrite NO. cbn [tryc]. rewrite AA. cbn [tryc]. rewrite DE. cbn [tryc].
  destruct E as [->|(out & -> & E)]; [reflexivity|]. cbn [tryc]. rewrite E. reflexivity.
Qed.

Lemma array_equals_refl a : array_equals a a = true.
Proof.
  unfold array_equals. rewrite N.eqb_refl. cbn [negb]. induction a as [|x l IH]; [reflexivity|].
  cbn [combine forallb fst snd]. rewrite N.eqb_refl. exact IH.
Qed.

Lemma sealed_request d o w wire pt n u buf :
  crypto_ok cr -> keyed d ->
  rfc_sealed cr (c_rkey d) (rfc_nonce (c_rid d) (oo_piv o) (c_iv d)) (rfc_aad (c_alg d) (c_rid d) (oo_piv o)) pt o w wire ->
  parsable w wire -> lenN pt <= 1024 -> m_code w < 32 ->
  oo_kid o = Some (c_rid d) -> piv2ssn (oo_piv o) = Ok n -> lenN (c_rid d) + lenN (oo_piv o) <= 7 ->
  c_ssn d < OSCORE_SSN_OVERFLOW_VALUE -> (c_echo d = ECHO_SYNCHRONIZED -> Model_Replay.rw_valid n (c_win d) = true) ->
  (forall k, msg_of k = w -> ends_in u pt k) ->
  snd (oscore2coap cr d wire buf) = UB u.
Proof.
  intros OK (AL & _ & IV) RS PO LP HC OKID PIV2 LK SD SW EI. rewrite AL in RS.
  destruct (opens_sealed _ _ _ _ _ _ _ OK RS PO) as (k & co & EK & EM & EO & OP & OK' & P5 & LC).
  destruct RS as (_ & _ & AE). rewrite OKID in OK'. cbn [opt_get] in OK'.
  assert (EP : k_payload k = m_payload w) by (rewrite <- EM; reflexivity).
  assert (RQK : is_request k = true).
  { rewrite is_request_code. change (h_code (k_hdr k)) with (m_code (msg_of k)). rewrite EM. apply N.ltb_lt. exact HC. }
  destruct (kid_view_len _ _ OK') as [KL KT].
  destruct (aad_total (c_rid d) (oo_piv o) LK) as (aad & EA & LA).
  pose proof (cose_reads cr _ _ _ _ _ _ _ OK EA LA AE) as CD. rewrite <- EP in CD.
  assert (DW : snd (decrypt_wrapper cr d (Some co) k) = UB u).
  { eapply decrypt_ends with (nn := Some co); [| | |exact CD|].
    - rewrite OP, KT. destruct (type_request k RQK) as [-> | [-> | ->]]; reflexivity.
    - rewrite OK'. cbn [bind]. rewrite OP. apply create_nonce_spec; lia.
    - rewrite AL. exact EA.
    - apply EI. exact EM. }
  assert (CORE : snd (oscore2coap_core cr d wire) = UB u).
  { unfold oscore2coap_core, check_context_freshness. destruct (N.leb_spec OSCORE_SSN_OVERFLOW_VALUE (c_ssn d)); [lia|]. cbn [tryc].
    rewrite EK. cbn [tryc]. rewrite EO. cbn [tryc]. rewrite EP, LC. change AUTH_TAG_LEN with 8. rewrite sub32_small by lia.
    unfold byte_array_new. replace (lenN pt + 8 - 8) with (lenN pt) by lia. unfold check_buffer_size, MAX_PLAINTEXT_LEN.
    destruct (N.ltb_spec 1024 (lenN pt)); [lia|]. cbn [tryc]. rewrite RQK. unfold recv_request.
    rewrite KL, N.eqb_refl. cbn [negb]. rewrite OK'. cbn [tryc].
    rewrite array_equals_refl. cbn [negb]. rewrite OP, PIV2. cbn [tryc].
    assert (RV : (match c_echo d with ECHO_SYNCHRONIZED => negb (Model_Replay.rw_valid n (c_win d)) | _ => false end) = false).
    { destruct (c_echo d); try reflexivity. rewrite SW by reflexivity. reflexivity. }
    rewrite RV. destruct (decrypt_wrapper cr d (Some co) k) as [c1 r]. cbn [snd] in DW. rewrite DW. reflexivity. }
  unfold oscore2coap. destruct (oscore2coap_core cr d wire) as [c1 r]. cbn [snd] in CORE. rewrite CORE. reflexivity.
Qed.

(** Answers without a Partial IV of their own. *)
Lemma sealed_response d o w wire pt x u buf :
  crypto_ok cr -> keyed d -> table_ok (c_inter d) ->
  rfc_sealed cr (c_rkey d) (c_nonce d) (rfc_aad (c_alg d) (i_kid x) (i_piv x)) pt o w wire ->
  parsable w wire -> lenN pt <= 1024 -> 32 <= m_code w -> existsb (fun p => fst p =? 6) (m_opts w) = false ->
  oo_piv o = [] -> held (c_inter d) x -> i_token x = m_token w -> lenN (i_kid x) + lenN (i_piv x) <= 7 ->
  c_ssn d < OSCORE_SSN_OVERFLOW_VALUE -> (forall k, msg_of k = w -> ends_in u pt k) ->
  snd (oscore2coap cr d wire buf) = UB u.
Proof.
  intros OK (AL & _ & IV) TD RS PO LP HC NOB NP HX TX LK SD EI. rewrite AL in RS.
  destruct (opens_sealed _ _ _ _ _ _ _ OK RS PO) as (k & co & EK & EM & EO & OP & OK' & P5 & LC).
  destruct RS as (_ & _ & AE).
  assert (EP : k_payload k = m_payload w) by (rewrite <- EM; reflexivity).
  assert (RQK : is_request k = false).
  { rewrite is_request_code. change (h_code (k_hdr k)) with (m_code (msg_of k)). rewrite EM. apply N.ltb_ge. exact HC. }
  assert (OBK : is_observe (k_opts k) = false).
  { rewrite is_observe_nv. change (map nv (k_opts k)) with (m_opts (msg_of k)). rewrite EM. exact NOB. }
  pose proof (type_by_observe k RQK) as TYK. rewrite OBK in TYK.
  assert (GD : get_record (c_inter d) (k_token k) = Ok x).
  { apply (C24_get _ _ TD). split; [exact HX|]. rewrite TX, <- EM. reflexivity. }
  destruct (aad_total (i_kid x) (i_piv x) LK) as (aad & EA & LA).
  pose proof (cose_reads cr _ _ _ _ _ _ _ OK EA LA AE) as CD. rewrite <- EP in CD.
  assert (DW : snd (decrypt_wrapper cr d None k) = UB u).
  { eapply decrypt_ends with (nn := None); [| | |exact CD|].
    - rewrite TYK. cbn [read_wrapper]. rewrite GD. reflexivity.
    - reflexivity.
    - rewrite AL. exact EA.
    - apply EI. exact EM. }
  assert (CORE : snd (oscore2coap_core cr d wire) = UB u).
  { unfold oscore2coap_core, check_context_freshness. destruct (N.leb_spec OSCORE_SSN_OVERFLOW_VALUE (c_ssn d)); [lia|]. cbn [tryc].
    rewrite EK. cbn [tryc]. rewrite EO. cbn [tryc]. rewrite EP, LC. change AUTH_TAG_LEN with 8. rewrite sub32_small by lia.
    unfold byte_array_new. replace (lenN pt + 8 - 8) with (lenN pt) by lia. unfold check_buffer_size, MAX_PLAINTEXT_LEN.
    destruct (N.ltb_spec 1024 (lenN pt)); [lia|]. cbn [tryc]. rewrite RQK. unfold recv_response.
    rewrite OBK, OP, NP. destruct (decrypt_wrapper cr d None k) as [c1 r]. cbn [snd] in DW. rewrite DW. reflexivity. }
  unfold oscore2coap. destruct (oscore2coap_core cr d wire) as [c1 r]. cbn [snd] in CORE. rewrite CORE. reflexivity.
Qed.

End WithCrypto.
