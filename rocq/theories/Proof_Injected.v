(** What is delivered of a packet whose unprotected options someone has added to. *)
From Coq Require Import Permutation.
From Verif Require Import Base Proof_Base Model_Common Model_Crypto Model_Cbor Proof_Cbor Model_OscorePrims Spec_OscorePrims Proof_OscorePrims
  Model_Coap Spec_Coap Proof_Coap Proof_Stripped Proof_CoapExact Model_Interactions Model_Context Spec_Options Proof_Options
  Spec_OscoreOption Proof_OscoreOption Prop_Options Prop_Interactions
  Model_Send Model_Recv Model_Run Spec_Interactions Proof_Interactions Proof_Send Proof_Recv
  Spec_Session Proof_Run Proof_Session Proof_Nonce Proof_Wire Spec_UriPath Proof_UriPath Spec_RoundTrip Proof_RoundTrip
  Spec_Protect Proof_Protect Spec_CborTree Proof_CborTree Spec_Channel Proof_Channel Proof_Ids Proof_Net Spec_Interop Proof_Interop
  Spec_Safe Proof_Safe Spec_Cut Prop_Cut Spec_Peer Proof_Peer Spec_Injected.

Lemma room_sum l : opt_sum l = options_room (map nv l).
Proof. induction l as [|o l IH]; [reflexivity|]. cbn [opt_sum map options_room]. rewrite IH. reflexivity. Qed.

Lemma room_app a b : options_room (a ++ b) = options_room a + options_room b.
Proof. induction a as [|[n v] a IH]; [reflexivity|]. cbn [app options_room]. rewrite IH. lia. Qed.

Lemma room_perm a b : Permutation a b -> options_room a = options_room b.
Proof.
  induction 1 as [|[n v] a b _ IH|[n v] [n' v'] a|a b c _ IH1 _ IH2]; cbn [options_room]; [reflexivity|rewrite IH; reflexivity|lia|congruence].
Qed.

Lemma room_filter (f : copt -> bool) l : options_room (map nv (filter f l)) <= options_room (map nv l).
Proof.
  induction l as [|o l IH]; [apply N.le_refl|]. cbn [filter map options_room]. unfold nv at 2.
  destruct (f o); cbn [map options_room]; [unfold nv at 1|]; lia.
Qed.

Lemma room_len l : 5 * lenN l <= options_room l.
Proof. induction l as [|[n v] l IH]; [apply N.leb_le; reflexivity|]. rewrite lenN_cons. cbn [options_room]. lia. Qed.

Lemma inner_delivered code inner obs payload k : rfc_options 0 inner obs ->
  Forall delta_ok (deltas 0 inner) -> Forall (fun p => len_ok (lenN (snd p)) /\ fst p < 2 ^ 16) inner ->
  lenN (obs ++ marked payload) < 2 ^ 16 -> lenN inner <= 10 -> k_opts k <> [] ->
  options_room (map nv (k_opts k) ++ inner) <= 100 ->
  path_size (map nv (k_opts k) ++ inner) < 30 ->
  exists out, o_coap_pkg_generate (code :: obs ++ marked payload) k = Ok out /\
    uri_path_create (k_opts out) OSCORE_MAX_URI_PATH_LEN = Ok (path_string (path_segments (k_opts out))) /\
    segs_size (path_segments (k_opts out)) < 30 /\
    opts_fit out /\ h_code (k_hdr out) = code /\ k_token out = k_token k /\ k_payload out = payload /\
    (h_mid (k_hdr out) = h_mid (k_hdr k) /\ h_type (k_hdr out) = h_type (k_hdr k)) /\
    forall p, In p (map nv (k_opts out)) <-> In p inner \/ (In p (map nv (k_opts k)) /\ fst p <> 9 /\ fst p <> 6).
Proof.
  intros IO DI FI LB LI KN RM PS.
  destruct (options_parse inner payload (obs ++ marked payload) MAX_E_OPTION_COUNT) as (eo & EEO & NEO & DEO).
  { exists obs. split; [exact IO|reflexivity]. }
  { exact DI. }
  { eapply Forall_impl; [|exact FI]. cbn. tauto. }
  { eapply Forall_impl; [|exact FI]. cbn. tauto. }
  { exact LB. }
  { lia. }
  { exact LI. }
  assert (LEO : lenN eo = lenN inner). { rewrite <- NEO. unfold lenN. rewrite map_length. reflexivity. }
  assert (LK : lenN (k_opts k) = lenN (map nv (k_opts k))) by (unfold lenN; rewrite map_length; reflexivity).
  assert (LT : lenN (k_opts k) + lenN inner <= 20).
  { pose proof (room_len (map nv (k_opts k) ++ inner)) as RL. rewrite lenN_app in RL. lia. }
  assert (P1 : 1 <= lenN (k_opts k)) by (destruct (k_opts k); [congruence|rewrite lenN_cons; lia]).
  set (f := fun o0 : copt => negb (o_num o0 =? OPT_OSCORE) && negb (o_num o0 =? OPT_OBSERVE)).
  set (l := filter f (k_opts k) ++ eo).
  assert (RE : exists opts, options_reorder (k_opts k) eo = Ok opts /\ Permutation (map nv l) (map nv opts)).
  { unfold options_reorder. fold f. fold l.
    assert (LL : lenN l <= 20).
    { unfold l. rewrite lenN_app. pose proof (filter_le f (k_opts k)). lia. }
    assert (U8 : u8 (lenN (k_opts k) + lenN eo + 2 ^ 8 - 1) <= 20).
    { unfold u8. change (2 ^ 8) with 256. replace (lenN (k_opts k) + lenN eo + 256 - 1) with (lenN (k_opts k) + lenN eo - 1 + 1 * 256) by lia.
      rewrite N.mod_add by lia. rewrite N.mod_small by lia. lia. }
    unfold check_buffer_size, MAX_OPTION_COUNT. destruct (N.ltb_spec 20 (u8 (lenN (k_opts k) + lenN eo + 2 ^ 8 - 1))); [lia|]. cbn [bind].
    destruct (N.ltb_spec 20 (lenN l)); [lia|]. eexists. split; [reflexivity|]. apply (exchange_sort_perm _ l 0 eq_refl). }
  destruct RE as (opts & RE & PM). unfold o_coap_pkg_generate. cbn [oscore_decrypted_payload_parser]. rewrite EEO. cbn [bind]. rewrite RE. cbn [bind].
  assert (E : segs_size (path_segments opts) < 30).
  { rewrite path_size_segs, <- (path_size_perm _ _ PM). unfold l. rewrite map_app, path_size_app. unfold f. rewrite path_size_filter, NEO.
    rewrite path_size_app in PS. exact PS. }
  eexists. split; [reflexivity|]. cbn [k_opts k_hdr k_token k_payload h_code h_mid h_type].
  split.
  { change OSCORE_MAX_URI_PATH_LEN with 30. rewrite uri_path_create_exact by (apply N.ltb_lt; reflexivity). cbv zeta.
    destruct (N.ltb_spec (segs_size (path_segments opts)) 30); [reflexivity|lia]. }
  split; [exact E|]. split.
  { unfold opts_fit. cbn [k_opts]. rewrite room_sum, <- (room_perm _ _ PM). unfold l. rewrite map_app, room_app, NEO.
    rewrite room_app in RM. pose proof (room_filter f (k_opts k)). lia. }
  do 3 (split; [reflexivity|]). split; [split; reflexivity|].
  intros p. assert (EQ : In p (map nv opts) <-> In p (map nv l)).
  { split; apply Permutation_in; [symmetry; exact PM|exact PM]. }
  rewrite EQ. unfold l. rewrite map_app, in_app_iff, NEO.
  assert (X : In p (map nv (filter f (k_opts k))) <-> In p (map nv (k_opts k)) /\ fst p <> 9 /\ fst p <> 6).
  { rewrite !in_map_iff. split.
    - intros (o & <- & I). apply filter_In in I as [I F]. apply andb_true_iff in F as [F1 F2].
      apply negb_true_iff in F1, F2. apply N.eqb_neq in F1, F2. split; [exists o; auto|]. auto.
    - intros ((o & <- & I) & F1 & F2). exists o. split; [reflexivity|]. apply filter_In. split; [exact I|].
      apply andb_true_iff. split; apply negb_true_iff, N.eqb_neq; assumption. }
  tauto.
Qed.

Section WithCrypto.
Variable cr : crypto.

Lemma injected_request d o w wire code inner obs payload n buf :
  crypto_ok cr -> usable d -> keyed d ->
  let pt := code :: obs ++ marked payload in
  rfc_sealed cr (c_rkey d) (rfc_nonce (c_rid d) (oo_piv o) (c_iv d)) (rfc_aad (c_alg d) (c_rid d) (oo_piv o)) pt o w wire ->
  parsable w wire -> is_bytes wire -> lenN wire < 2 ^ 32 -> is_bytes pt -> lenN pt <= 1024 -> m_code w < 32 -> code < 32 ->
  rfc_options 0 inner obs -> Forall delta_ok (deltas 0 inner) -> Forall (fun p => len_ok (lenN (snd p)) /\ fst p < 2 ^ 16) inner ->
  lenN inner <= 10 -> options_room (m_opts w ++ inner) <= 100 -> path_size (m_opts w ++ inner) < 30 ->
  oo_kid o = Some (c_rid d) -> minimal_be n (oo_piv o) -> lenN (c_rid d) + lenN (oo_piv o) <= 7 ->
  c_ssn d < OSCORE_SSN_OVERFLOW_VALUE -> c_echo d = ECHO_SYNCHRONIZED -> Model_Replay.rw_valid n (c_win d) = true ->
  ~ full (c_inter d) -> (forall x, held (c_inter d) x -> i_token x <> m_token w) ->
  lenN buf < 2 ^ 32 -> 113 + lenN payload <= lenN buf ->
  exists d' m out, oscore2coap cr d wire buf = (d', written out buf, Ok (lenN out)) /\ rfc_message m out /\
    m_code m = code /\ m_token m = m_token w /\ m_payload m = payload /\
    forall p, In p (m_opts m) <-> In p inner \/ (In p (m_opts w) /\ fst p <> 9 /\ fst p <> 6).
Proof.
  intros OK HD (AL & _ & IV) pt RS PO HB HL PB LP HC CC IO DI FI LI RM PSZ OKID MB LK SD SE SW NF NT LB2 LB. rewrite AL in RS.
  destruct (opens_sealed cr _ _ _ _ _ _ _ OK RS PO) as (k & co & EK & EM & EO & OP & OK' & P5 & LC).
  destruct RS as (RW & (osc & before & after & WO & _) & AE). rewrite OKID in OK'. cbn [opt_get] in OK'.
  assert (EP : k_payload k = m_payload w) by (rewrite <- EM; reflexivity).
  assert (KO : map nv (k_opts k) = m_opts w) by (rewrite <- EM; reflexivity).
  assert (KT0 : k_token k = m_token w) by (rewrite <- EM; reflexivity).
  assert (RQK : is_request k = true).
  { rewrite is_request_code. change (h_code (k_hdr k)) with (m_code (msg_of k)). rewrite EM. apply N.ltb_lt. exact HC. }
  destruct (kid_view_len _ _ OK') as [KL KT].
  destruct (aad_total (c_rid d) (oo_piv o) LK) as (aad & EA & LA).
  pose proof (cose_reads cr _ _ _ _ _ _ _ OK EA LA AE) as CD. rewrite <- EP in CD.
  destruct (inner_delivered code inner obs payload k IO DI FI) as (r & PG & UR & US & OF & RC & RT & RP & _ & RO).
  { unfold pt in LP. rewrite lenN_cons in LP. change (2 ^ 16) with 65536. lia. }
  { exact LI. }
  { intros E. rewrite E in KO. cbn in KO. rewrite WO in KO. destruct before; discriminate. }
  { rewrite KO. exact RM. }
  { rewrite KO. exact PSZ. }
  change (code :: obs ++ marked payload) with pt in PG.
  destruct (pkg_generate_wf _ _ _ _ HB HL EK PB ltac:(change (2 ^ 32) with 4294967296; lia) PG) as (WR & HWR & DR & NR & _).
  set (m := msg_of r).
  assert (RQR : is_request r = true) by (rewrite is_request_code, RC; apply N.ltb_lt; exact CC).
  assert (MP : message_path m = path_segments (k_opts r)) by (symmetry; apply path_of_message; reflexivity).
  rewrite <- MP in UR, US.
  destruct (update_request r m (c_inter d) _ (oo_piv o) (c_rid d) (proj1 HD) eq_refl RQR eq_refl) as [_ UD2].
  assert (TKW : lenN (m_token w) <= 8) by (destruct RW as (_ & _ & _ & _ & M5 & _); exact M5).
  assert (SZ : inter_sizes (record_for m (oo_piv o) (c_rid d))).
  { unfold inter_sizes, record_for; cbn [i_token i_uri i_piv i_kid]. unfold m at 1. cbn [msg_of m_token]. rewrite RT, KT0.
    pose proof (path_string_len _ US). lia. }
  assert (RO' : room (c_inter d) m).
  { split; [intros F; contradiction|]. intros x HX TX. exfalso. apply (NT x HX). rewrite TX. unfold m. cbn [msg_of m_token]. rewrite RT. exact KT0. }
  destruct (UD2 RO' SZ) as (t & UW). rewrite RT in UW.
  set (nonce := rfc_nonce (c_rid d) (oo_piv o) (c_iv d)) in *.
  assert (DW : decrypt_wrapper cr d (Some co) k = (set_inter (set_nonce d nonce) t, Ok (pt, r))).
  { eapply decrypt_opens with (nn := Some co); [| | |reflexivity|exact CD|exact PG|exact UR|].
    - rewrite OP, KT. destruct (type_request k RQK) as [-> | [-> | ->]]; reflexivity.
    - rewrite OK'. cbn [bind]. rewrite OP. apply create_nonce_spec; lia.
    - rewrite AL. exact EA.
    - exact UW. }
  destruct MB as (PB' & PV & P1 & _).
  assert (PIV2 : piv2ssn (oo_piv o) = Ok n) by (rewrite piv2ssn_spec by assumption; congruence).
  assert (CORE : exists b, oscore2coap_core cr d wire =
    (set_win (set_inter (set_nonce d nonce) t) (snd (Model_Replay.rw_update b (c_win d))), Ok r)).
  { unfold oscore2coap_core, check_context_freshness. destruct (N.leb_spec OSCORE_SSN_OVERFLOW_VALUE (c_ssn d)); [lia|]. cbn [tryc].
    rewrite EK. cbn [tryc]. rewrite EO. cbn [tryc]. rewrite EP, LC. change AUTH_TAG_LEN with 8. rewrite sub32_small by lia.
    unfold byte_array_new. replace (lenN pt + 8 - 8) with (lenN pt) by lia. unfold check_buffer_size, MAX_PLAINTEXT_LEN.
    destruct (N.ltb_spec 1024 (lenN pt)); [lia|]. cbn [tryc]. rewrite RQK. unfold recv_request.
    rewrite KL, N.eqb_refl. cbn [negb]. rewrite OK'. cbn [tryc].
    rewrite array_equals_refl. cbn [negb]. rewrite OP, PIV2. cbn [tryc]. rewrite SE, SW. cbn [negb]. rewrite DW. cbn [callc].
    change (c_echo (set_inter (set_nonce d nonce) t)) with (c_echo d). rewrite SE.
    destruct (oo_piv o) as [|b pv]; [rewrite lenN_nil in P1; lia|]. exists b. reflexivity. }
  destruct CORE as (b & CORE).
  assert (LR : lenN (pkt_bytes r) <= lenN buf).
  { rewrite pkt_bytes_len, marked_len, RP by exact WR. pose proof (ser_opts_le (k_opts r)). unfold opts_fit in OF.
    destruct WR as (WT & _). assert (h_tkl (k_hdr r) <= 8) by (rewrite <- WT, RT, KT0; exact TKW).
    destruct (lenN payload =? 0); lia. }
  eexists _, m, (pkt_bytes r). unfold oscore2coap. rewrite CORE, serialize_back; [|assumption..].
  split; [reflexivity|]. split; [apply pkt_bytes_rfc; assumption|]. split; [exact RC|]. unfold m. cbn [msg_of m_token m_payload m_opts].
  split; [rewrite RT; exact KT0|]. split; [exact RP|]. rewrite <- KO. exact RO.
Qed.

(** Responses without a Partial IV of their own. *)
Lemma injected_response d o w wire code inner obs payload x buf :
  crypto_ok cr -> usable d -> keyed d ->
  let pt := code :: obs ++ marked payload in
  rfc_sealed cr (c_rkey d) (c_nonce d) (rfc_aad (c_alg d) (i_kid x) (i_piv x)) pt o w wire ->
  parsable w wire -> is_bytes wire -> lenN wire < 2 ^ 32 -> is_bytes pt -> lenN pt <= 1024 -> 32 <= m_code w -> 32 <= code ->
  existsb (fun p => fst p =? 6) (m_opts w) = false ->
  rfc_options 0 inner obs -> Forall delta_ok (deltas 0 inner) -> Forall (fun p => len_ok (lenN (snd p)) /\ fst p < 2 ^ 16) inner ->
  lenN inner <= 10 -> options_room (m_opts w ++ inner) <= 100 -> path_size (m_opts w ++ inner) < 30 ->
  oo_piv o = [] -> held (c_inter d) x -> i_token x = m_token w -> lenN (i_kid x) + lenN (i_piv x) <= 7 ->
  c_ssn d < OSCORE_SSN_OVERFLOW_VALUE ->
  lenN buf < 2 ^ 32 -> 113 + lenN payload <= lenN buf ->
  exists d' m out, oscore2coap cr d wire buf = (d', written out buf, Ok (lenN out)) /\ rfc_message m out /\
    m_code m = code /\ m_token m = m_token w /\ m_payload m = payload /\
    forall p, In p (m_opts m) <-> In p inner \/ (In p (m_opts w) /\ fst p <> 9 /\ fst p <> 6).
Proof.
  intros OK HD (AL & _ & IV) pt RS PO HB HL PB LP HC CC NOB IO DI FI LI RM PSZ NP HX TX LK SD LB2 LB. rewrite AL in RS.
  pose proof (proj1 HD) as TD.
  destruct (opens_sealed cr _ _ _ _ _ _ _ OK RS PO) as (k & co & EK & EM & EO & OP & OK' & P5 & LC).
  destruct RS as (RW & (osc & before & after & WO & _) & AE).
  assert (EP : k_payload k = m_payload w) by (rewrite <- EM; reflexivity).
  assert (KO : map nv (k_opts k) = m_opts w) by (rewrite <- EM; reflexivity).
  assert (KT0 : k_token k = m_token w) by (rewrite <- EM; reflexivity).
  assert (RQK : is_request k = false).
  { rewrite is_request_code. change (h_code (k_hdr k)) with (m_code (msg_of k)). rewrite EM. apply N.ltb_ge. exact HC. }
  assert (OBK : is_observe (k_opts k) = false).
  { rewrite is_observe_nv. change (map nv (k_opts k)) with (m_opts (msg_of k)). rewrite EM. exact NOB. }
  pose proof (type_by_observe k RQK) as TYK. rewrite OBK in TYK.
  assert (GD : get_record (c_inter d) (k_token k) = Ok x).
  { apply (C24_get _ _ TD). split; [exact HX|]. rewrite TX. symmetry. exact KT0. }
  destruct (aad_total (i_kid x) (i_piv x) LK) as (aad & EA & LA).
  pose proof (cose_reads cr _ _ _ _ _ _ _ OK EA LA AE) as CD. rewrite <- EP in CD.
  destruct (inner_delivered code inner obs payload k IO DI FI) as (r & PG & UR & US & OF & RC & RT & RP & _ & RO).
  { unfold pt in LP. rewrite lenN_cons in LP. change (2 ^ 16) with 65536. lia. }
  { exact LI. }
  { intros E. rewrite E in KO. cbn in KO. rewrite WO in KO. destruct before; discriminate. }
  { rewrite KO. exact RM. }
  { rewrite KO. exact PSZ. }
  change (code :: obs ++ marked payload) with pt in PG.
  destruct (pkg_generate_wf _ _ _ _ HB HL EK PB ltac:(change (2 ^ 32) with 4294967296; lia) PG) as (WR & HWR & DR & NR & _).
  assert (RQR : is_request r = false) by (rewrite is_request_code, RC; apply N.ltb_ge; exact CC).
  pose proof (type_by_observe r RQR) as TYR.
  assert (TKW : lenN (m_token w) <= 8) by (destruct RW as (_ & _ & _ & _ & M5 & _); exact M5).
  assert (UWD : exists t, update_wrapper (coap_get_message_type r) (k_token k) (path_string (path_segments (k_opts r))) (c_inter d) (i_piv x) (i_kid x) = Ok t).
  { rewrite TYR. destruct (is_observe (k_opts r)); cbn [update_wrapper]; [eauto|]. unfold remove_record. unfold get_record in GD.
    destruct (MAX_TOKEN_LEN <? lenN (k_token k)); [discriminate|].
    destruct (nth_error (c_inter d) (find_by_token (c_inter d) (k_token k))) eqn:NE; [|discriminate].
    assert (L : (find_by_token (c_inter d) (k_token k) < length (c_inter d))%nat) by (apply nth_error_Some; congruence).
    destruct TD as (L3 & _). rewrite L3 in L. apply Nat.ltb_lt in L. change OSCORE_INTERACTIONS_COUNT with 3%nat. rewrite L. eauto. }
  destruct UWD as (t & UWD).
  assert (DW : decrypt_wrapper cr d None k = (set_inter d t, Ok (pt, r))).
  { eapply decrypt_opens with (nn := None); [| | |reflexivity|exact CD|exact PG|exact UR|exact UWD].
    - rewrite TYK. cbn [read_wrapper]. rewrite GD. reflexivity.
    - reflexivity.
    - rewrite AL. exact EA. }
  assert (CORE : exists d', oscore2coap_core cr d wire = (d', Ok r)).
  { unfold oscore2coap_core, check_context_freshness. destruct (N.leb_spec OSCORE_SSN_OVERFLOW_VALUE (c_ssn d)); [lia|]. cbn [tryc].
    rewrite EK. cbn [tryc]. rewrite EO. cbn [tryc]. rewrite EP, LC. change AUTH_TAG_LEN with 8. rewrite sub32_small by lia.
    unfold byte_array_new. replace (lenN pt + 8 - 8) with (lenN pt) by lia. unfold check_buffer_size, MAX_PLAINTEXT_LEN.
    destruct (N.ltb_spec 1024 (lenN pt)); [lia|]. cbn [tryc]. rewrite RQK. unfold recv_response.
    rewrite OBK, OP, NP, DW. cbn [callc]. eauto. }
  destruct CORE as (d' & CORE).
  assert (LR : lenN (pkt_bytes r) <= lenN buf).
  { rewrite pkt_bytes_len, marked_len, RP by exact WR. pose proof (ser_opts_le (k_opts r)). unfold opts_fit in OF.
    destruct WR as (WT & _). assert (h_tkl (k_hdr r) <= 8) by (rewrite <- WT, RT, KT0; exact TKW).
    destruct (lenN payload =? 0); lia. }
  exists d', (msg_of r), (pkt_bytes r). unfold oscore2coap. rewrite CORE, serialize_back; [|assumption..].
  split; [reflexivity|]. split; [apply pkt_bytes_rfc; assumption|]. split; [exact RC|]. cbn [msg_of m_token m_payload m_opts].
  split; [rewrite RT; exact KT0|]. split; [exact RP|]. rewrite <- KO. exact RO.
Qed.

End WithCrypto.
