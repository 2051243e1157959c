(** Messages of other implementations: reading them and writing such. *)
From Coq Require Import Permutation.
From Verif Require Import Base Proof_Base Model_Common Model_Crypto Model_Cbor Proof_Cbor Model_OscorePrims Spec_OscorePrims Proof_OscorePrims
  Model_Coap Spec_Coap Proof_Coap Model_Interactions Model_Context Spec_Options Proof_Options
  Spec_OscoreOption Proof_OscoreOption Prop_Options Prop_Interactions
  Model_Send Model_Recv Model_Run Spec_Interactions Proof_Interactions Proof_Send Proof_Recv
  Spec_Session Proof_Run Proof_Session Proof_Nonce Proof_Wire Spec_UriPath Proof_UriPath Spec_RoundTrip Proof_RoundTrip
  Spec_Protect Proof_Protect Spec_CborTree Proof_CborTree Spec_Channel Proof_Channel Proof_Ids Proof_Net Spec_Interop.

Lemma any_observe_fst p : fst (any_observe p) = fst p.
Proof. unfold any_observe. destruct (N.eqb_spec (fst p) 6); cbn; congruence. Qed.
Lemma any_observe_fsts a b : map any_observe a = map any_observe b -> map fst a = map fst b.
Proof.
  intros H. apply (f_equal (map fst)) in H. rewrite !map_map in H.
  assert (E : forall l : list (N * bytes), map (fun x => fst (any_observe x)) l = map fst l) by (intros; apply map_ext; intros; apply any_observe_fst).
  rewrite !E in H. exact H.
Qed.
Lemma any_observe_drop (f : N * bytes -> bool) : (forall v, f (6, v) = false) -> forall a b, map any_observe a = map any_observe b -> filter f a = filter f b.
Proof.
  intros F6. induction a as [|[n v] a IH]; intros [|[n' v'] b] H; try discriminate; [reflexivity|].
  cbn [map] in H. injection H as H0 H. specialize (IH _ H). cbn [filter]. unfold any_observe in H0; cbn [fst] in H0.
  destruct (N.eqb_spec n 6) as [->|D]; destruct (N.eqb_spec n' 6) as [->|D'].
  - rewrite !F6. exact IH.
  - injection H0 as <- _. congruence.
  - injection H0 as -> _. congruence.
  - injection H0 as -> ->. rewrite IH. reflexivity.
Qed.
Lemma any_observe_in n v a : forall b, map any_observe a = map any_observe b -> n <> 6 -> In (n, v) a -> In (n, v) b.
Proof.
  induction a as [|[x y] a IH]; intros [|[x' y'] b] H D I; try discriminate; [destruct I|].
  cbn [map] in H. injection H as H0 H. destruct I as [E|I]; [|right; eauto]. injection E as -> ->.
  unfold any_observe in H0; cbn [fst] in H0. destruct (N.eqb_spec n 6); [contradiction|]. left.
  destruct (N.eqb_spec x' 6); congruence.
Qed.

Section WithCrypto.
Variable cr : crypto.

(** Reading. *)
Lemma opens_rfc key nonce aad m input o wire :
  crypto_ok cr -> rfc_message m input -> supported m input -> is_bytes input ->
  rfc_protected cr key nonce aad m o wire -> lenN wire <= 1032 ->
  exists k' co r pt, coap_deserialize wire = Ok k' /\ oscore_option_parser (k_opts k') = Ok co /\
    co_piv co = oo_piv o /\ kid_view co = Ok (opt_get (oo_kid o)) /\ lenN (oo_piv o) <= 5 /\
    k_token k' = m_token m /\ cr_aead_enc cr key nonce aad 8 pt = Some (k_payload k') /\
    lenN (k_payload k') = lenN pt + 8 /\ lenN pt <= 1024 /\ is_request k' = (m_code m <? 32) /\
    is_observe (k_opts k') = notifies m /\
    o_coap_pkg_generate pt k' = Ok r /\ msg_of r = received m /\
    pkt_wf r /\ hdr_wf (k_hdr r) /\ delta_consistent 0 (k_opts r) /\ Forall (fun o => o_num o < 2 ^ 16) (k_opts r) /\ opts_fit r.
Proof.
  intros OK HM SUP HB (w & pt & osc & before & after & RW & V1 & V2 & V3 & V4 & V5 & WO & AO & OB3 & OV & LOS & (obs & IO & PT) & AE) LW.
  destruct SUP as (PA & DI & LI & N9 & ND & SZ & PL).
  destruct (coap_parse_rfc m input HM PA) as (k & EK & EM & TK & DC).
  destruct PA as (PD & PV & PN & PC & PB).
  assert (EO : map nv (k_opts k) = m_opts m) by (rewrite <- EM; reflexivity).
  assert (EPL : k_payload k = m_payload m) by (rewrite <- EM; reflexivity).
  assert (ECD : h_code (k_hdr k) = m_code m) by (rewrite <- EM; reflexivity).
  destruct (coap_parse_sound _ _ EK HB ltac:(change (2^32) with 4294967296; change (2 ^ 16) with 65536 in PB; lia)) as (W & HWk & L19 & OW & NC & _).
  assert (OV16 : forall n v, In (n, v) (m_opts m) -> lenN v < 2 ^ 16).
  { intros n v Hp. rewrite <- EO in Hp. apply in_map_iff in Hp as (y & Ey & Hy). rewrite Forall_forall in OW. destruct (OW y Hy) as (? & ? & ? & ?).
    unfold nv in Ey. injection Ey as _ <-. assumption. }
  (* the outer packet *)
  assert (FUO : Forall (fun p : N * bytes => goes_outside (fst p)) (outside_opts m)).
  { rewrite Forall_forall. intros p Hp. apply filter_In in Hp. apply outside_dec. apply Hp. }
  assert (N9U : ~ In 9 (map fst (outside_opts m))).
  { intros X. apply N9. apply in_map_iff in X as (p & E & Hp). apply filter_In in Hp as [Hp _]. apply in_map_iff. eauto. }
  pose proof (nodup_outside_len _ ND FUO N9U) as LU.
  pose proof (any_observe_fsts _ _ AO) as FE.
  assert (LBA : lenN (before ++ after) <= 6).
  { apply (f_equal (@length N)) in FE. rewrite !map_length in FE. unfold lenN in *. rewrite FE. exact LU. }
  assert (FX : Forall (fun p : N * bytes => fst p < 256 /\ len_ok (lenN (snd p)) /\ fst p <> 9) (before ++ after)).
  { rewrite Forall_forall in *. intros [n v] Hp. cbn [fst snd].
    assert (IN : In n (map fst (outside_opts m))) by (rewrite <- FE; apply (in_map fst) in Hp; exact Hp).
    split; [|split].
    - apply in_map_iff in IN as (q & <- & Hq). apply outside_small. auto.
    - destruct (N.eq_dec n 6) as [->|D]; [left; specialize (OB3 _ Hp); lia|].
      apply (any_observe_in n v _ _ AO D) in Hp. apply filter_In in Hp as [Hp _]. exact (PV _ Hp).
    - intros ->. contradiction. }
  assert (FIN : Forall (fun p : N * bytes => fst p < 256 /\ len_ok (lenN (snd p))) (m_opts w)).
  { rewrite WO. apply Forall_app in FX as [FX1 FX2]. apply Forall_app. split; [eapply Forall_impl; [|exact FX1]; cbn; tauto|].
    constructor; [|eapply Forall_impl; [|exact FX2]; cbn; tauto].
    cbn [fst snd]. split; [reflexivity|]. left. lia. }
  assert (LWO : lenN (m_opts w) = lenN (before ++ after) + 1).
  { rewrite WO. unfold lenN. rewrite !app_length. cbn [length]. lia. }
  assert (PO : parsable w wire).
  { unfold parsable. split; [|split; [|split; [|split]]].
    - apply deltas_small. eapply Forall_impl; [|exact FIN]. cbn. tauto.
    - eapply Forall_impl; [|exact FIN]. cbn. tauto.
    - eapply Forall_impl; [|exact FIN]. cbn. intros p [H _]. change (2 ^ 16) with 65536. lia.
    - lia.
    - change (2 ^ 16) with 65536. lia. }
  destruct (coap_parse_rfc _ _ RW PO) as (k' & EK' & EM' & TK' & DC').
  assert (EO' : map nv (k_opts k') = before ++ (9, osc) :: after) by (rewrite <- WO, <- EM'; reflexivity).
  assert (ET' : k_token k' = m_token m) by (rewrite <- V4, <- EM'; reflexivity).
  assert (EP' : k_payload k' = m_payload w) by (rewrite <- EM'; reflexivity).
  assert (LPT : lenN (k_payload k') = lenN pt + 8).
  { rewrite EP'. apply (ok_aead_enc_len _ OK _ _ _ _ _ _ AE). }
  assert (LPW : lenN (m_payload w) + 5 <= lenN wire).
  { destruct RW as (_ & _ & _ & _ & _ & body & (ob & HO & ->) & ->). rewrite !lenN_app, !lenN_cons, marked_len.
    rewrite <- EP' in *. rewrite LPT. destruct (N.eqb_spec (lenN pt + 8) 0); lia. }
  (* OSCORE option *)
  destruct (map_eq_app nv _ _ _ EO') as (ka & kb & EKO & EA & EB).
  apply map_eq_cons in EB as (x & kc & -> & EX & EB).
  unfold nv in EX. injection EX as EX1 EX2.
  assert (N9K : Forall (fun o => o_num o <> 9) ka /\ Forall (fun o => o_num o <> 9) kc).
  { apply Forall_app in FX as [FX1 FX2]. split; apply (forall_nums (fun n => n <> 9)); [rewrite EA|rewrite EB]; (eapply Forall_impl; [|eassumption]); cbn; tauto. }
  destruct N9K as [N9KA N9KC].
  assert (OPT : exists co, oscore_value_parse (osc ++ o_tail x) (lenN osc) = Ok co /\ co_piv co = oo_piv o /\ kid_view co = Ok (opt_get (oo_kid o)) /\ lenN (oo_piv o) <= 5).
  { destruct OV as [|o P5 OC NE].
    - eexists. split; [reflexivity|]. repeat split. apply N.leb_le. reflexivity.
    - rewrite (parse_bytes o (o_tail x) P5 OC ltac:(lia)). eexists. split; [reflexivity|]. cbn [co_piv kid_view]. split; [reflexivity|]. split; [|exact P5].
      unfold kid_view; cbn [co_kid_mem co_kid_len]. destruct (oo_kid o) as [kk|]; cbn [opt_get]; [exact (slice_app [] kk (o_tail x))|reflexivity]. }
  destruct OPT as (co & OP & OP1 & OP2 & OP5).
  (* inner options *)
  set (inn := map (inner_value (m_code m <? 32)) (inside_opts m)) in *.
  assert (FE2 : Forall (fun p : N * bytes => len_ok (lenN (snd p)) /\ fst p < 2 ^ 16) inn).
  { unfold inn. rewrite Forall_map, Forall_forall. intros [n v] Hp. rewrite inner_fst. apply filter_In in Hp as [Hp _].
    rewrite Forall_forall in PV, PN. specialize (PV _ Hp). specialize (PN _ Hp). cbn [fst snd] in *. split; [|exact PN].
    unfold inner_value. cbn [fst]. destruct (_ && _); [left; reflexivity|exact PV]. }
  assert (LEN_E : lenN inn <= 10). { unfold inn, lenN in *. rewrite map_length. exact LI. }
  destruct (options_parse inn (m_payload m) (obs ++ marked (m_payload m)) MAX_E_OPTION_COUNT) as (eo & EEO & NEO & DEO).
  { exists obs. split; [exact IO|reflexivity]. }
  { unfold inn. rewrite deltas_map_inner. exact DI. }
  { eapply Forall_impl; [|exact FE2]. cbn. tauto. }
  { eapply Forall_impl; [|exact FE2]. cbn. tauto. }
  { rewrite PT in LPT. rewrite lenN_cons in LPT. change (2 ^ 16) with 65536. rewrite EP' in LPT. lia. }
  { lia. }
  { exact LEN_E. }
  assert (LKU : lenN (k_opts k') = lenN (before ++ after) + 1).
  { rewrite <- LWO, WO, <- EO'. unfold lenN. rewrite map_length. reflexivity. }
  assert (LEO : lenN eo <= 10). { rewrite <- NEO in LEN_E. unfold lenN in *. rewrite map_length in LEN_E. exact LEN_E. }
  assert (RE : exists opts, options_reorder (k_opts k') eo = Ok opts).
  { unfold options_reorder. set (l := filter _ _ ++ eo).
    assert (LL : lenN l <= 17).
    { unfold l. rewrite lenN_app.
      pose proof (filter_le (fun o0 : copt => negb (o_num o0 =? OPT_OSCORE) && negb (o_num o0 =? OPT_OBSERVE)) (k_opts k')). lia. }
    assert (U8 : u8 (lenN (k_opts k') + lenN eo + 2 ^ 8 - 1) <= 20).
    { unfold u8. change (2 ^ 8) with 256. replace (lenN (k_opts k') + lenN eo + 256 - 1) with (lenN (k_opts k') + lenN eo - 1 + 1 * 256) by lia.
      rewrite N.mod_add by lia. rewrite N.mod_small by lia. lia. }
    unfold check_buffer_size, MAX_OPTION_COUNT. destruct (N.ltb_spec 20 (u8 (lenN (k_opts k') + lenN eo + 2 ^ 8 - 1))); [lia|]. cbn [bind].
    destruct (N.ltb_spec 20 (lenN l)); [lia|]. eauto. }
  destruct RE as (opts & RE).
  assert (FKU : Forall (fun o => o_num o < 2 ^ 16) (k_opts k')).
  { apply (forall_nums (fun n => n < 2 ^ 16)). rewrite EO', <- WO. eapply Forall_impl; [|exact FIN]. cbn. intros p [H _]. change (2 ^ 16) with 65536. lia. }
  assert (FKE : Forall (fun o => o_num o < 2 ^ 16) eo).
  { apply (forall_nums (fun n => n < 2 ^ 16)). rewrite NEO. eapply Forall_impl; [|exact FE2]. cbn. tauto. }
  assert (AM : asc 0 (m_opts m)) by (rewrite <- EO; apply delta_asc; exact DC).
  destruct (merge_restores (m_code m <? 32) (m_opts m) (k_opts k') eo opts AM N9 ND) as [MO MD]; [|rewrite NEO; reflexivity|assumption..|].
  { rewrite EO', filter_app. cbn [filter fst]. change (negb (9 =? 9) && negb (9 =? 6)) with false. cbv iota.
    rewrite <- filter_app.
    rewrite (any_observe_drop (fun p => negb (fst p =? 9) && negb (fst p =? 6)) ltac:(intros; reflexivity) _ _ AO). unfold outside_opts.
    clear - N9. induction (m_opts m) as [|[n v] l IH]; [reflexivity|]. cbn [map fst In] in N9.
    cbn [filter fst]. destruct (N.eqb_spec n 6) as [->|D6].
    - cbn [orb filter fst]. change (is_class_u 6) with false. cbv iota. apply IH. tauto.
    - cbn [orb]. destruct (is_class_u n) eqn:EUn; [|apply IH; tauto]. cbn [filter fst].
      destruct (N.eqb_spec n 9) as [->|]; [tauto|]. destruct (N.eqb_spec n 6); [contradiction|]. cbn [negb andb]. f_equal. apply IH. tauto. }
  set (r := {| k_hdr := {| h_ver := h_ver (k_hdr k'); h_type := h_type (k_hdr k'); h_tkl := h_tkl (k_hdr k');
                           h_code := m_code m; h_mid := h_mid (k_hdr k') |};
               k_token := k_token k'; k_opts := opts; k_payload := m_payload m |}).
  assert (EHV : h_ver (k_hdr k') = m_ver m) by (rewrite <- V1, <- EM'; reflexivity).
  assert (EHT : h_type (k_hdr k') = m_type m) by (rewrite <- V2, <- EM'; reflexivity).
  assert (EHM : h_mid (k_hdr k') = m_mid m) by (rewrite <- V3, <- EM'; reflexivity).
  assert (TKE : h_tkl (k_hdr k') = lenN (m_token m)) by (rewrite TK', V4; reflexivity).
  destruct HM as (M1 & M2 & M3 & M4 & M5 & _).
  exists k', co, r, pt. conj.
  - exact EK'.
  - rewrite EKO. rewrite parser_one by assumption. rewrite EX2. exact OP.
  - exact OP1.
  - exact OP2.
  - exact OP5.
  - exact ET'.
  - rewrite EP'. exact AE.
  - exact LPT.
  - rewrite EP' in LPT. lia.
  - rewrite is_request_code. assert (EC' : h_code (k_hdr k') = outer_code m) by (rewrite <- V5, <- EM'; reflexivity).
    rewrite EC'. unfold outer_code. destruct (m_code m <? 32), (notifies m); reflexivity.
  - rewrite is_observe_nv, EO', existsb_app. cbn [existsb fst]. change (9 =? 6) with false. cbn [orb].
    rewrite <- existsb_app.
    assert (EX6 : forall l, existsb (fun p : N * bytes => fst p =? 6) l = existsb (fun n => n =? 6) (map fst l)) by (intros; symmetry; apply existsb_map).
    rewrite EX6, FE, <- EX6. unfold outside_opts, notifies.
    clear. induction (m_opts m) as [|[n v] l IH]; [reflexivity|]. cbn [filter existsb fst]. destruct (N.eqb_spec n 6) as [->|D6].
    + reflexivity.
    + cbn [orb]. destruct (is_class_u n); [|exact IH]. cbn [existsb fst]. destruct (N.eqb_spec n 6); [contradiction|exact IH].
  - unfold o_coap_pkg_generate. rewrite PT. cbn [oscore_decrypted_payload_parser]. rewrite EEO. cbn [bind]. rewrite RE. reflexivity.
  - unfold msg_of, received, r; cbn [k_hdr h_ver h_type h_code h_mid k_token k_opts k_payload].
    rewrite EHV, EHT, EHM, ET', MO. reflexivity.
  - assert (LOP : lenN opts = lenN (m_opts m)).
    { apply (f_equal lenN) in MO. unfold lenN in *. rewrite !map_length in MO. exact MO. }
    unfold pkt_wf, r; cbn [k_hdr h_tkl k_token k_opts k_payload]. conj.
    + rewrite ET', TKE. reflexivity.
    + lia.
    + apply (forall_vals (fun v => lenN v < 2 ^ 16)). rewrite MO, Forall_map, Forall_forall. intros [n v] Hp.
      unfold inner_value; cbn [fst]. destruct (_ && _); [reflexivity|]. cbn [snd]. eauto.
    + rewrite <- EPL. pose proof (coap_payload_len _ _ EK HB). change (2 ^ 32) with 4294967296. change (2 ^ 16) with 65536 in PB. lia.
    + lia.
  - unfold hdr_wf, r; cbn [k_hdr h_ver h_type h_tkl h_code h_mid]. rewrite EHV, EHT, EHM, TKE. auto.
  - exact MD.
  - apply (forall_nums (fun n => n < 2 ^ 16)). cbn [r k_opts]. rewrite MO, Forall_map. eapply Forall_impl; [|exact PN]. intros p Hp. rewrite inner_fst. exact Hp.
  - unfold opts_fit. rewrite opt_sum_size. cbn [r k_opts]. rewrite MO. pose proof (opts_size_inner (m_code m <? 32) (m_opts m)). lia.
Qed.

Lemma cose_reads kid piv aad nonce key pt ct : crypto_ok cr -> create_aad 10 kid piv MAX_AAD_LEN = Ok aad -> lenN aad <= 14 ->
  cr_aead_enc cr key nonce (rfc_aad 10 kid piv) 8 pt = Some ct -> oscore_cose_decrypt cr ct nonce aad key = Ok pt.
Proof.
  intros OK EA L AE. unfold oscore_cose_decrypt.
  assert (U : u32 (lenN aad + ENCRYPT0_ENCODING_OVERHEAD) = lenN aad + 16).
  { unfold u32, ENCRYPT0_ENCODING_OVERHEAD. change (2 ^ 32) with 4294967296. rewrite N.mod_small; lia. }
  rewrite U. unfold byte_array_new. rewrite check_ok by (unfold MAX_AAD_LEN; lia). cbn [bind].
  assert (ES : exists b, oscore_enc_structure aad (lenN aad + 16) = Ok b).
  { unfold oscore_enc_structure, cbor_put. set (b := enc_list 3 ++ _).
    assert (LB : lenN b <= lenN aad + 16).
    { unfold b. rewrite !lenN_app, !enc_bstr_len.
      change (lenN (enc_list 3)) with 1. change (lenN (enc_tstr str_Encrypt0)) with 9.
      assert (Q : forall n, n < 24 -> head_len n = 1) by (intros n X; unfold head_len; destruct (N.ltb_spec n 24); [reflexivity|lia]).
      rewrite !Q by (rewrite ?lenN_nil; lia). rewrite lenN_nil. lia. }
    destruct (N.leb_spec (lenN b) (lenN aad + 16)); [eauto|lia]. }
  destruct ES as (b & ES). rewrite ES. cbn [bind]. rewrite enc_structure_is_rfc in ES. apply cbor_put_ok in ES as [-> _].
  rewrite <- (rfc_aad_created _ _ _ _ EA). change AUTH_TAG_LEN with 8. rewrite (ok_aead _ OK _ _ _ _ _ _ AE). reflexivity.
Qed.

(** The path of a message that was read. *)
Lemma uri_received m r : msg_of r = received m -> segs_size (message_path m) < 30 ->
  uri_path_create (k_opts r) OSCORE_MAX_URI_PATH_LEN = Ok (path_string (message_path m)).
Proof.
  intros MR L. rewrite uri_path_create_exact by reflexivity. cbv zeta.
  assert (E : path_segments (k_opts r) = message_path m).
  { rewrite (path_of_message r (received m) MR). unfold message_path. cbn [received m_opts].
    change (fun p : N * bytes => fst p =? 11) with (num_is 11). rewrite filter_map_inner, map_inner_id by lia. reflexivity. }
  rewrite E. change OSCORE_MAX_URI_PATH_LEN with 30. destruct (N.ltb_spec (segs_size (message_path m)) 30); [reflexivity|lia].
Qed.

Lemma interop_request d m input o wire n buf2 :
  crypto_ok cr -> usable d -> keyed d ->
  rfc_message m input -> supported m input -> is_bytes input -> 0 < m_code m < 32 -> segs_size (message_path m) < 30 ->
  oo_kid o = Some (c_rid d) -> minimal_be n (oo_piv o) -> lenN (c_rid d) + lenN (oo_piv o) <= 7 ->
  rfc_protected cr (c_rkey d) (rfc_nonce (c_rid d) (oo_piv o) (c_iv d)) (rfc_aad (c_alg d) (c_rid d) (oo_piv o)) m o wire ->
  lenN wire <= 1032 -> lenN buf2 < 2 ^ 32 -> lenN input <= lenN buf2 ->
  c_ssn d < OSCORE_SSN_OVERFLOW_VALUE -> c_echo d = ECHO_SYNCHRONIZED -> Model_Replay.rw_valid n (c_win d) = true ->
  room (c_inter d) m ->
  exists d', oscore2coap cr d wire buf2 = (d', written input buf2, Ok (lenN input)) /\
    c_nonce d' = rfc_nonce (c_rid d) (oo_piv o) (c_iv d) /\
    (forall x, held (c_inter d') x <-> x = record_for m (oo_piv o) (c_rid d) \/ held (c_inter d) x /\ ~ concerns x m).
Proof.
  intros OK HD (AL & _ & IV) HM SUP HB HC PS OKID MB LK RP LW LB2 LI SD SE SW NF. rewrite AL in RP.
  destruct (opens_rfc _ _ _ m input o wire OK HM SUP HB RP LW) as
    (k' & co & r & pt & EK' & EO & OP & OK' & P5 & TK' & AE & LC & LPT & RQ' & OB' & PG & MR & WR & HWR & DR & NR & FR).
  rewrite OKID in OK'. cbn [opt_get] in OK'.
  assert (MR' : msg_of r = m) by (rewrite MR; apply received_request; lia).
  assert (BR : pkt_bytes r = input).
  { apply (message_unique m); [|exact HM]. rewrite <- MR'. apply pkt_bytes_rfc; assumption. }
  assert (RQK : is_request k' = true) by (rewrite RQ'; apply N.ltb_lt; lia).
  assert (RQR : is_request r = true).
  { rewrite is_request_code. change (h_code (k_hdr r)) with (m_code (msg_of r)). rewrite MR'. apply N.ltb_lt. lia. }
  destruct (kid_view_len _ _ OK') as [KL KT].
  destruct (aad_total (c_rid d) (oo_piv o) LK) as (aad & EA & LA).
  pose proof (cose_reads _ _ _ _ _ _ _ OK EA LA AE) as CD.
  pose proof (uri_received m r MR PS) as UR.
  destruct (update_request r m (c_inter d) _ (oo_piv o) (c_rid d) (proj1 HD) MR' RQR eq_refl) as [UD1 UD2].
  assert (SZ : inter_sizes (record_for m (oo_piv o) (c_rid d))).
  { destruct HM as (_ & _ & _ & _ & M5 & _). unfold inter_sizes, record_for; cbn [i_token i_uri i_piv i_kid].
    pose proof (path_string_len _ PS). lia. }
  destruct (UD2 NF SZ) as (t & UW). pose proof (proj2 (UD1 t UW)) as HELD.
  assert (TKR : k_token r = k_token k') by (rewrite TK', <- MR'; reflexivity). rewrite TKR in UW.
  set (nonce := rfc_nonce (c_rid d) (oo_piv o) (c_iv d)) in *.
  assert (DW : decrypt_wrapper cr d (Some co) k' = (set_inter (set_nonce d nonce) t, Ok (pt, r))).
  { eapply decrypt_opens with (nn := Some co); try eassumption.
    - rewrite OP, KT. destruct (type_request k' RQK) as [-> | [-> | ->]]; reflexivity.
    - rewrite OK'. cbn [bind]. rewrite OP. apply create_nonce_spec; lia.
    - rewrite AL. exact EA.
    - reflexivity. }
  destruct MB as (PB & PV & P1 & _).
  assert (PIV2 : piv2ssn (oo_piv o) = Ok n) by (rewrite piv2ssn_spec by assumption; congruence).
  assert (CORE : exists b, oscore2coap_core cr d wire =
    (set_win (set_inter (set_nonce d nonce) t) (snd (Model_Replay.rw_update b (c_win d))), Ok r)).
  { unfold oscore2coap_core, check_context_freshness. destruct (N.leb_spec OSCORE_SSN_OVERFLOW_VALUE (c_ssn d)); [lia|]. cbn [tryc].
    rewrite EK'. cbn [tryc]. rewrite EO. cbn [tryc]. rewrite LC. change AUTH_TAG_LEN with 8. rewrite sub32_small by lia.
    unfold byte_array_new. replace (lenN pt + 8 - 8) with (lenN pt) by lia. unfold check_buffer_size, MAX_PLAINTEXT_LEN.
    destruct (N.ltb_spec 1024 (lenN pt)); [lia|]. cbn [tryc]. rewrite RQK. unfold recv_request.
    rewrite KL, N.eqb_refl. cbn [negb]. rewrite OK'. cbn [tryc].
    assert (AQ : array_equals (c_rid d) (c_rid d) = true).
    { unfold array_equals. rewrite N.eqb_refl. cbn [negb]. clear. induction (c_rid d) as [|x l IH]; [reflexivity|].
      cbn [combine forallb fst snd]. rewrite N.eqb_refl. exact IH. }
    rewrite AQ. cbn [negb]. rewrite OP, PIV2. cbn [tryc]. rewrite SE, SW. cbn [negb]. rewrite DW. cbn [callc].
    change (c_echo (set_inter (set_nonce d nonce) t)) with (c_echo d). rewrite SE.
    destruct (oo_piv o) as [|b pv]; [rewrite lenN_nil in P1; lia|]. exists b. reflexivity. }
  destruct CORE as (b & CORE). unfold oscore2coap. rewrite CORE, serialize_back; [|assumption..|rewrite BR; exact LI]. rewrite BR.
  eexists. split; [reflexivity|]. split; [reflexivity|exact HELD].
Qed.

(** Responses. *)
Lemma interop_response d m input o wire nonce x buf2 :
  crypto_ok cr -> usable d -> keyed d ->
  rfc_message m input -> supported m input -> is_bytes input -> 32 <= m_code m -> segs_size (message_path m) < 30 ->
  held (c_inter d) x -> i_token x = m_token m -> lenN (i_kid x) + lenN (i_piv x) <= 7 ->
  rfc_protected cr (c_rkey d) nonce (rfc_aad (c_alg d) (i_kid x) (i_piv x)) m o wire ->
  (oo_piv o = [] /\ notifies m = false /\ nonce = c_nonce d \/
   exists n, minimal_be n (oo_piv o) /\ lenN (opt_get (oo_kid o)) <= 7 /\ nonce = rfc_nonce (opt_get (oo_kid o)) (oo_piv o) (c_iv d) /\
     (notifies m = true -> c_notif_init d = true -> c_notif d < n)) ->
  lenN wire <= 1032 -> lenN buf2 < 2 ^ 32 -> c_ssn d < OSCORE_SSN_OVERFLOW_VALUE ->
  exists out, rfc_message (received m) out /\
   (lenN out <= lenN buf2 -> exists d', oscore2coap cr d wire buf2 = (d', written out buf2, Ok (lenN out))).
Proof.
  intros OK HD (AL & _ & IV) HM SUP HB HC PS HX TX LK RP NON LW LB2 SD. rewrite AL in RP.
  destruct (opens_rfc _ _ _ m input o wire OK HM SUP HB RP LW) as
    (k' & co & r & pt & EK' & EO & OP & OK' & P5 & TK' & AE & LC & LPT & RQ' & OB' & PG & MR & WR & HWR & DR & NR & FR).
  exists (pkt_bytes r). split; [rewrite <- MR; apply pkt_bytes_rfc; assumption|]. intros LR.
  assert (RQK : is_request k' = false) by (rewrite RQ'; apply N.ltb_ge; lia).
  assert (RQR : is_request r = false).
  { rewrite is_request_code. change (h_code (k_hdr r)) with (m_code (msg_of r)). rewrite MR. apply N.ltb_ge. cbn [received m_code]. lia. }
  pose proof (proj1 HD) as TD.
  assert (OBR : is_observe (k_opts r) = notifies m).
  { rewrite is_observe_nv. change (map nv (k_opts r)) with (m_opts (msg_of r)). rewrite MR. cbn [received m_opts]. rewrite existsb_map. unfold notifies.
    clear. induction (m_opts m) as [|p l IH]; [reflexivity|]. cbn [existsb]. rewrite inner_fst, IH. reflexivity. }
  pose proof (type_by_observe k' RQK) as TYK'. rewrite OB' in TYK'.
  pose proof (type_by_observe r RQR) as TYR. rewrite OBR in TYR.
  assert (GD : get_record (c_inter d) (k_token k') = Ok x) by (apply (C24_get _ _ TD); rewrite TK'; auto).
  assert (RWD : forall cur, read_wrapper (coap_get_message_type k') (k_token k') (c_inter d) cur = Ok (i_piv x, i_kid x)).
  { intros cur. rewrite TYK'. destruct (notifies m); cbn [read_wrapper]; rewrite GD; reflexivity. }
  pose proof (uri_received m r MR PS) as UR.
  assert (UWD : exists t, update_wrapper (coap_get_message_type r) (k_token k') (path_string (message_path m)) (c_inter d) (i_piv x) (i_kid x) = Ok t).
  { rewrite TYR. destruct (notifies m); cbn [update_wrapper]; [eauto|]. unfold remove_record. unfold get_record in GD.
    destruct (MAX_TOKEN_LEN <? lenN (k_token k')); [discriminate|].
    destruct (nth_error (c_inter d) (find_by_token (c_inter d) (k_token k'))) eqn:NE; [|discriminate].
    assert (L : (find_by_token (c_inter d) (k_token k') < length (c_inter d))%nat) by (apply nth_error_Some; congruence).
    destruct TD as (L3 & _). rewrite L3 in L. apply Nat.ltb_lt in L. change OSCORE_INTERACTIONS_COUNT with 3%nat. rewrite L. eauto. }
  destruct UWD as (t & UWD).
  destruct (aad_total (i_kid x) (i_piv x) LK) as (aad & EA & LA).
  pose proof (cose_reads _ _ _ _ _ _ _ OK EA LA AE) as CD.
  set (nn := match co_piv co with [] => None | _ => Some co end).
  assert (DW : decrypt_wrapper cr d nn k' = (set_inter (match nn with Some _ => set_nonce d nonce | None => d end) t, Ok (pt, r))).
  { eapply decrypt_opens; try eassumption.
    - apply RWD.
    - unfold nn. rewrite OP. destruct NON as [(-> & _ & ->)|(n & (_ & _ & P1 & _) & L7 & -> & _)]; [reflexivity|].
      destruct (oo_piv o) as [|b pv] eqn:EP; [rewrite lenN_nil in P1; lia|]. rewrite OK'. cbn [bind]. rewrite OP.
      apply create_nonce_spec; [exact L7|exact P5|exact IV].
    - rewrite AL. exact EA.
    - reflexivity. }
  assert (CORE : exists d', oscore2coap_core cr d wire = (d', Ok r)).
  { unfold oscore2coap_core, check_context_freshness. destruct (N.leb_spec OSCORE_SSN_OVERFLOW_VALUE (c_ssn d)); [lia|]. cbn [tryc].
    rewrite EK'. cbn [tryc]. rewrite EO. cbn [tryc]. rewrite LC. change AUTH_TAG_LEN with 8. rewrite sub32_small by lia.
    unfold byte_array_new. replace (lenN pt + 8 - 8) with (lenN pt) by lia. unfold check_buffer_size, MAX_PLAINTEXT_LEN.
    destruct (N.ltb_spec 1024 (lenN pt)); [lia|]. cbn [tryc]. rewrite RQK. unfold recv_response. rewrite OB'.
    destruct (notifies m) eqn:EOB.
    - destruct NON as [(_ & X & _)|(n & (PB & PV & P1 & _) & L7 & _ & FN)]; [discriminate|].
      assert (PIV2 : piv2ssn (oo_piv o) = Ok n) by (rewrite piv2ssn_spec by assumption; congruence).
      unfold nn in DW. rewrite OP in DW |- *. destruct (oo_piv o) as [|b pv]; [rewrite lenN_nil in P1; lia|].
      unfold check_notification. rewrite PIV2. cbn [bind].
      assert (F : c_notif_init d && (n <=? c_notif d) = false).
      { destruct (c_notif_init d) eqn:NI; [|reflexivity]. cbn [andb]. apply N.leb_gt. apply FN; reflexivity. }
      rewrite F. cbn [tryc]. rewrite DW. cbn [callc]. eauto.
    - fold nn. rewrite DW. cbn [callc]. eauto. }
  destruct CORE as (d' & CORE). exists d'.
  unfold oscore2coap. rewrite CORE. rewrite serialize_back by assumption. reflexivity.
Qed.

(** A response with a Partial IV is decrypted with the KID that it carries, if any, others
    with the nonce stored last. *)
Lemma interop_kid d m input o wire nonce x buf2 d' b nr :
  crypto_ok cr -> usable d -> keyed d ->
  rfc_message m input -> supported m input -> is_bytes input -> 32 <= m_code m ->
  held (c_inter d) x -> i_token x = m_token m ->
  rfc_protected cr (c_rkey d) nonce (rfc_aad (c_alg d) (i_kid x) (i_piv x)) m o wire -> lenN wire <= 1032 ->
  oscore2coap cr d wire buf2 = (d', b, Ok nr) ->
  exists pt ct pt', cr_aead_enc cr (c_rkey d) nonce (rfc_aad (c_alg d) (i_kid x) (i_piv x)) 8 pt = Some ct /\
    cr_aead_dec cr (c_rkey d) (if lenN (oo_piv o) =? 0 then c_nonce d else rfc_nonce (opt_get (oo_kid o)) (oo_piv o) (c_iv d))
      (rfc_aad (c_alg d) (i_kid x) (i_piv x)) 8 ct = Some pt'.
Proof.
  intros OK HD (_ & _ & IV) HM SUP HB HC HX TX RP LW H.
  destruct (opens_rfc _ _ _ m input o wire OK HM SUP HB RP LW) as
    (k' & co & r & pt & EK' & EO & OP & OK' & P5 & TK' & AE & LC & LPT & RQ' & OB' & _).
  unfold oscore2coap in H. destruct (oscore2coap_core cr d wire) as [d1 rc] eqn:C.
  destruct rc as [out|e|u]; [|discriminate..].
  destruct (core_opened cr d wire d1 out IV (proj1 HD) C) as (k & o' & rpiv & rkid & nn & a & pt' & EK & EO1 & (k2 & o2 & rk2 & rp2 & EK2 & EO2 & EA2 & ED2 & Q) & _ & _ & ED & R).
  rewrite EK' in EK, EK2. injection EK as <-. injection EK2 as <-. rewrite EO in EO1, EO2. injection EO1 as <-. injection EO2 as <-.
  rewrite RQ' in R. destruct (N.ltb_spec (m_code m) 32); [lia|]. destruct R as (y & HY & TY & -> & ->).
  assert (y = x) as -> by (apply (held_token _ y x (proj1 HD) HY HX); congruence).
  rewrite is_request_code in RQ'. rewrite RQ' in Q. destruct Q as (_ & Q).
  destruct (kid_view_len _ _ OK') as [_ KT]. rewrite OP, KT in Q.
  assert (nn = if lenN (oo_piv o) =? 0 then c_nonce d else rfc_nonce (opt_get (oo_kid o)) (oo_piv o) (c_iv d)) as <- by (destruct (lenN (oo_piv o) =? 0); exact Q).
  exists pt, (k_payload k'), pt'. split; [exact AE|exact ED].
Qed.

(** Notifications without Partial IV are refused. *)
Lemma interop_no_piv d m input o wire nonce aad buf2 :
  crypto_ok cr -> rfc_message m input -> supported m input -> is_bytes input -> 32 <= m_code m ->
  notifies m = true -> oo_piv o = [] -> rfc_protected cr (c_rkey d) nonce aad m o wire -> lenN wire <= 1032 ->
  c_ssn d < OSCORE_SSN_OVERFLOW_VALUE -> oscore2coap cr d wire buf2 = (d, buf2, Err not_supported_feature).
Proof.
  intros OK HM SUP HB HC NM NP RP LW SD.
  destruct (opens_rfc _ _ _ m input o wire OK HM SUP HB RP LW) as
    (k' & co & r & pt & EK' & EO & OP & OK' & P5 & TK' & AE & LC & LPT & RQ' & OB' & _).
  unfold oscore2coap, oscore2coap_core, check_context_freshness. destruct (N.leb_spec OSCORE_SSN_OVERFLOW_VALUE (c_ssn d)); [lia|]. cbn [tryc].
  rewrite EK'. cbn [tryc]. rewrite EO. cbn [tryc]. rewrite LC. change AUTH_TAG_LEN with 8. rewrite sub32_small by lia.
  unfold byte_array_new. replace (lenN pt + 8 - 8) with (lenN pt) by lia. unfold check_buffer_size, MAX_PLAINTEXT_LEN.
  destruct (N.ltb_spec 1024 (lenN pt)); [lia|]. cbn [tryc]. rewrite RQ'. destruct (N.ltb_spec (m_code m) 32); [lia|].
  unfold recv_response. rewrite OB', NM, OP, NP. reflexivity.
Qed.

(** Writing. *)
Lemma interop_send nw c s m input buf buf1 n : crypto_ok cr -> usable c -> keyed c ->
  rfc_message m input -> supported m input -> is_bytes input -> m_code m <> 0 ->
  (forall v, In (6, v) (m_opts m) -> lenN v <= 3) ->
  lenN buf < 2 ^ 32 -> coap2oscore cr nw c input buf = (s, buf1, Ok n) ->
  exists o nonce rkid rpiv, rfc_protected cr (c_skey c) nonce (rfc_aad (c_alg c) rkid rpiv) m o (takeN n buf1) /\
    (o = {| oo_piv := oo_piv o; oo_ctx := match c_id_context c with [] => None | x => Some x end; oo_kid := Some (c_sid c) |} /\
     minimal_be (c_ssn c) (oo_piv o) /\ nonce = rfc_nonce (c_sid c) (oo_piv o) (c_iv c) \/
     32 <= m_code m /\ notifies m = false /\ o = oo_empty /\ nonce = c_nonce c) /\
    if m_code m <? 32 then rkid = c_sid c /\ rpiv = oo_piv o
    else exists x, held (c_inter c) x /\ i_token x = m_token m /\ rkid = i_kid x /\ rpiv = i_piv x.
Proof.
  intros OK HC (_ & _ & IV) HM SUP HB CZ OB3 LB HS.
  destruct (coap_parse_rfc m input HM (proj1 SUP)) as (k & EK & EM & TK & DC).
  destruct SUP as (PA & DI & LI & N9 & ND & SZ & PL). destruct PA as (PD & PV & PN & PC & PB).
  assert (ECD : h_code (k_hdr k) = m_code m) by (rewrite <- EM; reflexivity).
  assert (ETK : k_token k = m_token m) by (rewrite <- EM; reflexivity).
  assert (EO : map nv (k_opts k) = m_opts m) by (rewrite <- EM; reflexivity).
  assert (EPL : k_payload k = m_payload m) by (rewrite <- EM; reflexivity).
  assert (LIN : lenN input < 2 ^ 32). { change (2 ^ 32) with 4294967296. change (2 ^ 16) with 65536 in PB. lia. }
  destruct (send_full cr nw c input k buf s buf1 n OK HB LIN LB EK ltac:(lia) HS)
    as (e & u & elen & pt & ct & opt & nonce & aad & piv & kid & kctx & rpiv & rkid & uri & out & ES & EP & LPT & WI & NN & OG & RW & AA & CE & LC & UR & UW & CN & EG & W & HW & TKN & LO & SSN).
  assert (FN : Forall (fun o => o_num o < 2 ^ 16) (k_opts k)) by (apply (forall_nums (fun n => n < 2 ^ 16)); rewrite EO; exact PN).
  destruct (coap_parse_sound _ _ EK HB LIN) as (Wk & HWk & L19 & OW & NC & _).
  unfold inner_outer_option_split in ES. destruct (_ <? _) in ES; [discriminate|]. injection ES as ES.
  destruct (split_loop_spec (is_request k) (k_opts k) 0 0 0 0 e u elen NC eq_refl eq_refl eq_refl ES) as (inner & SI & EI & SU & _ & _).
  rewrite EO in SI, SU.
  apply (selects_filter _ (fun p => negb (is_class_u (fst p)))) in SI; [|intros x; apply inside_dec].
  apply (selects_filter _ (fun p => (fst p =? 6) || is_class_u (fst p))) in SU; [|intros x; apply outside_dec].
  fold (inside_opts m) in SI. fold (outside_opts m) in SU. subst inner.
  destruct (split_loop_asc (is_request k) (k_opts k) 0 0 0 0 e u elen DC FN ltac:(reflexivity) ltac:(lia) ltac:(lia) ES) as [DE DU].
  assert (SK : opt_sum (k_opts k) <= 100) by (rewrite opt_sum_size, EO; exact SZ).
  assert (PT : pt = m_code m :: ser_opts e ++ marked (m_payload m)).
  { rewrite <- ECD, <- EPL.
    pose proof (split_elen (is_request k) (k_opts k) 0 0 0 0 e u elen DC FN ltac:(reflexivity) ltac:(lia) ltac:(lia)
      ltac:(left; reflexivity) ltac:(change (2 ^ 16) with 65536; lia) ES) as SL.
    rewrite EO in SL. change (0 =? 0) with true in SL. cbv iota in SL.
    eapply plaintext_exact with (nu := lenN (class_u_opts m)) (elen := elen); [unfold class_u_opts; lia| | | |exact EP].
    - eapply split_loop_elen; [|exact ES]. reflexivity.
    - pose proof (coap_payload_len _ _ EK HB). change (2 ^ 31) with 2147483648. change (2 ^ 16) with 65536 in PB. lia.
    - rewrite EPL. exact PL. }
  assert (FUO : Forall (fun p : N * bytes => goes_outside (fst p)) (outside_opts m)).
  { rewrite Forall_forall. intros p Hp. apply filter_In in Hp. apply outside_dec. apply Hp. }
  assert (N9U : ~ In 9 (map fst (outside_opts m))).
  { intros X. apply N9. apply in_map_iff in X as (p & E & Hp). apply filter_In in Hp as [Hp _]. apply in_map_iff. eauto. }
  pose proof (nodup_outside_len _ ND FUO N9U) as LU.
  assert (LUU : lenN u <= 6). { rewrite <- SU in LU. unfold lenN in *. rewrite map_length in LU. exact LU. }
  assert (FU256 : Forall (fun o => o_num o < 256) u).
  { apply (forall_nums (fun n => n < 256)). rewrite SU. rewrite Forall_forall in *. intros p Hp. apply outside_small. auto. }
  destruct (insert_oscore_spec u opt 0 DU FU256 ltac:(lia)) as (before & after & EU & _ & _ & EIN & DIN).
  pose proof (option_generate_len _ _ _ _ OG) as LO23.
  assert (OBU : is_observe u = notifies m).
  { rewrite is_observe_nv, SU. unfold outside_opts, notifies. clear.
    induction (m_opts m) as [|[q v] l IH]; [reflexivity|]. cbn [filter existsb fst]. destruct (N.eqb_spec q 6) as [->|D6].
    - reflexivity.
    - cbn [orb]. destruct (is_class_u q); [|exact IH]. cbn [existsb fst]. destruct (N.eqb_spec q 6); [contradiction|exact IH]. }
  assert (RQ : is_request k = (m_code m <? 32)) by (rewrite is_request_code, ECD; reflexivity).
  unfold oscore_pkg_generate in EG. destruct (_ <? _) in EG; [discriminate|]. injection EG as <-.
  set (out := {| k_hdr := _; k_token := _; k_opts := _; k_payload := _ |}) in *.
  assert (OUTN : Forall (fun o => o_num o < 2 ^ 16) (k_opts out)).
  { apply (forall_nums (fun n => n < 2 ^ 16)). cbn [out k_opts]. rewrite EIN.
    assert (FX : Forall (fun p : N * bytes => fst p < 2 ^ 16) (map nv (before ++ after))).
    { rewrite <- EU. apply (forall_nums (fun n => n < 2 ^ 16)). eapply Forall_impl; [|exact FU256]. cbn. intros. change (2 ^ 16) with 65536. lia. }
    rewrite map_app in FX. apply Forall_app in FX as [FX1 FX2]. apply Forall_app. split; [exact FX1|]. constructor; [reflexivity|exact FX2]. }
  pose proof (pkt_bytes_rfc out W HW DIN OUTN) as RO.
  assert (PIV5 : lenN piv <= 5).
  { pose proof WI as WI'. unfold wire_ids in WI'. destruct (uses_new_piv c k).
    - destruct WI' as (P & _). apply ssn2piv_ok in P. tauto.
    - destruct WI' as (-> & _). apply N.leb_le. reflexivity. }
  destruct (new_piv_facts c k piv kid kctx HC SSN WI) as [_ GL].
  { intros E. rewrite E in NN. eapply nonce_id_short; eassumption. }
  set (o := if uses_new_piv c k then gen_opt piv kid kctx else oo_empty).
  assert (OV : rfc_oscore_value o opt /\ oo_piv o = piv).
  { rewrite generate_exact in OG by assumption. destruct (_ <? _) in OG; [discriminate|].
    unfold o. unfold wire_ids in WI. destruct (uses_new_piv c k).
    - destruct WI as (P & _). apply ssn2piv_ok in P as (_ & (_ & _ & P1 & _) & _).
      assert (NE : ~ (piv = [] /\ kid = [] /\ kctx = [])) by (intros (-> & _); rewrite lenN_nil in P1; lia).
      rewrite gen_len_pos in OG by exact NE. destruct (N.eqb_spec (1 + lenN piv + lenN kid + match kctx with [] => 0 | _ :: _ => 1 + lenN kctx end) 0); [lia|].
      injection OG as <-. split; [|reflexivity]. apply oov_bytes; [exact PIV5| |].
      + intros x. cbn [gen_opt oo_ctx]. rewrite gen_len_pos in GL by exact NE. destruct kctx; [discriminate|]. intros X. injection X as <-. lia.
      + unfold oo_empty, gen_opt. intros X. discriminate.
    - destruct WI as (-> & -> & ->). cbn in OG. injection OG as <-. split; [constructor|reflexivity]. }
  destruct OV as [OV OPV].
  exists o, nonce, rkid, rpiv. split; [|split].
  - rewrite TKN. exists (msg_of out), pt, opt, (map nv before), (map nv after). conj.
    + exact RO.
    + rewrite <- EM. reflexivity.
    + rewrite <- EM. reflexivity.
    + rewrite <- EM. reflexivity.
    + rewrite <- EM. reflexivity.
    + unfold msg_of; cbn [m_code out k_hdr h_code]. rewrite OBU, RQ. reflexivity.
    + exact EIN.
    + rewrite <- map_app, <- EU, SU. reflexivity.
    + rewrite <- map_app, <- EU, SU. intros v Hv. apply filter_In in Hv as [Hv _]. eauto.
    + exact OV.
    + lia.
    + exists (ser_opts e). split; [|exact PT]. rewrite <- RQ, <- EI. apply ser_opts_rfc; [exact DE|].
      assert (X : Forall (fun p : N * bytes => fst p < 2 ^ 16 /\ lenN (snd p) < 2 ^ 16) (map nv e)); [|rewrite Forall_map in X; exact X].
      rewrite EI, Forall_map, Forall_forall. intros [q v] Hp. rewrite inner_fst. apply filter_In in Hp as [Hp _].
      rewrite Forall_forall in PN. specialize (PN _ Hp). cbn [fst] in *. split; [exact PN|].
      assert (LV : lenN v < 2 ^ 16).
      { rewrite <- EO in Hp. apply in_map_iff in Hp as (y & Ey & Hy). rewrite Forall_forall in OW. destruct (OW y Hy) as (? & ? & ? & ?).
        unfold nv in Ey. injection Ey as _ <-. assumption. }
      unfold inner_value; cbn [fst]. destruct (_ && _); [reflexivity|exact LV].
    + apply (cose_encrypt_rfc cr _ _ _ _ _ _ _ _ AA CE).
  - unfold o in *. unfold wire_ids in WI. destruct (uses_new_piv c k) eqn:NU.
    + left. destruct WI as (P & -> & ->). apply ssn2piv_ok in P as (_ & MB & _). split; [|split].
      * unfold gen_opt; cbn [oo_piv]. destruct (c_id_context c); reflexivity.
      * exact MB.
      * apply create_nonce_rfc in NN as (_ & _ & ->); [reflexivity|exact IV].
    + right. unfold uses_new_piv, needs_new_piv in NU.
      destruct (m_code m <? 32) eqn:C32.
      { exfalso. destruct (type_request k RQ) as [T | [T | T]]; rewrite T in NU; discriminate. }
      apply N.ltb_ge in C32. split; [exact C32|].
      pose proof (type_by_observe k RQ) as TY.
      assert (OBK : is_observe (k_opts k) = notifies m) by (rewrite is_observe_nv, EO; reflexivity).
      rewrite OBK in TY. rewrite TY in NU. destruct (notifies m); [discriminate|]. auto.
  - destruct (m_code m <? 32) eqn:C32.
    + assert (NU : uses_new_piv c k = true).
      { unfold uses_new_piv, needs_new_piv. destruct (type_request k RQ) as [-> | [-> | ->]]; reflexivity. }
      unfold wire_ids in WI. rewrite NU in WI. destruct WI as (_ & -> & _). rewrite OPV.
      destruct (type_request k RQ) as [T | [T | T]]; rewrite T in RW; cbn [read_wrapper] in RW; injection RW as <- <-; auto.
    + pose proof (type_by_observe k RQ) as TY.
      assert (X : (let* r0 := get_record (c_inter c) (k_token k) in Ok (i_piv r0, i_kid r0)) = Ok (rpiv, rkid)).
      { rewrite TY in RW. destruct (is_observe (k_opts k)); exact RW. }
      apply bind_ok in X as (x & E & X). injection X as <- <-. apply (C24_get _ _ (proj1 HC)) in E as [HX TX].
      exists x. rewrite <- ETK. auto.
Qed.

(** The client after a request. *)
Lemma request_sent nw c s m input buf buf1 n : crypto_ok cr -> usable c -> keyed c ->
  rfc_message m input -> supported m input -> is_bytes input -> 0 < m_code m < 32 -> lenN buf < 2 ^ 32 ->
  coap2oscore cr nw c input buf = (s, buf1, Ok n) ->
  exists piv, minimal_be (c_ssn c) piv /\ c_nonce (s_ctx s) = rfc_nonce (c_sid c) piv (c_iv c) /\
    held (c_inter (s_ctx s)) (record_for m piv (c_sid c)) /\ lenN (c_sid c) + lenN piv <= 7.
Proof.
  intros OK HC (AL & _ & IV) HM SUP HB CO LB HS.
  destruct (coap_parse_rfc m input HM (proj1 SUP)) as (k & EK & EM & TK & DC).
  assert (ECD : h_code (k_hdr k) = m_code m) by (rewrite <- EM; reflexivity).
  assert (LIN : lenN input < 2 ^ 32). { destruct SUP as ((_ & _ & _ & _ & PB) & _). change (2 ^ 32) with 4294967296. change (2 ^ 16) with 65536 in PB. lia. }
  destruct (send_full cr nw c input k buf s buf1 n OK HB LIN LB EK ltac:(lia) HS)
    as (e & u & elen & pt & ct & opt & nonce & aad & piv & kid & kctx & rpiv & rkid & uri & out & ES & EP & LPT & WI & NN & OG & RW & AA & CE & LC & UR & UW & CN & _).
  assert (RQ : is_request k = true) by (rewrite is_request_code, ECD; apply N.ltb_lt; lia).
  assert (NEW : uses_new_piv c k = true).
  { unfold uses_new_piv, needs_new_piv. destruct (type_request k RQ) as [-> | [-> | ->]]; reflexivity. }
  unfold wire_ids in WI. rewrite NEW in WI, NN. destruct WI as (PV & -> & ->).
  assert (RR : rpiv = piv /\ rkid = c_sid c).
  { destruct (type_request k RQ) as [T | [T | T]]; rewrite T in RW; cbn [read_wrapper] in RW; injection RW as <- <-; auto. }
  destruct RR as [-> ->].
  pose proof (uri_of_message k m uri EM UR) as EU.
  destruct (update_request k m (c_inter c) uri piv (c_sid c) (proj1 HC) EM RQ EU) as [UC _]. destruct (UC _ UW) as [SZ HELD].
  apply ssn2piv_ok in PV as (_ & MB & _). exists piv. split; [exact MB|]. split; [|split].
  - rewrite CN. apply create_nonce_rfc in NN as (_ & _ & ->); [reflexivity|exact IV].
  - apply HELD. left. reflexivity.
  - destruct (N.le_gt_cases (lenN (c_sid c) + lenN piv) 7) as [L|L]; [exact L|]. rewrite AL in AA.
    destruct (seal_fails cr _ _ _ pt nonce (c_skey c) L AA) as (er & X). congruence.
Qed.

End WithCrypto.
