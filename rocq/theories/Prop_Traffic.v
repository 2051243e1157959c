(** Property C54: from the EDHOC handshake to OSCORE traffic. *)
From Verif Require Import Base Proof_Base Model_Common Model_Crypto Spec_Hkdf Spec_Edhoc Spec_EdhocRun Spec_EdhocView
  Model_EdhocCfg Model_EdhocKeys Model_EdhocCert Model_EdhocMsg Model_EdhocRun Proof_EdhocAgree Proof_EdhocDefault
  Model_OscorePrims Proof_OscorePrims Model_Coap Spec_Coap Proof_Coap Model_Interactions Model_Replay Proof_Replay Model_Context
  Model_Send Model_Recv Model_Run Spec_Interactions Proof_Interactions Proof_Send Proof_Run Proof_Session Proof_Nonce Proof_RoundTrip Proof_Protect
  Model_App Spec_Protect Spec_Traffic Proof_Net Proof_Traffic Prop_Context Prop_EdhocRun Prop_EdhocKeys
  Model_Cbor Model_Toy Proof_Toy Model_ToyEdhoc Model_ToyRun Prop_RoundTrip Prop_Protect.

Lemma info_fits cf : 6 <= INFO_MAX_SIZE cf.
Proof.
  unfold INFO_MAX_SIZE, CONTEXT_MAC_SIZE.
  assert (A : forall n, n <= as_bstr_size n) by (intros n; unfold as_bstr_size; repeat destruct (_ <=? _); repeat destruct (_ <? _); lia).
  pose proof (A (as_bstr_size (C_R_SIZE cf) + as_bstr_size HASH_SIZE + ID_CRED_MAX_SIZE cf + CRED_MAX_SIZE cf + EAD_SIZE cf)).
  pose proof (A HASH_SIZE). change HASH_SIZE with 32 in *. lia.
Qed.

(** Master Secret and Master Salt of RFC 9528, appendix A.1, for PRK_out. *)
Definition rfc_master (cr : crypto) (prk_out : bytes) : bytes * bytes :=
  let e := rfc_kdf (cr_hmac cr) prk_out 10 [] 32 in
  (rfc_kdf (cr_hmac cr) e 0 [] 16, rfc_kdf (cr_hmac cr) e 1 [] 8).

Lemma app_master_rfc cr cf prk : crypto_ok cr -> app_master cr cf prk = Ok (rfc_master cr prk).
Proof.
  intros OK. unfold app_master, rfc_master.
  assert (E : forall p l n, (l <? 24) = true -> (n <=? 254 * 32) = true ->
    prk_out2exporter cr cf p n = Ok (rfc_kdf (cr_hmac cr) p 10 [] n) /\ edhoc_exporter cr cf l p n = Ok (rfc_kdf (cr_hmac cr) p l [] n)).
  { intros p l n Hl Hn. destruct (C41_exporter_is_rfc cr cf p p [] l n (ok_hmac_len _ OK)) as (A & _ & B & _).
    - apply N.ltb_lt. exact Hl.
    - apply N.leb_le. exact Hn.
    - reflexivity.
    - apply info_fits.
    - etransitivity; [|apply info_fits]. apply N.leb_le. reflexivity.
    - auto. }
  destruct (E prk 0 32 eq_refl eq_refl) as [-> _]. cbn [bind].
  destruct (E (rfc_kdf (cr_hmac cr) prk 10 [] 32) OSCORE_MASTER_SECRET 16 eq_refl eq_refl) as [_ ->]. cbn [bind].
  destruct (E (rfc_kdf (cr_hmac cr) prk 10 [] 32) OSCORE_MASTER_SALT 8 eq_refl eq_refl) as [_ ->]. reflexivity.
Qed.

Lemma init_fresh cr p nvm nvm' gn ge gf : ip_fresh p = true ->
  oscore_context_init cr p nvm gn ge gf = oscore_context_init cr p nvm' gn ge gf.
Proof. intros F. unfold oscore_context_init, ssn_init. rewrite F. reflexivity. Qed.

Lemma app_context_ok cr cf prk own peer gn ge gf : crypto_ok cr -> lenN own <= 8 -> lenN peer <= 23 ->
  exists c, app_context cr cf prk own peer gn ge gf = Ok c /\
    let p := app_params (fst (rfc_master cr prk)) (snd (rfc_master cr prk)) own peer in
    oscore_context_init cr p (Ok 0) gn ge gf = Ok c.
Proof.
  intros OK L1 L2. unfold app_context. rewrite app_master_rfc by exact OK. destruct (rfc_master cr prk) as [secret salt]. cbn [bind fst snd].
  destruct (C30_init_total cr (app_params secret salt own peer) 0 gn ge gf (ok_hmac_len _ OK) eq_refl eq_refl) as (c & E);
    cbn [app_params ip_sender_id ip_recipient_id ip_id_context]; change (lenN (@nil N)) with 0; try lia.
  exists c. split; [|exact E]. rewrite <- E. apply init_fresh. reflexivity.
Qed.

Lemma linked_init cr p q c d gn ge gf gn' ge' gf' :
  crypto_ok cr ->
  ip_secret q = ip_secret p -> ip_salt q = ip_salt p -> ip_id_context p = [] -> ip_id_context q = [] ->
  ip_sender_id q = ip_recipient_id p -> ip_recipient_id q = ip_sender_id p -> ip_fresh p = true -> ip_fresh q = true ->
  lenN (ip_sender_id p) <= 4 ->
  oscore_context_init cr p (Ok 0) gn ge gf = Ok c -> oscore_context_init cr q (Ok 0) gn' ge' gf' = Ok d -> linked c d /\ forall x, ~ held (c_inter c) x.
Proof.
  intros OK Q1 Q2 Q3 Q4 Q5 Q6 F1 F2 L HC HD.
  assert (RC : reachable cr c) by (exists p, (Ok 0), gn, ge, gf, c, []; auto).
  destruct (reachable_both cr c OK RC) as [UC KC].
  destruct (C30_mirrored cr p q (Ok 0) (Ok 0) gn ge gn' ge' gf gf' c d (ok_hmac_len _ OK) Q1 Q2 ltac:(congruence) Q5 Q6 HC HD)
    as (A1 & _ & A3 & A4 & _ & A6 & _).
  destruct (C30_keys_are_rfc cr p (Ok 0) gn ge gf c (ok_hmac_len _ OK) HC) as (_ & _ & _ & _ & _ & _ & IC & _).
  apply init_inter in HC as (I1 & I2 & I3 & I4 & I5 & I6 & _ & _ & I9 & I10).
  apply init_inter in HD as (_ & J2 & J3 & _).
  split; [|intros x Hx; unfold held in Hx; rewrite I1 in Hx; cbn in Hx; destruct Hx as [Hx|[Hx|[Hx|[]]]]; discriminate].
  constructor; try assumption.
  - repeat split; assumption.
  - rewrite I4, F1. reflexivity.
  - congruence.
  - exists []. rewrite J2. split; [apply init_inv|constructor].
  - rewrite I5. exact L.
  - congruence.
  - rewrite J3. discriminate.
Qed.

Lemma init_ssn0 cr p gn ge gf c : ip_fresh p = true -> oscore_context_init cr p (Ok 0) gn ge gf = Ok c -> c_ssn c = 0.
Proof. intros F H. apply init_inter in H as (_ & _ & _ & _ & _ & _ & _ & _ & _ & E). rewrite F in E. injection E as E. symmetry. exact E. Qed.

(** Two parties that fit together run EDHOC and derive their OSCORE contexts from the
    results as the samples do. Then every sequence of CoAP exchanges, started by either
    side, works: all calls succeed and each application gets exactly what the other one
    sent. The number of exchanges is limited only by the sequence numbers.
    Missing (apart from the conditions of C37): identifiers of more than 4 bytes. *)
Theorem C54_handshake_to_traffic_partial :
  forall (cr : crypto) (cf : cfg) (pf : platform) (i : initiator) (r : responder) (creds_i creds_r : list other_party_cred)
    (st : suite) (si sr : bool) (id_i id_r : cred_id) (key_i key_r g_xy g_rx g_iy : bytes) (ei er : env) (pk_cap : N)
    (gn ge gn' ge' : bytes) (gf gf' : N),
  crypto_ok cr -> aead_total cr ->
  fit cr cf pf i r creds_i creds_r st si sr id_i id_r key_i key_r g_xy g_rx g_iy ->
  m3_fits_m2 r st si sr id_i id_r ->
  obliging ei -> obliging er -> 65 <= pk_cap ->
  let oi := initiator_run cr cf pf i creds_r 32 ei in
  let or := responder_run_extended cr cf pf r creds_i (C_I_SIZE cf) (Some pk_cap) 32 er in
  connected ei er oi or ->
  lenN (i_c_i i) <= 4 -> lenN (r_c_r r) <= 4 ->
  exists c d, app_oscore cr cf oi (i_c_i i) gn ge gf = Ok c /\ app_oscore cr cf or (r_c_r r) gn' ge' gf' = Ok d /\
  forall l : list (bool * exchange), Forall (fun p => good_exchange (snd p)) l -> lenN l < OSCORE_SSN_OVERFLOW_VALUE ->
  exists c' d', app_traffic cr c d l = Some (c', d', map (fun p => (x_request (snd p), x_response (snd p))) l).
Proof.
  intros cr cf pf i r creds_i creds_r st si sr id_i id_r key_i key_r g_xy g_rx g_iy ei er pk_cap gn ge gn' ge' gf gf' OK AT F M Oi Or HK oi or Cn LI LR.
  assert (H32 : 32 <= 8128) by (apply N.leb_le; reflexivity).
  destruct (C37_agreement_partial cr cf pf i r creds_i creds_r st si sr id_i id_r key_i key_r g_xy g_rx g_iy ei er 32 pk_cap OK AT F M Oi Or H32 HK Cn)
    as (s2 & s3 & ct3 & Q). cbv zeta in Q. fold oi in Q. fold or in Q.
  destruct Q as (_ & R1 & _ & P1 & C1 & R2 & _ & P2 & C2 & _).
  set (prk := x_prk_out _ _ _ _) in *.
  destruct (app_context_ok cr cf prk (i_c_i i) (r_c_r r) gn ge gf OK ltac:(lia) ltac:(lia)) as (c & EC & IC).
  destruct (app_context_ok cr cf prk (r_c_r r) (i_c_i i) gn' ge' gf' OK ltac:(lia) ltac:(lia)) as (d & ED & ID).
  cbv zeta in IC, ID. exists c, d. unfold app_oscore. rewrite R1, R2, P1, P2, C1, C2. cbn [bind].
  split; [exact EC|]. split; [exact ED|]. intros l G L.
  apply traffic_total; try assumption.
  - edestruct linked_init as [A B]; [exact OK| | | | | | | | | |exact IC|exact ID|]; try reflexivity; try assumption. constructor; assumption.
  - edestruct linked_init as [A B]; [exact OK| | | | | | | | | |exact ID|exact IC|]; try reflexivity; try assumption. constructor; assumption.
  - assert (NC : c_ssn c = 0) by (refine (init_ssn0 _ _ _ _ _ _ _ IC); reflexivity).
    assert (ND : c_ssn d = 0) by (refine (init_ssn0 _ _ _ _ _ _ _ ID); reflexivity). rewrite NC, ND. exact L.
Qed.
Print Assumptions C54_handshake_to_traffic_partial.

(** The responder chooses C_R before it sees C_I, and neither the library nor the samples
    compare the two. When they are equal, both sides encrypt with the same key, and the
    first requests of the two sides with the same nonce. *)
Theorem C54_same_ids_refuted :
  forall (cr : crypto) (cf : cfg) (pf : platform) (i : initiator) (r : responder) (creds_i creds_r : list other_party_cred)
    (st : suite) (si sr : bool) (id_i id_r : cred_id) (key_i key_r g_xy g_rx g_iy : bytes) (ei er : env) (pk_cap : N)
    (gn ge gn' ge' : bytes) (gf gf' : N),
  crypto_ok cr -> aead_total cr ->
  fit cr cf pf i r creds_i creds_r st si sr id_i id_r key_i key_r g_xy g_rx g_iy ->
  m3_fits_m2 r st si sr id_i id_r ->
  obliging ei -> obliging er -> 65 <= pk_cap ->
  let oi := initiator_run cr cf pf i creds_r 32 ei in
  let or := responder_run_extended cr cf pf r creds_i (C_I_SIZE cf) (Some pk_cap) 32 er in
  connected ei er oi or ->
  lenN (i_c_i i) <= 4 -> i_c_i i = r_c_r r ->
  exists c d, app_oscore cr cf oi (i_c_i i) gn ge gf = Ok c /\ app_oscore cr cf or (r_c_r r) gn' ge' gf' = Ok d /\
  c_skey c = c_skey d /\
  forall nw nw' m m' input input' buf buf' s s' w w' n n',
    rfc_message m input -> supported m input -> is_bytes input -> 0 < m_code m < 32 -> lenN buf < 2 ^ 16 ->
    rfc_message m' input' -> supported m' input' -> is_bytes input' -> 0 < m_code m' < 32 -> lenN buf' < 2 ^ 16 ->
    coap2oscore cr nw c input buf = (s, w, Ok n) -> coap2oscore cr nw' d input' buf' = (s', w', Ok n') ->
    exists nonce a p a' p', s_enc s = Some (nonce, a, p) /\ s_enc s' = Some (nonce, a', p').
Proof.
  intros cr cf pf i r creds_i creds_r st si sr id_i id_r key_i key_r g_xy g_rx g_iy ei er pk_cap gn ge gn' ge' gf gf' OK AT F M Oi Or HK oi or Cn LI SAME.
  assert (H32 : 32 <= 8128) by (apply N.leb_le; reflexivity).
  destruct (C37_agreement_partial cr cf pf i r creds_i creds_r st si sr id_i id_r key_i key_r g_xy g_rx g_iy ei er 32 pk_cap OK AT F M Oi Or H32 HK Cn)
    as (s2 & s3 & ct3 & Q). cbv zeta in Q. fold oi in Q. fold or in Q.
  destruct Q as (_ & R1 & _ & P1 & C1 & R2 & _ & P2 & C2 & _).
  set (prk := x_prk_out _ _ _ _) in *. rewrite SAME in LI.
  destruct (app_context_ok cr cf prk (i_c_i i) (r_c_r r) gn ge gf OK ltac:(rewrite SAME; lia) ltac:(lia)) as (c & EC & IC).
  destruct (app_context_ok cr cf prk (r_c_r r) (i_c_i i) gn' ge' gf' OK ltac:(lia) ltac:(rewrite SAME; lia)) as (d & ED & ID).
  cbv zeta in IC, ID. exists c, d. unfold app_oscore. rewrite R1, R2, P1, P2, C1, C2. cbn [bind].
  split; [exact EC|]. split; [exact ED|].
  assert (NC : c_ssn c = 0) by (refine (init_ssn0 _ _ _ _ _ _ _ IC); reflexivity).
  assert (ND : c_ssn d = 0) by (refine (init_ssn0 _ _ _ _ _ _ _ ID); reflexivity).
  apply C30_keys_are_rfc in IC as (K1 & _ & K3 & K4 & _); [|apply (ok_hmac_len _ OK)].
  apply C30_keys_are_rfc in ID as (J1 & _ & J3 & J4 & _); [|apply (ok_hmac_len _ OK)].
  cbn [app_params ip_sender_id] in K1, K4, J1, J4. rewrite SAME in J1, J4, K1, K3, J3.
  assert (EK : c_skey c = c_skey d) by (rewrite K1, J1; reflexivity).
  assert (EI : c_iv c = c_iv d) by (rewrite K3, J3; reflexivity).
  split; [exact EK|]. intros nw nw' m m' input input' buf buf' s s' w w' n n' HM SU HB CO LB HM' SU' HB' CO' LB' HS HS'.
  assert (X : forall nw c m input buf s w n, rfc_message m input -> supported m input -> is_bytes input -> 0 < m_code m < 32 -> lenN buf < 2 ^ 16 ->
    coap2oscore cr nw c input buf = (s, w, Ok n) ->
    exists nonce a p piv, s_enc s = Some (nonce, a, p) /\ ssn2piv (c_ssn c) = Ok piv /\ create_nonce (c_sid c) piv (c_iv c) = Ok nonce).
  { clear - OK. intros nw c m input buf s w n HM SU HB CO LB HS.
    assert (LBB : lenN buf < 2 ^ 32) by (change (2 ^ 32) with 4294967296; change (2 ^ 16) with 65536 in LB; lia).
    destruct (sent_state cr OK nw c m input buf s w n HM SU HB LBB HS ltac:(lia)) as (_ & _ & _ & NS & _). specialize (NS ltac:(lia)).
    assert (EX : exec cr c (ASend nw input buf) = (s_ctx s, {| ob_enc := s_enc s; ob_nvm := s_nvm s; ob_buf := w; ob_res := Ok n |}))
      by (unfold exec; rewrite HS; reflexivity).
    destruct (s_enc s) as [[[nonce a] p]|] eqn:SE.
    - destruct (send_nonce cr nw c input buf _ _ nonce a p EX eq_refl) as [(_ & _ & _ & piv & PV & CN)|(_ & Z & _)]; [|lia].
      exists nonce, a, p, piv. auto.
    - exfalso. destruct (coap_parse_rfc m input HM (proj1 SU)) as (k & EK & EM & _ & _).
      assert (LI : lenN input < 2 ^ 32).
      { destruct SU as ((_ & _ & _ & _ & L) & _). change (2 ^ 32) with 4294967296. change (2 ^ 16) with 65536 in L. lia. }
      assert (ECD : Model_Coap.h_code (k_hdr k) = m_code m) by (rewrite <- EM; reflexivity).
      destruct (Proof_Wire.send_result cr nw c input k buf s w n OK HB LI LBB EK HS) as [_ [((_ & Z) & _)|(_ & wire & PR & _)]]; [lia|].
      destruct PR as (e & u & elen & pt & ct & opt & nonce & aad & piv & kid & kctx & rpiv & rkid & out & _ & _ & _ & _ & _ & _ & _ & _ & SE' & _).
      congruence. }
  destruct (X _ _ _ _ _ _ _ _ HM SU HB CO LB HS) as (nonce & a & p & piv & E1 & V1 & N1).
  destruct (X _ _ _ _ _ _ _ _ HM' SU' HB' CO' LB' HS') as (nonce' & a' & p' & piv' & E2 & V2 & N2).
  rewrite NC in V1. rewrite ND in V2. rewrite V1 in V2. injection V2 as <-. rewrite J4, <- K4, <- EI, N1 in N2. injection N2 as <-.
  exists nonce, a, p, a', p'. auto.
Qed.
Print Assumptions C54_same_ids_refuted.

(** The same for parties that identify themselves by a kid, with the default sizes:
    [kid_parties] are plain conditions on the keys and credentials. *)
Theorem C54_kid_partial :
  forall (cr : crypto) (pf : platform) (i : initiator) (r : responder) (creds_i creds_r : list other_party_cred)
    (st : suite) (si sr : bool) (kid_i kid_r : Z) (g_xy g_rx g_iy : bytes) (ei er : env) (gn ge gn' ge' : bytes) (gf gf' : N),
  crypto_ok cr -> aead_total cr ->
  kid_parties cr i r creds_i creds_r st si sr kid_i kid_r g_xy g_rx g_iy -> ~ (si = false /\ sr = true) ->
  obliging ei -> obliging er ->
  let oi := initiator_run cr default_cfg pf i creds_r 32 ei in
  let or := responder_run_extended cr default_cfg pf r creds_i 10 (Some 65) 32 er in
  connected ei er oi or ->
  lenN (i_c_i i) <= 4 -> lenN (r_c_r r) <= 4 ->
  exists c d, app_oscore cr default_cfg oi (i_c_i i) gn ge gf = Ok c /\ app_oscore cr default_cfg or (r_c_r r) gn' ge' gf' = Ok d /\
  forall l : list (bool * exchange), Forall (fun p => good_exchange (snd p)) l -> lenN l < OSCORE_SSN_OVERFLOW_VALUE ->
  exists c' d', app_traffic cr c d l = Some (c', d', map (fun p => (x_request (snd p), x_response (snd p))) l).
Proof.
  intros cr pf i r creds_i creds_r st si sr kid_i kid_r g_xy g_rx g_iy ei er gn ge gn' ge' gf gf' K A P NM Oi Or oi or Cn LI LR.
  pose proof (kid_fit cr pf i r creds_i creds_r st si sr kid_i kid_r g_xy g_rx g_iy P) as F.
  apply (kid_m3 cr i r creds_i creds_r st si sr kid_i kid_r g_xy g_rx g_iy P) in NM.
  refine (C54_handshake_to_traffic_partial cr default_cfg pf i r creds_i creds_r st si sr _ _ _ _ g_xy g_rx g_iy ei er 65 gn ge gn' ge' gf gf'
    K A F NM Oi Or _ Cn LI LR). apply N.leb_le. reflexivity.
Qed.
Print Assumptions C54_kid_partial.

(** With method 1 the initiator's application reads a PRK_out that was never written,
    although every call reported ok. *)
Theorem C54_method_1_refuted :
  forall (cr : crypto) (pf : platform) (i : initiator) (r : responder) (creds_i creds_r : list other_party_cred)
    (st : suite) (kid_i kid_r : Z) (g_xy g_rx g_iy : bytes) (ei er : env) (gn ge : bytes) (gf : N),
  crypto_ok cr -> aead_total cr ->
  kid_parties cr i r creds_i creds_r st false true kid_i kid_r g_xy g_rx g_iy ->
  obliging ei -> obliging er ->
  let oi := initiator_run cr default_cfg pf i creds_r 32 ei in
  let or := responder_run_extended cr default_cfg pf r creds_i 10 (Some 65) 32 er in
  connected ei er oi or ->
  o_ret oi = Ok tt /\ app_oscore cr default_cfg oi (i_c_i i) gn ge gf = UB Uninit.
Proof.
  intros cr pf i r creds_i creds_r st kid_i kid_r g_xy g_rx g_iy ei er gn ge gf K A P Oi Or oi or Cn.
  destruct (C37_method_1_refuted cr pf i r creds_i creds_r st kid_i kid_r g_xy g_rx g_iy ei er K A P Oi Or Cn) as [R1 R2].
  split; [exact R1|]. unfold app_oscore. fold oi in R1, R2. rewrite R1, R2. reflexivity.
Qed.
Print Assumptions C54_method_1_refuted.

Definition toy_content_msg : message :=
  {| m_ver := 1; m_type := 2; m_code := 0x45; m_mid := 5; m_token := [5]; m_opts := []; m_payload := [104; 105] |}.
Definition toy_exchange : exchange := {|
  x_request := toy_post; x_buf_c := toy_out; x_buf_s := toy_out;
  x_response := toy_content 5; x_buf_s' := toy_out; x_buf_c' := toy_out; x_nw_c := toy_nw; x_nw_s := toy_nw |}.

Lemma toy_connected_same (i := toy_initiator 3 [2] [1; 2] []) (r := toy_responder [2] [1; 2])
  (ei := toy_env (toy_m2 default_cfg i r) (Err not_implemented)) (er := toy_env (toy_m1 default_cfg i) (toy_m3 default_cfg i r)) :
  connected ei er (initiator_run toy_crypto default_cfg toy_pf i toy_creds_r 32 ei)
    (responder_run_extended toy_crypto default_cfg toy_pf r toy_creds_i 10 (Some 65) 32 er).
Proof.
  assert (Q : forall (o : list bytes) (n : nat) (a : res bytes),
    match nth_error o n with Some m => match a with Ok m' => beqb m m' | _ => false end | None => true end = true ->
    forall m, nth_error o n = Some m -> a = Ok m).
  { intros o n a B m' E. rewrite E in B. destruct a as [m''|?|?]; try discriminate. apply beqb_eq in B. now subst. }
  unfold connected. cbn [e_rx ei er toy_env].
  split; [|split]; intros x; intros; eapply Q; try eassumption; vm_compute; reflexivity.
Qed.

Lemma toy_parties_same :
  kid_parties toy_crypto (toy_initiator 3 [2] [1; 2] []) (toy_responder [2] [1; 2]) toy_creds_i toy_creds_r
    {| suite_label := 2; edhoc_aead := AES_CCM_16_64_128; edhoc_mac_len_static_dh := 8;
       edhoc_ecdh := P256; edhoc_sign := ES256; app_aead := AES_CCM_16_64_128 |} true true 5 (-3)
    (be_enc 32 (be_val (repeat 11 32) + be_val (repeat 21 32))) (be_enc 32 (be_val (repeat 11 32) + be_val (repeat 22 32)))
    (be_enc 32 (be_val (repeat 12 32) + be_val (repeat 21 32))).
Proof.
  destruct (toy_parties true true). constructor; try assumption.
  all: repeat split; try discriminate; apply N.leb_le; reflexivity.
Qed.

(** The parties of C37_hypotheses, an exchange they may make after the handshake, and the
    same initiator with a responder that happens to use the same identifier. *)
Example C54_example :
  good_exchange toy_exchange /\ lenN [(true, toy_exchange); (false, toy_exchange)] < OSCORE_SSN_OVERFLOW_VALUE /\
  (lenN [1; 2] <= 4 /\ lenN [7; 8] <= 4) /\
  (exists st g_xy g_rx g_iy,
     kid_parties toy_crypto (toy_initiator 3 [2] [1; 2] []) (toy_responder [2] [1; 2]) toy_creds_i toy_creds_r st true true 5 (-3) g_xy g_rx g_iy) /\
  (let i := toy_initiator 3 [2] [1; 2] [] in let r := toy_responder [2] [1; 2] in
   let ei := toy_env (toy_m2 default_cfg i r) (Err not_implemented) in
   let er := toy_env (toy_m1 default_cfg i) (toy_m3 default_cfg i r) in
   connected ei er (initiator_run toy_crypto default_cfg toy_pf i toy_creds_r 32 ei)
     (responder_run_extended toy_crypto default_cfg toy_pf r toy_creds_i 10 (Some 65) 32 er)).
Proof.
  split; [|split; [reflexivity|split; [split; apply N.leb_le; reflexivity|split; [do 4 eexists; exact toy_parties_same|exact toy_connected_same]]]].
  destruct C19_example as (R1 & R2 & _).
  exists toy_post_msg, toy_content_msg. split.
  { split; [exact R1|]. split; [exact R2|]. split; [apply is_bytes_dec; reflexivity|]. split; [reflexivity|]. split; [|reflexivity].
    split; [|split; [|split]]; try (apply N.leb_le; vm_compute; reflexivity); vm_compute; reflexivity. }
  split; [split; reflexivity|]. split.
  { split.
    { unfold rfc_message. cbn [toy_content_msg m_ver m_type m_code m_mid m_token m_opts m_payload]. do 4 (split; [reflexivity|]). split; [apply N.leb_le; reflexivity|].
      exists [255; 104; 105]. split; [|reflexivity]. exists []. split; [constructor|reflexivity]. }
    split.
    { unfold supported, parsable. cbn [toy_content_msg m_opts m_payload].
      split; [split; [|split; [|split; [|split]]]|split; [|split; [|split; [|split; [|split]]]]];
        try (right; apply N.leb_le; reflexivity); try constructor; try (apply N.leb_le; reflexivity); try reflexivity; try (intros []). }
    split; [apply is_bytes_dec; reflexivity|]. split; [reflexivity|]. split; [|reflexivity].
    split; [|split; [|split]]; try (apply N.leb_le; vm_compute; reflexivity); vm_compute; reflexivity. }
  split; [apply N.leb_le; reflexivity|]. split; [reflexivity|]. split; [reflexivity|].
  split; (split; [apply N.leb_le; reflexivity|reflexivity]).
Qed.
