(** Property C68: the two sides of a session, and different sessions, encrypt with
    different keys. *)
From Verif Require Import Base Proof_Base Model_Common Model_Crypto Model_Cbor Proof_Cbor Model_OscorePrims Model_Interactions Model_Context
  Spec_CborTree Proof_CborTree Spec_OscorePrims Proof_OscorePrims Spec_Hkdf Proof_Hkdf Model_Replay Model_Send Model_Recv Model_Run
  Spec_Session Proof_Send Proof_Run Proof_Session Proof_Nonce Prop_Context Prop_Nonce
  Spec_Edhoc Spec_EdhocRun Spec_EdhocView Model_EdhocCfg Model_EdhocKeys Model_EdhocCert Model_EdhocMsg Model_EdhocRun Proof_EdhocAgree
  Proof_EdhocDefault Spec_Coap Model_App Spec_Protect Spec_Traffic Prop_EdhocRun Prop_EdhocKeys Prop_Traffic
  Model_Toy Proof_Toy Model_ToyRun.

(** RFC 5869: an absent salt is 32 zero bytes; the PRK. *)
Definition extract_salt (p : init_params) : bytes := match ip_salt p with [] => repeat 0 32 | s => s end.
Definition extracted (cr : crypto) (p : init_params) : bytes := cr_hmac cr (extract_salt p) (ip_secret p).
(** RFC 8613 section 3.2.1 and RFC 5869: the text whose HMAC starts with the sender key. *)
Definition sender_key_text (p : init_params) : bytes :=
  cbor (rfc_info (ip_sender_id p) (ip_id_context p) (ip_aead p) false) ++ [1].

(** HMAC-SHA-256 gives the same PRK for the master secrets of [p] and [q], or the same first 16
    bytes for the texts of their sender keys, although its arguments differ. *)
Definition key_collision (cr : crypto) (p q : init_params) : Prop :=
  ((extract_salt p, ip_secret p) <> (extract_salt q, ip_secret q) /\ extracted cr p = extracted cr q) \/
  ((extracted cr p, sender_key_text p) <> (extracted cr q, sender_key_text q) /\
   takeN 16 (cr_hmac cr (extracted cr p) (sender_key_text p)) = takeN 16 (cr_hmac cr (extracted cr q) (sender_key_text q))).

(** The parameters that determine the sender key. *)
Definition same_sender (p q : init_params) : Prop :=
  ip_secret p = ip_secret q /\ extract_salt p = extract_salt q /\ ip_id_context p = ip_id_context q /\ ip_sender_id p = ip_sender_id q.

Lemma okm_16 cr k i : (forall k m, lenN (cr_hmac cr k m) = 32) -> hkdf_okm (cr_hmac cr) k i 16 = takeN 16 (cr_hmac cr k (i ++ [1])).
Proof.
  intros HL. unfold hkdf_okm, hkdf_stream. change (N.to_nat ((16 + 31) / 32)) with 1%nat. cbn [seq map concat hkdf_T app].
  rewrite app_nil_r. reflexivity.
Qed.

Lemma init_sizes cr p nvm gn ge gf c : oscore_context_init cr p nvm gn ge gf = Ok c ->
  ip_aead p = 10%Z /\ lenN (cbor (rfc_info (ip_sender_id p) (ip_id_context p) (ip_aead p) false)) <= MAX_INFO_LEN.
Proof.
  intros H. unfold oscore_context_init in H.
  destruct (negb (ip_aead p =? OSCORE_AES_CCM_16_64_128)%Z) eqn:E1; [discriminate|].
  destruct (negb (ip_hkdf p =? OSCORE_SHA_256)%Z) eqn:E2; [discriminate|].
  apply negb_false_iff in E1. apply Z.eqb_eq in E1.
  apply bind_ok in H as (iv & EI & H). destruct (_ <? _); [discriminate|].
  apply bind_ok in H as (rk & ER & H). apply bind_ok in H as (ssn & _ & H).
  apply bind_ok in H as (sk & EK & H). split; [exact E1|].
  unfold derive in EK. apply bind_ok in EK as (info & EF & _).
  rewrite info_is_rfc in EF. apply cbor_put_ok in EF as [_ L]. exact L.
Qed.

Lemma info_sizes id ctx alg iv : lenN (cbor (rfc_info id ctx alg iv)) <= MAX_INFO_LEN -> lenN id < 2 ^ 32 /\ lenN ctx < 2 ^ 32.
Proof.
  intros L.
  assert (X : lenN id + lenN ctx <= lenN (cbor (rfc_info id ctx alg iv))).
  { assert (E : oscore_create_hkdf_info id ctx alg (if iv then IV else KEY) (lenN (cbor (rfc_info id ctx alg iv))) =
      Ok (cbor (rfc_info id ctx alg iv))).
    { rewrite info_is_rfc. destruct iv; cbn [type_is_iv]; unfold cbor_put; rewrite N.leb_refl; reflexivity. }
    unfold oscore_create_hkdf_info in E. destruct (match (if iv then IV else KEY) with KEY => _ | IV => _ end) as [ty len].
    apply cbor_put_ok in E as [E _]. rewrite E. rewrite !lenN_app. unfold enc_bstr. rewrite !lenN_app.
    destruct (N.eqb_spec (lenN ctx) 0) as [Z|Z]; [rewrite Z; lia|]. rewrite lenN_app. lia. }
  unfold MAX_INFO_LEN in L. lia.
Qed.

Lemma init_skey cr p nvm gn ge gf c : (forall k m, lenN (cr_hmac cr k m) = 32) -> oscore_context_init cr p nvm gn ge gf = Ok c ->
  c_skey c = takeN 16 (cr_hmac cr (extracted cr p) (sender_key_text p)).
Proof.
  intros HL H. apply C30_keys_are_rfc in H as (E & _); [|exact HL]. rewrite E. unfold rfc_derive. rewrite okm_16 by exact HL. reflexivity.
Qed.

Lemma same_key_same_sender cr p q nvm gn ge gf nvm' gn' ge' gf' c d :
  (forall k m, lenN (cr_hmac cr k m) = 32) ->
  oscore_context_init cr p nvm gn ge gf = Ok c -> oscore_context_init cr q nvm' gn' ge' gf' = Ok d ->
  c_skey c = c_skey d -> same_sender p q \/ key_collision cr p q.
Proof.
  intros HL HC HD E.
  destruct (init_sizes _ _ _ _ _ _ _ HC) as [A1 L1]. destruct (init_sizes _ _ _ _ _ _ _ HD) as [A2 L2].
  rewrite (init_skey _ _ _ _ _ _ _ HL HC), (init_skey _ _ _ _ _ _ _ HL HD) in E.
  destruct (list_eq_dec N.eq_dec (extracted cr p) (extracted cr q)) as [EP|NP].
  2:{ right. right. split; [congruence|exact E]. }
  destruct (list_eq_dec N.eq_dec (sender_key_text p) (sender_key_text q)) as [ET|NT].
  2:{ right. right. split; [congruence|exact E]. }
  destruct (list_eq_dec N.eq_dec (extract_salt p) (extract_salt q)) as [ES|NS].
  2:{ right. left. split; [congruence|exact EP]. }
  destruct (list_eq_dec N.eq_dec (ip_secret p) (ip_secret q)) as [EC|NC].
  2:{ right. left. split; [congruence|exact EP]. }
  left. unfold sender_key_text in ET. apply app_inj_tail in ET as [ET _].
  destruct (info_sizes _ _ _ _ L1) as [S1 S2]. destruct (info_sizes _ _ _ _ L2) as [S3 S4].
  destruct (hkdf_info_inj (ip_sender_id p) (ip_id_context p) (ip_aead p) KEY MAX_INFO_LEN
              (ip_sender_id q) (ip_id_context q) (ip_aead q) KEY MAX_INFO_LEN
              (cbor (rfc_info (ip_sender_id p) (ip_id_context p) (ip_aead p) false))) as (Q1 & Q2 & _); try assumption.
  1,2: rewrite ?A1, ?A2; unfold is_int32; lia.
  - rewrite info_is_rfc. cbn [type_is_iv]. unfold cbor_put. rewrite (proj2 (N.leb_le _ _) L1). reflexivity.
  - rewrite info_is_rfc. cbn [type_is_iv]. rewrite <- ET. unfold cbor_put. rewrite (proj2 (N.leb_le _ _) L1). reflexivity.
  - repeat split; assumption.
Qed.

(** Two contexts, of one device or of different ones, use the same key for encryption at any
    time of their lives only when they were set up with the same secret, salt, ID context and
    sender ID, or HMAC-SHA-256 collides on the named inputs. *)
Theorem C68_keys_separate :
  forall (cr : crypto) (p q : init_params) (nvm nvm' : res N) (gn ge gn' ge' : bytes) (gf gf' : N) (c0 d0 c d : ctx),
  (forall k m, lenN (cr_hmac cr k m) = 32) ->
  oscore_context_init cr p nvm gn ge gf = Ok c0 -> oscore_context_init cr q nvm' gn' ge' gf' = Ok d0 ->
  later cr c0 c -> later cr d0 d ->
  c_skey c = c_skey d -> same_sender p q \/ key_collision cr p q.
Proof.
  intros cr p q nvm nvm' gn ge gn' ge' gf gf' c0 d0 c d HL HC HD LC LD E.
  apply later_keys in LC as (_ & _ & _ & _ & _ & K1 & _). apply later_keys in LD as (_ & _ & _ & _ & _ & K2 & _).
  eapply same_key_same_sender; try eassumption. congruence.
Qed.
Print Assumptions C68_keys_separate.

(** Both sides of a session with different IDs, each following the discipline of C08: no
    pair of key and nonce occurs twice in all that the two sides encrypt. *)
Theorem C68_two_sides_partial :
  forall (cr : crypto) (p q : init_params) (nvm nvm' : res N) (gn ge gn' ge' : bytes) (gf gf' : N) (c d c' d' : ctx) (ns ms : list bytes),
  (forall k m, lenN (cr_hmac cr k m) = 32) ->
  oscore_context_init cr p nvm gn ge gf = Ok c -> oscore_context_init cr q nvm' gn' ge' gf' = Ok d ->
  ip_sender_id q = ip_recipient_id p -> ip_recipient_id q = ip_sender_id p -> ip_sender_id p <> ip_recipient_id p ->
  prompt cr c ns c' -> prompt cr d ms d' ->
  NoDup (map (pair (c_skey c)) ns ++ map (pair (c_skey d)) ms) \/ key_collision cr p q.
Proof.
  intros cr p q nvm nvm' gn ge gn' ge' gf gf' c d c' d' ns ms HL HC HD E1 E2 NE PC PD.
  assert (RC : reachable cr c) by (exists p, nvm, gn, ge, gf, c, []; auto).
  assert (RD : reachable cr d) by (exists q, nvm', gn', ge', gf', d, []; auto).
  destruct (C30_keys_are_rfc _ _ _ _ _ _ _ HL HC) as (_ & _ & _ & SC & IC & _).
  destruct (C30_keys_are_rfc _ _ _ _ _ _ _ HL HD) as (_ & _ & _ & SD & ID & _).
  assert (NC : NoDup ns) by (refine (C08_prompt_partial cr c c' ns HL RC _ PC); congruence).
  assert (ND : NoDup ms) by (refine (C08_prompt_partial cr d d' ms HL RD _ PD); congruence).
  destruct (list_eq_dec N.eq_dec (c_skey c) (c_skey d)) as [EK|NK].
  - right. destruct (same_key_same_sender _ _ _ _ _ _ _ _ _ _ _ _ _ HL HC HD EK) as [(_ & _ & _ & X)|X]; [|exact X].
    exfalso. apply NE. rewrite <- E1. exact X.
  - left. assert (M : forall (k : bytes) (l : list bytes), NoDup l -> NoDup (map (@pair bytes bytes k) l)).
    { intros k l H. apply FinFun.Injective_map_NoDup; [|exact H]. intros x y Q. injection Q as Q. exact Q. }
    assert (A : forall l1 l2 : list (bytes * bytes), NoDup l1 -> NoDup l2 -> (forall x, In x l1 -> ~ In x l2) -> NoDup (l1 ++ l2)).
    { induction l1 as [|x l1 IH]; intros l2 N1 N2 D; [exact N2|]. inversion N1 as [|? ? X1 X2]; subst. cbn. constructor.
      - intros I. apply in_app_or in I as [I|I]; [contradiction|]. apply (D x); [left; reflexivity|exact I].
      - apply IH; try assumption. intros y I. apply D. right. exact I. }
    apply A; try (apply M; assumption).
    intros [k n] I J. apply in_map_iff in I as (x & Q & _). apply in_map_iff in J as (y & Q' & _).
    injection Q as Q _. injection Q' as Q' _. congruence.
Qed.
Print Assumptions C68_two_sides_partial.

(** After an EDHOC handshake with different connection identifiers the two sides send with
    different keys (compare C54_same_ids_refuted). *)
Theorem C68_after_edhoc_partial :
  forall (cr : crypto) (cf : cfg) (pf : platform) (i : initiator) (r : responder) (creds_i creds_r : list other_party_cred)
    (st : suite) (si sr : bool) (id_i id_r : cred_id) (key_i key_r g_xy g_rx g_iy : bytes) (ei er : env) (pk_cap : N)
    (gn ge gn' ge' : bytes) (gf gf' : N),
  crypto_ok cr -> aead_total cr ->
  fit cr cf pf i r creds_i creds_r st si sr id_i id_r key_i key_r g_xy g_rx g_iy ->
  m3_fits_m2 r st si sr id_i id_r ->
  obliging ei -> obliging er -> 65 <= pk_cap ->
  let oi := initiator_run cr cf pf i creds_r 32 ei in
  let or := responder_run_extended cr cf pf r creds_i (C_I_SIZE cf) (Some pk_cap) 32 er in
  connected ei er oi or ->
  lenN (i_c_i i) <= 4 -> lenN (r_c_r r) <= 4 -> i_c_i i <> r_c_r r ->
  exists c d secret salt, app_oscore cr cf oi (i_c_i i) gn ge gf = Ok c /\ app_oscore cr cf or (r_c_r r) gn' ge' gf' = Ok d /\
  forall (c' d' : ctx) (ns ms : list bytes), prompt cr c ns c' -> prompt cr d ms d' ->
  NoDup (map (pair (c_skey c)) ns ++ map (pair (c_skey d)) ms) \/
  key_collision cr (app_params secret salt (i_c_i i) (r_c_r r)) (app_params secret salt (r_c_r r) (i_c_i i)).
Proof.
  intros cr cf pf i r creds_i creds_r st si sr id_i id_r key_i key_r g_xy g_rx g_iy ei er pk_cap gn ge gn' ge' gf gf' OK AT F M Oi Or HK oi or Cn LI LR NE.
  assert (H32 : 32 <= 8128) by (apply N.leb_le; reflexivity).
  destruct (C37_agreement_partial cr cf pf i r creds_i creds_r st si sr id_i id_r key_i key_r g_xy g_rx g_iy ei er 32 pk_cap OK AT F M Oi Or H32 HK Cn)
    as (s2 & s3 & ct3 & Q). cbv zeta in Q. fold oi in Q. fold or in Q.
  destruct Q as (_ & R1 & _ & P1 & C1 & R2 & _ & P2 & C2 & _).
  set (prk := x_prk_out _ _ _ _) in *.
  destruct (app_context_ok cr cf prk (i_c_i i) (r_c_r r) gn ge gf OK ltac:(lia) ltac:(lia)) as (c & EC & IC).
  destruct (app_context_ok cr cf prk (r_c_r r) (i_c_i i) gn' ge' gf' OK ltac:(lia) ltac:(lia)) as (d & ED & ID).
  cbv zeta in IC, ID. exists c, d, (fst (rfc_master cr prk)), (snd (rfc_master cr prk)).
  unfold app_oscore. rewrite R1, R2, P1, P2, C1, C2. cbn [bind].
  split; [exact EC|]. split; [exact ED|]. intros c' d' ns ms PC PD.
  eapply C68_two_sides_partial; try eassumption; try apply (ok_hmac_len _ OK); try reflexivity.
  cbn [app_params ip_sender_id ip_recipient_id]. intros X. apply NE. symmetry. exact X.
Qed.
Print Assumptions C68_after_edhoc_partial.

(** The client and the server of the toy session: each encrypts something, and their keys
    differ without a collision. *)
Example C68_example :
  ip_sender_id (toy_params [1] [2] true) <> ip_recipient_id (toy_params [1] [2] true) /\
  c_skey toy_client <> c_skey toy_server /\
  (exists c' ns, prompt toy_crypto toy_client ns c' /\ ns <> []) /\
  (exists d' ms, prompt toy_crypto toy_server ms d' /\ ms <> []) /\
  ~ key_collision toy_crypto (toy_params [1] [2] true) (toy_params [2] [1] true).
Proof.
  split; [discriminate|]. split; [vm_compute; discriminate|]. split.
  { do 2 eexists. split.
    1: eapply (prompt_send toy_crypto toy_client toy_nw (toy_get 9) toy_out).
    - vm_compute. reflexivity.
    - intros (_ & k & EK & L & _). vm_compute in EK. injection EK as <-. cbn in L. lia.
    - apply prompt_end.
    - vm_compute. discriminate. }
  split.
  { do 2 eexists. split.
    1: eapply (prompt_send toy_crypto toy_server toy_nw (toy_get 9) toy_out).
    - vm_compute. reflexivity.
    - intros (_ & k & EK & L & _). vm_compute in EK. injection EK as <-. cbn in L. lia.
    - apply prompt_end.
    - vm_compute. discriminate. }
  intros [[N _]|[_ E]]; [apply N; reflexivity|]. vm_compute in E. discriminate.
Qed.
