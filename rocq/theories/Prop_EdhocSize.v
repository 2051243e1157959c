(** Property C47: messages of honest parties fit the buffers of the other side. *)
From Verif Require Import Base Proof_Base Model_Common Model_Cbor Proof_Cbor Model_Crypto
  Spec_CborTree Proof_CborTree Spec_Hkdf Proof_Hkdf Spec_Edhoc Spec_EdhocRun Spec_EdhocSize Model_EdhocCfg Model_EdhocCbor Model_EdhocKeys
  Proof_EdhocBase Model_EdhocCert Model_EdhocMsg Model_EdhocRun Proof_EdhocMsg1 Proof_EdhocMsg Proof_EdhocRun
  Proof_EdhocAgree Proof_EdhocDefault Prop_EdhocAuth Prop_EdhocRun Model_Toy Proof_Toy Model_ToyEdhoc.

Lemma compact_le id : lenN (rfc_id_cred_compact id) <= lenN (rfc_id_cred id).
Proof.
  destruct id as [z|c|a h]; cbn [rfc_id_cred_compact]; try reflexivity. cbn [rfc_id_cred]. unfold map1. rewrite !lenN_app. lia.
Qed.
Lemma suite_mac i st : get_suite (last (i_suites i) 0) = Ok st -> edhoc_mac_len_static_dh st = 8 \/ edhoc_mac_len_static_dh st = 16.
Proof.
  intros E. unfold get_suite in E. destruct (last (i_suites i) 0) as [|[[p|p|]|[p|p|]|]]; try discriminate; injection E as <-; cbn; lia.
Qed.

Lemma default_fit cr pf i r creds_i creds_r st si sr id_i id_r key_i key_r g_xy g_rx g_iy :
  default_parties cr pf i r creds_i creds_r st si sr id_i id_r key_i key_r g_xy g_rx g_iy ->
  (edhoc_mac_len_static_dh st = 16 -> lenN (i_id_cred i) <= 397) ->
  fit cr default_cfg pf i r creds_i creds_r st si sr id_i id_r key_i key_r g_xy g_rx g_iy.
Proof.
  intros P S16.
  destruct P as [KM [KSB KS] KT KSR KX KY [KXY KYX] KR KI (KIR & KRR & LR) (KII & KRI & LI) KIB KNR KNI
    (KC1 & KC2) (CI & CI') (CR & CR') (E1 & E2 & E3)].
  pose proof (suite_mac _ _ KT) as ML.
  pose proof (compact_le id_r) as CLR. pose proof (compact_le id_i) as CLI. rewrite <- KIR in CLR. rewrite <- KII in CLI.
  pose proof (conn_len _ CR) as LC.
  assert (MM : i_method i <= 3) by (rewrite KM; destruct si, sr; lia).
  pose proof (m1_len (i_method i) (i_suites i) (i_g_x i) (i_c_i i) MM (proj2 KS) KSB KX CI) as LM1.
  constructor; try assumption.
  - change (SUITES_I_SIZE default_cfg) with 6. repeat split; try assumption; lia.
  - auto.
  - auto.
  - rewrite E1. apply N.leb_le. reflexivity.
  - rewrite E1. etransitivity; [exact LM1|]. apply N.leb_le. reflexivity.
  - split; assumption.
  - change (C_R_SIZE default_cfg) with 10. change (C_I_SIZE default_cfg) with 10. repeat split; assumption.
  - change (ID_CRED_I_SIZE default_cfg) with 400. change (ID_CRED_R_SIZE default_cfg) with 400. lia.
  - change (ID_CRED_I_SIZE default_cfg) with 400. split; [lia|]. change (CIPHERTEXT3_SIZE default_cfg) with 482.
    unfold as_bstr_size, bstr_overhead.
    destruct (N.leb_spec (lenN (i_id_cred i) + 66) 5), (N.leb_spec (lenN (i_id_cred i) + 66) 255), (N.leb_spec (lenN (i_id_cred i) + 66) 65535); lia.
  - change (CRED_MAX_SIZE default_cfg) with 400. split; [|lia]. intros Q. rewrite Q in KC1. change (lenN (@nil N)) with 0 in KC1. lia.
  - change (CRED_MAX_SIZE default_cfg) with 400. split; [|lia]. intros Q. rewrite Q in KC2. change (lenN (@nil N)) with 0 in KC2. lia.
  - apply N.ltb_lt. reflexivity.
  - cbv zeta. unfold pt2_size. rewrite sig_len_enc by exact ML. change (CIPHERTEXT2_SIZE default_cfg) with 478.
    split; [destruct sr; lia|]. destruct (_ && _) eqn:Q; [|destruct sr; lia].
    apply andb_prop in Q. destruct Q as [_ Q]. apply N.leb_le in Q. lia.
  - unfold pt2_size. rewrite sig_len_enc by exact ML. change (MSG_MAX_SIZE default_cfg) with 522.
    match goal with |- bstr_len ?n <= _ => assert (n <= 510) as B by (destruct sr; lia);
      pose proof (bstr_len_bounds n ltac:(lia)) end. lia.
  - unfold pt3_size. rewrite sig_len_enc by exact ML. destruct si; lia.
  - unfold pt3_size. rewrite sig_len_enc by exact ML. change (CIPHERTEXT3_SIZE default_cfg) with 482.
    match goal with |- bstr_len ?n <= _ => assert (n <= 479) as B by (destruct si; lia);
      pose proof (bstr_len_bounds n ltac:(lia)) end. lia.
Qed.

(** In the default configuration parties of any kind of credential get through the
    whole exchange. Missing: the initiator's identifier must leave three bytes free
    when the tag has 16 bytes, and message_3 must not be longer than message_2. *)
Theorem C47_default_partial :
  forall (cr : crypto) (pf : platform) (i : initiator) (r : responder) (creds_i creds_r : list other_party_cred)
    (st : suite) (si sr : bool) (id_i id_r : cred_id) (key_i key_r g_xy g_rx g_iy : bytes) (ei er : env),
  crypto_ok cr -> aead_total cr ->
  default_parties cr pf i r creds_i creds_r st si sr id_i id_r key_i key_r g_xy g_rx g_iy ->
  (edhoc_mac_len_static_dh st = 16 -> lenN (i_id_cred i) <= 397) ->
  m3_fits_m2 r st si sr id_i id_r ->
  obliging ei -> obliging er ->
  let oi := initiator_run cr default_cfg pf i creds_r 32 ei in
  let or := responder_run_extended cr default_cfg pf r creds_i 10 (Some 65) 32 er in
  connected ei er oi or ->
  o_ret oi = Ok tt /\ o_ret or = Ok tt /\ exists prk, o_prk oi = Some prk /\ o_prk or = Some prk.
Proof.
  intros cr pf i r creds_i creds_r st si sr id_i id_r key_i key_r g_xy g_rx g_iy ei er K A P S16 M Oi Or oi or Cn.
  pose proof (default_fit _ _ _ _ _ _ _ _ _ _ _ _ _ _ _ _ P S16) as F.
  assert (H32 : 32 <= 8128) by (apply N.leb_le; reflexivity).
  assert (H65 : 65 <= 65) by (apply N.leb_le; reflexivity).
  destruct (C37_agreement_partial cr default_cfg pf i r creds_i creds_r st si sr _ _ _ _ g_xy g_rx g_iy ei er 32 65 K A F M Oi Or
    H32 H65 Cn) as (s2 & s3 & ct3 & Q).
  cbv zeta in Q. fold oi in Q. change (C_I_SIZE default_cfg) with 10 in Q. fold or in Q.
  destruct Q as (_ & R1 & _ & P1 & C1 & R2 & _ & P2 & C2 & L & _ & PK). eauto 6.
Qed.
Print Assumptions C47_default_partial.

(** Where message_3 would be longer than message_2 the initiator does not send it: it
    reports ok, has no PRK_out, and sends message_2 back. *)
Theorem C47_longer_message_3_refuted :
  forall (cr : crypto) (pf : platform) (i : initiator) (r : responder) (creds_i creds_r : list other_party_cred)
    (st : suite) (si sr : bool) (id_i id_r : cred_id) (key_i key_r g_xy g_rx g_iy : bytes) (ei er : env),
  crypto_ok cr -> aead_total cr ->
  default_parties cr pf i r creds_i creds_r st si sr id_i id_r key_i key_r g_xy g_rx g_iy ->
  (edhoc_mac_len_static_dh st = 16 -> lenN (i_id_cred i) <= 397) ->
  ~ m3_fits_m2 r st si sr id_i id_r ->
  obliging ei -> obliging er ->
  let oi := initiator_run cr default_cfg pf i creds_r 32 ei in
  let or := responder_run_extended cr default_cfg pf r creds_i 10 (Some 65) 32 er in
  connected ei er oi or ->
  o_ret oi = Ok tt /\ o_prk oi = None /\ nth_error (o_sent oi) 1 = nth_error (o_sent or) 0.
Proof.
  intros cr pf i r creds_i creds_r st si sr id_i id_r key_i key_r g_xy g_rx g_iy ei er K A P S16 NM Oi Or oi or Cn.
  pose proof (default_fit _ _ _ _ _ _ _ _ _ _ _ _ _ _ _ _ P S16) as F.
  destruct (sig2_exists cr default_cfg pf K i r creds_i creds_r st si sr _ _ _ _ g_xy g_rx g_iy F) as (s2 & G2 & L2).
  destruct (sig3_exists cr default_cfg pf K i r creds_i creds_r st si sr _ _ _ _ g_xy g_rx g_iy F s2) as (s3 & G3 & L3).
  pose proof (G2 s3) as G2'. edestruct (ct3_exists cr default_cfg pf K A i r creds_i creds_r st si sr) as (ct3 & C3); [exact F|eassumption..|].
  assert (H32 : 32 <= 8128) by (apply N.leb_le; reflexivity).
  exact (run_i_too_long cr default_cfg pf K i r creds_i creds_r st si sr _ _ _ _ g_xy g_rx g_iy F s2 s3 G2' L2 G3 L3
    ei er 32 (Some 65) Oi Or H32 Cn ct3 C3 NM).
Qed.
Print Assumptions C47_longer_message_3_refuted.

(** With a tag of 16 bytes (suites 1 and 3) an identifier of 398, 399 or 400 bytes is
    too long for the initiator's own ciphertext buffer, although 400 are configured:
    no run ever yields a PRK_out, whatever the responder sends and even if the run
    returns ok. *)
Theorem C47_full_id_cred_refuted :
  forall (cr : crypto) (pf : platform) (i : initiator) (creds : list other_party_cred) (prk_len : N) (e : env) (st : suite),
  get_suite (last (i_suites i) 0) = Ok st -> edhoc_mac_len_static_dh st = 16 -> 398 <= lenN (i_id_cred i) <= 400 ->
  o_prk (initiator_run cr default_cfg pf i creds prk_len e) = None.
Proof.
  intros cr pf i creds prk_len e st HS HM HL. unfold initiator_run, initiator_run_extended.
  destruct (msg1_gen cr default_cfg i) as [[[m1 st'] h1]|er|u] eqn:E1; try reflexivity.
  assert (ST : st' = st).
  { unfold msg1_gen in E1. destruct (proj1 (bind_ok _ _ _) E1) as (a & _ & E2). destruct (proj1 (bind_ok _ _ _) E2) as (b & _ & E3).
    destruct (proj1 (bind_ok _ _ _) E3) as (c & E4 & E5). injection E5 as _ <- _. congruence. }
  subst st'. destruct (e_tx e 1 m1) as [u1|er|u]; try reflexivity. destruct (receive default_cfg e 2 [m1]) as [m2|er|u]; try reflexivity.
  unfold msg3_gen. destruct (authentication_type_get (i_method i) (false, false)) as [si sr].
  destruct (msg2_process cr default_cfg pf i st h1 m2 creds (C_R_SIZE default_cfg) si sr) as [a|er|u]; try reflexivity. cbn [bind].
  assert (EG : get_aead_mac_len (edhoc_aead st) = 16).
  { unfold get_suite in HS. destruct (last (i_suites i) 0) as [|[[p|p|]|[p|p|]|]]; try discriminate; injection HS as <-; cbn in HM |- *; congruence. }
  assert (ER : exists er, msg3_only_gen cr default_cfg i st si a m2 prk_len = (m2, Err er)).
  { unfold msg3_only_gen, msg3_message. change (as_bstr_size SIG_OR_MAC_SIZE) with 66. rewrite EG. change (CIPHERTEXT3_SIZE default_cfg) with 482.
    unfold byte_array_new. set (n := lenN (i_id_cred i) + 66 + lenN (i_ead_3 i)).
    assert (C : check_buffer_size 482 (as_bstr_size n + 16) = Err buffer_to_small \/
                exists er, check_buffer_size 482 (as_bstr_size n + 16) = Err er).
    { unfold check_buffer_size. destruct (N.ltb_spec 482 (as_bstr_size n + 16)) as [Q|Q]; [right; eauto|].
      exfalso. unfold as_bstr_size, bstr_overhead in Q. destruct (N.leb_spec n 5), (N.leb_spec n 255), (N.leb_spec n 65535); lia. }
    assert (C' : exists er, check_buffer_size 482 (as_bstr_size n + 16) = Err er) by (destruct C; eauto). destruct C' as (er & C').
    destruct (check_buffer_size (PLAINTEXT3_SIZE default_cfg) n) as [u|e1|u] eqn:CP; cbn [bind].
    - rewrite C'. cbn [bind]. eauto.
    - eauto.
    - unfold check_buffer_size in CP. destruct (_ <? _) in CP; discriminate. }
  destruct ER as (er & ->). destruct (e_ead e 2 (a2_ead a)); reflexivity.
Qed.
Print Assumptions C47_full_id_cred_refuted.

(** A full-size CIPHERTEXT_2 is refused when its configured size is 224 to 252 bytes:
    the size computed from the length of message_2 is one too large. *)
Theorem C47_ciphertext_2_refuted :
  forall (cr : crypto) (cf : cfg) (pf : platform) (i : initiator) (st : suite) (h1 g_y ct : bytes) (creds : list other_party_cred)
    (c_cap : N) (si sr : bool),
  lenN g_y = 32 -> lenN ct = CIPHERTEXT2_SIZE cf -> 224 <= CIPHERTEXT2_SIZE cf <= 252 ->
  msg2_process cr cf pf i st h1 (cbor (CBytes (g_y ++ ct))) creds c_cap si sr = Err buffer_to_small.
Proof.
  intros cr cf pf i st h1 g_y ct creds c_cap si sr LG LC LB. unfold msg2_process.
  assert (E32 : get_ecdh_pk_len (edhoc_ecdh st) = 32) by (destruct (edhoc_ecdh st); reflexivity). rewrite E32.
  rewrite new_fits by (apply N.leb_le; reflexivity). cbn [bind]. rewrite cbor_bytes, enc_bstr_len, lenN_app, LG, LC.
  fold (ct2_array (CIPHERTEXT2_SIZE cf)). rewrite ct2_array_bounds by lia.
  destruct (N.leb_spec (CIPHERTEXT2_SIZE cf) 3); [lia|]. destruct (N.leb_spec 224 (CIPHERTEXT2_SIZE cf)); [|lia].
  destruct (N.leb_spec (CIPHERTEXT2_SIZE cf) 252); [|lia]. cbn [orb andb]. unfold byte_array_new, check_buffer_size.
  destruct (N.ltb_spec (CIPHERTEXT2_SIZE cf) (CIPHERTEXT2_SIZE cf + 1)); [reflexivity|lia].
Qed.
Print Assumptions C47_ciphertext_2_refuted.

(** A full-size message_2 does not fit the responder's message buffer when C_R_SIZE
    is 0 or 1: the header of message_2 is accounted for with the size of C_R. *)
Theorem C47_message_2_refuted :
  forall (cf : cfg) (g_y ct : bytes),
  C_R_SIZE cf <= 1 -> lenN g_y = 32 -> lenN ct = CIPHERTEXT2_SIZE cf -> 224 <= CIPHERTEXT2_SIZE cf < 60000 ->
  MSG_1_SIZE cf <= MSG_2_SIZE cf ->
  msg2_encode cf g_y ct (MSG_MAX_SIZE cf) = Err unexpected_result_from_ext_lib.
Proof.
  intros cf g_y ct HC LG LC LB M1. unfold msg2_encode. rewrite LG, LC. rewrite new_fits by (unfold G_Y_CIPHERTEXT_2; change G_Y_SIZE with 32; lia).
  cbn [bind]. unfold encode_bstr, cbor_put. rewrite enc_bstr_len, lenN_app, LG, LC.
  assert (EH : head_len (32 + CIPHERTEXT2_SIZE cf) = 3).
  { unfold head_len. change (2 ^ 8) with 256. change (2 ^ 16) with 65536. destruct (N.ltb_spec (32 + CIPHERTEXT2_SIZE cf) 24); [lia|].
    destruct (N.ltb_spec (32 + CIPHERTEXT2_SIZE cf) 256); [lia|]. destruct (N.ltb_spec (32 + CIPHERTEXT2_SIZE cf) 65536); lia. }
  assert (EM : MSG_MAX_SIZE cf < 3 + (32 + CIPHERTEXT2_SIZE cf)).
  { assert (EC : as_bstr_size (C_R_SIZE cf) = 1 + C_R_SIZE cf).
    { unfold as_bstr_size, bstr_overhead. destruct (N.leb_spec (C_R_SIZE cf) 5); [reflexivity|lia]. }
    assert (E2 : MSG_2_SIZE cf <= 34 + CIPHERTEXT2_SIZE cf) by (unfold MSG_2_SIZE; rewrite EC; change G_Y_SIZE with 32; lia).
    assert (E3 : MSG_3_SIZE cf <= 21 + CIPHERTEXT2_SIZE cf).
    { unfold MSG_3_SIZE, CIPHERTEXT3_SIZE, CIPHERTEXT2_SIZE, PLAINTEXT3_SIZE, PLAINTEXT2_SIZE in *. change MAC_SIZE with 16.
      match goal with |- as_bstr_size ?x <= _ => pose proof (as_bstr_upper x) end. lia. }
    assert (E4 : MSG_4_SIZE cf <= CIPHERTEXT2_SIZE cf).
    { unfold MSG_4_SIZE, CIPHERTEXT4_SIZE, CIPHERTEXT2_SIZE, PLAINTEXT2_SIZE. change COSE_ENC0_STR_LEN with 8.
      change (as_bstr_size SIG_OR_MAC_SIZE) with 66. match goal with |- as_bstr_size ?x <= _ => pose proof (as_bstr_upper x) end. lia. }
    unfold MSG_MAX_SIZE. lia. }
  rewrite EH. destruct (N.leb_spec (3 + (32 + CIPHERTEXT2_SIZE cf)) (MSG_MAX_SIZE cf)); [lia|reflexivity].
Qed.
Print Assumptions C47_message_2_refuted.

(** The responder's own plaintext buffer has the initiator's identifier size: with
    ID_CRED_R_SIZE > ID_CRED_I_SIZE a responder that signs and uses its sizes fully
    never sends message_2. *)
Theorem C47_id_cred_r_refuted :
  forall (cr : crypto) (cf : cfg) (r : responder) (m1 : bytes) (ci_cap : N),
  crypto_ok cr ->
  lenN (r_c_r r) = C_R_SIZE cf -> lenN (r_id_cred r) = ID_CRED_R_SIZE cf -> lenN (r_ead_2 r) = EAD_SIZE cf ->
  ID_CRED_I_SIZE cf < ID_CRED_R_SIZE cf ->
  forall me su g_x c_i ead_1, me = 0 \/ me = 2 -> is_bytes su -> 1 <= lenN su <= 10 -> lenN su <= SUITES_I_SIZE cf -> lenN g_x = 32 ->
  lenN c_i <= ci_cap -> 1 <= ci_cap < 2 ^ 32 -> lenN ead_1 <= EAD_SIZE cf -> lenN ead_1 < 2 ^ 64 ->
  m1 = rfc_message_1 me su g_x c_i ead_1 ->
  forall x, msg2_gen cr cf r m1 ci_cap <> Ok x.
Proof.
  intros cr cf r m1 ci_cap K LC LI LE LT me' su' gx' ci' e' HME HB HS HS' HG HCI HCC HE HE' -> x HO. unfold msg2_gen in HO.
  rewrite msg1_parse_rfc in HO by (try assumption; lia). cbn [bind] in HO. rename HO into HR.
  destruct (negb _) in HR; [discriminate|]. destruct (proj1 (bind_ok _ _ _) HR) as (st & _ & HQ). clear HR.
  assert (HA : exists si, authentication_type_get me' (false, false) = (si, false)) by (destruct HME as [->| ->]; eexists; reflexivity).
  destruct HA as (si & HA). rewrite HA in HQ. clear HA.
  destruct (proj1 (bind_ok _ _ _) HQ) as (th2 & _ & HR). clear HQ. destruct (proj1 (bind_ok _ _ _) HR) as (gxy & _ & HQ). clear HR.
  destruct (proj1 (bind_ok _ _ _) HQ) as (prk & _ & HR). clear HQ. destruct (proj1 (bind_ok _ _ _) HR) as (sg & HSG & HQ). clear HR.
  assert (LS : lenN sg = 64).
  { unfold sig_or_mac_generate in HSG.
    destruct (proj1 (bind_ok _ _ _) HSG) as (mm & _ & HM). destruct (proj1 (bind_ok _ _ _) HM) as (tbs & _ & HT).
    unfold sign in HT. apply ext_ok in HT. now apply (ok_sign_len cr K) in HT. }
  destruct (proj1 (bind_ok _ _ _) HQ) as (u & HU & _). unfold byte_array_new in HU. rewrite check_ok in HU.
  rewrite LS, LC, LI, LE in HU. change 64 with SIG_OR_MAC_SIZE in HU. unfold PLAINTEXT2_SIZE in HU. lia.
Qed.
Print Assumptions C47_id_cred_r_refuted.

(** Parties with x5t identifiers of 300 and 200 bytes satisfy the hypotheses of
    [C47_default_partial] (method 3, suite 2); with these identifiers exchanged
    message_3 is longer than message_2. A configuration with full-size ciphertexts of
    228 bytes and one with C_R_SIZE = 1 exist. *)
Definition size_id (n : nat) : cred_id := X5t (-16) (repeat 9 n).
Definition size_initiator (n : nat) : initiator := {|
  i_c_i := [1; 2]; i_method := 3; i_suites := [2]; i_ead_1 := []; i_ead_3 := [];
  i_id_cred := rfc_id_cred (size_id n); i_cred := toy_cred_i;
  i_g_x := repeat 11 32; i_x := repeat 11 32; i_g_i := repeat 12 32; i_i := repeat 12 32;
  i_sk := repeat 13 32; i_pk := repeat 13 32 |}.
Definition size_responder (n : nat) : responder := {|
  r_c_r := [7; 8]; r_suites := [2]; r_g_y := repeat 21 32; r_y := repeat 21 32;
  r_g_r := repeat 22 32; r_r := repeat 22 32; r_ead_2 := [];
  r_id_cred := rfc_id_cred (size_id n); r_cred := toy_cred_r; r_sk := repeat 23 32; r_pk := repeat 23 32 |}.
Definition size_creds (id : cred_id) (cred pk g : bytes) : list other_party_cred := [
  {| oc_id_cred := [0xA1; 4; 7]; oc_cred := [0xA0]; oc_pk := repeat 1 32; oc_g := repeat 2 32; oc_ca := []; oc_ca_pk := [] |};
  {| oc_id_cred := rfc_id_cred id; oc_cred := cred; oc_pk := pk; oc_g := g; oc_ca := []; oc_ca_pk := [] |}].

Lemma size_parties ni nr : ni = 300%nat \/ ni = 200%nat -> nr = 300%nat \/ nr = 200%nat ->
  exists st g_xy g_rx g_iy,
  default_parties toy_crypto toy_pf (size_initiator ni) (size_responder nr)
    (size_creds (size_id ni) toy_cred_i (repeat 13 32) (repeat 12 32))
    (size_creds (size_id nr) toy_cred_r (repeat 23 32) (repeat 22 32))
    st true true (size_id ni) (size_id nr) (repeat 12 32) (repeat 22 32) g_xy g_rx g_iy /\
  edhoc_mac_len_static_dh st = 8.
Proof.
  intros HI HR. do 4 eexists. split; [constructor|].
  - reflexivity.
  - split; [|split; apply N.leb_le; reflexivity]. repeat constructor.
  - reflexivity.
  - discriminate.
  - reflexivity.
  - reflexivity.
  - split; (split; [vm_compute; reflexivity|split; reflexivity]).
  - split; (split; [vm_compute; reflexivity|split; reflexivity]).
  - split; (split; [vm_compute; reflexivity|split; reflexivity]).
  - split; [reflexivity|split]; [split; [lia|]|]; destruct HR as [->| ->]; try (apply N.ltb_lt; reflexivity); apply N.leb_le; vm_compute; reflexivity.
  - split; [reflexivity|split]; [split; [lia|]|]; destruct HI as [->| ->]; try (apply N.ltb_lt; reflexivity); apply N.leb_le; vm_compute; reflexivity.
  - destruct HI as [->| ->]; apply is_bytes_dec; vm_compute; reflexivity.
  - destruct HR as [->| ->]; eexists; (split; [vm_compute; reflexivity|split; reflexivity]).
  - destruct HI as [->| ->]; eexists; (split; [vm_compute; reflexivity|split; reflexivity]).
  - repeat split; apply N.leb_le; reflexivity.
  - split; [apply N.leb_le; reflexivity|discriminate].
  - split; [apply N.leb_le; reflexivity|discriminate].
  - repeat split.
  - reflexivity.
Qed.

Definition size_oi (ni nr : nat) (e : env) : outcome :=
  initiator_run toy_crypto default_cfg toy_pf (size_initiator ni) (size_creds (size_id nr) toy_cred_r (repeat 23 32) (repeat 22 32)) 32 e.
Definition size_or (ni nr : nat) (e : env) : outcome :=
  responder_run_extended toy_crypto default_cfg toy_pf (size_responder nr)
    (size_creds (size_id ni) toy_cred_i (repeat 13 32) (repeat 12 32)) 10 (Some 65) 32 e.
Definition sent (n : nat) (o : outcome) : res bytes :=
  match nth_error (o_sent o) n with Some m => Ok m | None => Err not_implemented end.
Definition size_m1 (ni nr : nat) : res bytes := sent 0 (size_oi ni nr (toy_env (Err not_implemented) (Err not_implemented))).
Definition size_ei (ni nr : nat) : env :=
  toy_env (sent 0 (size_or ni nr (toy_env (size_m1 ni nr) (Err not_implemented)))) (Err not_implemented).
Definition size_er (ni nr : nat) : env := toy_env (size_m1 ni nr) (sent 1 (size_oi ni nr (size_ei ni nr))).

Lemma size_connected ni nr : ni = 200%nat /\ nr = 300%nat \/ ni = 300%nat /\ nr = 200%nat ->
  connected (size_ei ni nr) (size_er ni nr) (size_oi ni nr (size_ei ni nr)) (size_or ni nr (size_er ni nr)).
Proof.
  assert (Q : forall (o : list bytes) (n : nat) (a : res bytes),
    match nth_error o n with Some m => match a with Ok m' => beqb m m' | _ => false end | None => true end = true ->
    forall m, nth_error o n = Some m -> a = Ok m).
  { intros o n a B m' E. rewrite E in B. destruct a as [m''|?|?]; try discriminate. apply beqb_eq in B. now subst. }
  intros HI. unfold connected. cbn [e_rx size_ei size_er toy_env].
  split; [|split]; intros x; intros; eapply Q; try eassumption; (destruct HI as [[-> ->]|[-> ->]]; vm_compute; reflexivity).
Qed.
Example C47_example :
  (let ei := size_ei 200 300 in let er := size_er 200 300 in
   connected ei er (size_oi 200 300 ei) (size_or 200 300 er) /\
   (forall st, get_suite 2 = Ok st -> m3_fits_m2 (size_responder 300) st true true (size_id 200) (size_id 300)) /\
   o_prk (size_or 200 300 er) <> None /\ o_prk (size_oi 200 300 ei) = o_prk (size_or 200 300 er)) /\
  (let ei := size_ei 300 200 in let er := size_er 300 200 in
   connected ei er (size_oi 300 200 ei) (size_or 300 200 er) /\
   (forall st, get_suite 2 = Ok st -> ~ m3_fits_m2 (size_responder 200) st true true (size_id 300) (size_id 200)) /\
   o_ret (size_oi 300 200 ei) = Ok tt /\ o_prk (size_oi 300 200 ei) = None) /\
  CIPHERTEXT2_SIZE {| EAD_SIZE := 0; C_I_SIZE := 10; C_R_SIZE := 10; ID_CRED_I_SIZE := 150; ID_CRED_R_SIZE := 150;
    CRED_I_SIZE := 400; CRED_R_SIZE := 400; SUITES_I_SIZE := 6 |} = 228 /\
  (let cf := {| EAD_SIZE := 0; C_I_SIZE := 10; C_R_SIZE := 1; ID_CRED_I_SIZE := 400; ID_CRED_R_SIZE := 400;
    CRED_I_SIZE := 400; CRED_R_SIZE := 400; SUITES_I_SIZE := 6 |} in
   224 <= CIPHERTEXT2_SIZE cf < 60000 /\ MSG_1_SIZE cf <= MSG_2_SIZE cf).
Proof.
  split; [|split; [|split]].
  - split; [apply size_connected; tauto|]. split.
    + intros st E. assert (E' : edhoc_mac_len_static_dh st = 8) by (injection E as <-; reflexivity).
      unfold m3_fits_m2. rewrite E'. apply N.leb_le. vm_compute. reflexivity.
    + split; [vm_compute; discriminate|vm_compute; reflexivity].
  - split; [apply size_connected; tauto|]. split.
    + intros st E. assert (E' : edhoc_mac_len_static_dh st = 8) by (injection E as <-; reflexivity).
      unfold m3_fits_m2. rewrite E'. apply N.lt_nge, N.ltb_lt. vm_compute. reflexivity.
    + split; vm_compute; reflexivity.
  - reflexivity.
  - split; [split; [apply N.leb_le|apply N.ltb_lt]; reflexivity|apply N.leb_le; reflexivity].
Qed.
