(** Sizes of the messages with key identifiers (kid) and the default buffer sizes. *)
From Verif Require Import Base Proof_Base Model_Common Model_Cbor Proof_Cbor Model_Crypto
  Spec_CborTree Proof_CborTree Spec_Edhoc Spec_EdhocRun Model_EdhocCfg Model_EdhocCbor Model_EdhocKeys
  Proof_EdhocBase Model_EdhocCert Model_EdhocMsg Model_EdhocRun Proof_EdhocMsg1 Proof_EdhocMsg Proof_EdhocRun
  Proof_EdhocAgree.

(** a known credential is found by its identifier *)
Lemma local_found cr pf sd creds id cap cred pk g :
  knows creds id cred pk g -> lenN cred <= cap -> lenN pk <= 65 -> lenN g <= 64 ->
  get_local_cred sd creds id cap =
    Ok (if sd then {| f_cred := cred; f_pk := []; f_g := g |} else {| f_cred := cred; f_pk := pk; f_g := [] |}) /\
  (forall k, id = rfc_id_cred k -> id_range k -> (forall c, k <> X5chain c) ->
   resolves cr pf sd creds k cap cred (if sd then g else pk)).
Proof.
  intros (before & o & after & -> & FB & EI & EC & EP & EG) L1 L2 L3.
  assert (CT : forall cp b, lenN b <= cp -> copy_to cp b = Ok b).
  { intros cp b L. unfold copy_to. destruct (N.eqb_spec (lenN b) 0) as [Q|Q].
    - destruct b; [reflexivity|]. rewrite lenN_cons in Q. lia.
    - rewrite check_fits by exact L. reflexivity. }
  assert (E : get_local_cred sd (before ++ o :: after) id cap =
    Ok (if sd then {| f_cred := cred; f_pk := []; f_g := g |} else {| f_cred := cred; f_pk := pk; f_g := [] |})).
  { induction FB as [|c l NE FB IH].
    - cbn [app get_local_cred]. rewrite EI, EC, EP, EG. rewrite beqb_refl, (CT cap) by exact L1. cbn [bind]. destruct sd.
      + destruct (N.eqb_spec (lenN g) 65); [lia|]. rewrite (CT G_R_SIZE) by (change G_R_SIZE with 65; lia). reflexivity.
      + rewrite (CT PK_SIZE) by exact L2. reflexivity.
    - cbn [app get_local_cred]. destruct (beqb (oc_id_cred c) id) eqn:Q; [apply beqb_eq in Q; contradiction|exact IH]. }
  split; [exact E|]. intros k -> HR NX.
  assert (RC : retrieve_cred cr pf sd (before ++ o :: after) (Some (rfc_id_cred k)) cap =
               get_local_cred sd (before ++ o :: after) (rfc_id_cred k) cap).
  { unfold retrieve_cred. rewrite <- (app_nil_r (rfc_id_cred k)) at 1. rewrite dec_cid by exact HR. cbn [ext bind].
    destruct k as [z|c|a h]; cbn [cid_map ic_kid ic_x5u ic_x5t ic_c5u ic_c5t]; [reflexivity|exfalso; now apply (NX c)|reflexivity]. }
  unfold resolves. rewrite RC, E. eexists. split; [reflexivity|]. destruct sd; auto.
Qed.

(** encodings of small things *)
Lemma int_len z : (- 2 ^ 31 <= z < 2 ^ 31)%Z -> 1 <= lenN (enc_int z) <= 5.
Proof.
  intros H. unfold enc_int.
  assert (B : forall n, n < 2 ^ 31 -> 1 <= head_len n <= 5).
  { intros n Hn. change (2 ^ 31) with 2147483648 in Hn. unfold head_len. change (2 ^ 32) with 4294967296.
    destruct (n <? 24); [lia|]. destruct (n <? 2 ^ 8); [lia|]. destruct (n <? 2 ^ 16); [lia|].
    destruct (N.ltb_spec n 4294967296); lia. }
  destruct (0 <=? z)%Z eqn:E; rewrite enc_head_len; apply B; lia.
Qed.
Lemma kid_len z : (- 2 ^ 31 <= z < 2 ^ 31)%Z ->
  1 <= lenN (rfc_id_cred_compact (KidInt z)) <= 5 /\ lenN (rfc_id_cred (KidInt z)) <= 7.
Proof.
  intros H. pose proof (int_len z H) as L. cbn [rfc_id_cred_compact rfc_id_cred]. rewrite cbor_int. split; [exact L|].
  change 4%Z with (Z.of_N 4). rewrite map1_enc, !lenN_app. unfold enc_map, enc_uint. rewrite !enc_head_len.
  change (head_len 1) with 1. change (head_len 4) with 1. lia.
Qed.
Lemma conn_len c : lenN c <= 10 -> 1 <= lenN (rfc_conn_id c) <= 11.
Proof.
  intros H. split; [apply conn_id_pos|]. unfold rfc_conn_id. destruct (one_byte_int c); [lia|]. rewrite cbor_bytes.
  rewrite enc_bstr_len. unfold head_len. destruct (N.ltb_spec (lenN c) 24); lia.
Qed.

Lemma suites_len l : lenN l <= 6 -> is_bytes l -> lenN (cbor (rfc_suites_i l)) <= 31.
Proof.
  intros H B. rewrite rfc_suites_enc.
  assert (I : forall s, s < 256 -> lenN (enc_int (Z.of_N s)) <= 5) by (intros s Hs; apply (int_len (Z.of_N s)); lia).
  assert (Q : lenN (flat_map enc_int (map Z.of_N l)) <= 5 * lenN l).
  { clear H. induction B as [|s l Hs B IH]; [apply N.leb_le; reflexivity|]. cbn [map flat_map]. rewrite lenN_app, lenN_cons.
    specialize (I s Hs). lia. }
  assert (HL : lenN (enc_list (lenN l)) = 1).
  { unfold enc_list. rewrite enc_head_len. unfold head_len. destruct (N.ltb_spec (lenN l) 24); lia. }
  destruct l as [|s [|s' l]].
  - apply N.leb_le. reflexivity.
  - inversion B as [|? ? Hs ?]; subst. specialize (I s Hs). lia.
  - rewrite lenN_app. lia.
Qed.
Lemma m1_len me su g c : me <= 3 -> lenN su <= 6 -> is_bytes su -> lenN g = 32 -> lenN c <= 10 ->
  lenN (rfc_message_1 me su g c []) <= 100.
Proof.
  intros H1 H2 H3 H4 H5. unfold rfc_message_1. rewrite !lenN_app. pose proof (suites_len su H2 H3). pose proof (conn_len c H5) as L5.
  assert (lenN (cbor (CInt (Z.of_N me))) <= 5) by (rewrite cbor_int; apply int_len; lia).
  rewrite (bstr_len_enc g) by lia. rewrite H4. change (bstr_len 32) with 34. change (lenN (@nil N)) with 0. lia.
Qed.

Section Kid.
Variables (cr : crypto) (pf : platform) (i : initiator) (r : responder) (creds_i creds_r : list other_party_cred) (st : suite)
    (si sr : bool) (ki kr : Z) (g_xy g_rx g_iy : bytes).
Hypothesis P : kid_parties cr i r creds_i creds_r st si sr ki kr g_xy g_rx g_iy.

Lemma kid_suite : edhoc_mac_len_static_dh st = 8 \/ edhoc_mac_len_static_dh st = 16.
Proof.
  pose proof (kp_suite _ _ _ _ _ _ _ _ _ _ _ _ _ P) as E.
  unfold get_suite in E. destruct (last (i_suites i) 0) as [|[[p|p|]|[p|p|]|]]; try discriminate; injection E as <-; cbn; lia.
Qed.
Lemma bstr_len_bounds n : n <= 1000 -> 1 + n <= bstr_len n <= 3 + n.
Proof. intros H. unfold bstr_len. destruct (n <? 24), (n <? 256); lia. Qed.
Lemma sig_len_enc b m : m = 8 \/ m = 16 -> bstr_len (sig_len b m) = if b then 1 + m else 66.
Proof. intros [->| ->]; destruct b; reflexivity. Qed.

Lemma kid_fit : fit cr default_cfg pf i r creds_i creds_r st si sr (KidInt ki) (KidInt kr)
  (if si then i_g_i i else i_pk i) (if sr then r_g_r r else r_pk r) g_xy g_rx g_iy.
Proof.
  pose proof kid_suite as ML. destruct P as [KM [KSB KS] KT KSR KX KY [KXY KYX] KR KI [KIR KRR] [KII KRI] KNR KNI (K1 & K2 & K3 & K4)
    (KC1 & KC2) (CI & CI') (CR & CR') (E1 & E2 & E3)].
  pose proof (kid_len kr KRR) as (LR1 & LR2). pose proof (kid_len ki KRI) as (LI1 & LI2).
  pose proof (conn_len _ CR) as LC.
  assert (MM : i_method i <= 3) by (rewrite KM; destruct si, sr; lia).
  pose proof (m1_len (i_method i) (i_suites i) (i_g_x i) (i_c_i i) MM (proj2 KS) KSB KX CI) as LM1.
  constructor; try assumption.
  - change (SUITES_I_SIZE default_cfg) with 6. repeat split; try assumption; lia.
  - destruct sr; [exact KR|]. split; [reflexivity|exact KR].
  - destruct si; [exact KI|]. split; [reflexivity|exact KI].
  - split; [exact KIR|exact KRR].
  - split; [exact KII|exact KRI].
  - rewrite KII. cbn [rfc_id_cred]. change 4%Z with (Z.of_N 4). rewrite map1_enc, cbor_int. unfold enc_map, enc_uint.
    apply is_bytes_app. split; [apply enc_head_bytes; lia|]. apply is_bytes_app. split; [apply enc_head_bytes; lia|apply enc_int_bytes].
  - apply (local_found cr pf sr creds_r _ (CRED_R_SIZE default_cfg) _ _ _ KNR); try assumption; try discriminate.
    change (CRED_R_SIZE default_cfg) with 400. lia.
  - apply (local_found cr pf si creds_i _ (CRED_I_SIZE default_cfg) _ _ _ KNI); try assumption; try discriminate.
    change (CRED_I_SIZE default_cfg) with 400. lia.
  - rewrite E1. apply N.leb_le. reflexivity.
  - rewrite E1. etransitivity; [exact LM1|]. apply N.leb_le. reflexivity.
  - split; assumption.
  - change (C_R_SIZE default_cfg) with 10. change (C_I_SIZE default_cfg) with 10. repeat split; assumption.
  - rewrite KIR. change (ID_CRED_I_SIZE default_cfg) with 400. change (ID_CRED_R_SIZE default_cfg) with 400. lia.
  - rewrite KII. change (ID_CRED_I_SIZE default_cfg) with 400. split; [lia|].
    change (CIPHERTEXT3_SIZE default_cfg) with 482. pose proof (as_bstr_upper (lenN (rfc_id_cred (KidInt ki)) + 66)). lia.
  - change (CRED_MAX_SIZE default_cfg) with 400. split; [|lia]. intros Q. rewrite Q in KC1. change (lenN (@nil N)) with 0 in KC1. lia.
  - change (CRED_MAX_SIZE default_cfg) with 400. split; [|lia]. intros Q. rewrite Q in KC2. change (lenN (@nil N)) with 0 in KC2. lia.
  - apply N.ltb_lt. reflexivity.
  - cbv zeta. unfold pt2_size. rewrite sig_len_enc by exact ML. change (CIPHERTEXT2_SIZE default_cfg) with 478.
    destruct sr; destruct (_ && _); lia.
  - unfold pt2_size. rewrite sig_len_enc by exact ML. change (MSG_MAX_SIZE default_cfg) with 522.
    match goal with |- bstr_len ?n <= _ => assert (n <= 300) as B by (destruct sr; lia);
      pose proof (bstr_len_bounds n ltac:(lia)) end. lia.
  - unfold pt3_size. rewrite sig_len_enc by exact ML. destruct si; lia.
  - unfold pt3_size. rewrite sig_len_enc by exact ML. change (CIPHERTEXT3_SIZE default_cfg) with 482.
    match goal with |- bstr_len ?n <= _ => assert (n <= 300) as B by (destruct si; lia);
      pose proof (bstr_len_bounds n ltac:(lia)) end. lia.
Qed.

(** message_3 is longer than message_2 with method 1 only *)
Lemma kid_m3 : m3_fits_m2 r st si sr (KidInt ki) (KidInt kr) <-> ~ (si = false /\ sr = true).
Proof.
  pose proof kid_suite as ML. pose proof (kid_len kr (proj2 (kp_id_r _ _ _ _ _ _ _ _ _ _ _ _ _ P))) as (LR & _).
  pose proof (kid_len ki (proj2 (kp_id_i _ _ _ _ _ _ _ _ _ _ _ _ _ P))) as (LI & _).
  pose proof (conn_len _ (proj1 (kp_c_r _ _ _ _ _ _ _ _ _ _ _ _ _ P))) as LC.
  unfold m3_fits_m2, pt3_size, pt2_size. rewrite !sig_len_enc by exact ML.
  assert (B : forall n, 24 <= n <= 255 -> bstr_len n = 2 + n).
  { intros n Hn. unfold bstr_len. destruct (N.ltb_spec n 24), (N.ltb_spec n 256); lia. }
  assert (B1 : forall n, n <= 255 -> bstr_len n <= 2 + n).
  { intros n Hn. unfold bstr_len. destruct (N.ltb_spec n 24), (N.ltb_spec n 256); lia. }
  rewrite (B (32 + _)) by (destruct sr; lia).
  destruct si, sr.
  - split; [intros _ [? _]; discriminate|intros _]. etransitivity; [apply B1; lia|]. lia.
  - split; [intros _ [? _]; discriminate|intros _]. etransitivity; [apply B1; lia|]. lia.
  - split; [|tauto]. intros L. exfalso. rewrite B in L by lia. lia.
  - split; [intros _ [_ ?]; discriminate|intros _]. etransitivity; [apply B1; lia|]. lia.
Qed.
End Kid.
