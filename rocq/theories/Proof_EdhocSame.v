(** Two EDHOC runs that end with the same key. *)
From Verif Require Import Base Proof_Base Model_Common Model_Cbor Proof_Cbor Proof_CborStable Model_Crypto
  Spec_CborTree Proof_CborTree Proof_CborUnique Spec_Hkdf Proof_Hkdf Spec_Edhoc Spec_EdhocRun Spec_EdhocView Model_EdhocCfg Model_EdhocCbor Model_EdhocKeys
  Proof_EdhocBase Model_EdhocCert Model_EdhocMsg Model_EdhocRun Proof_EdhocMsg1 Proof_EdhocMsg Proof_EdhocRun Prop_EdhocAuth Proof_EdhocSound.

Lemma bytes_dec (a b : bytes) : {a = b} + {a <> b}.
Proof. apply list_eq_dec, N.eq_dec. Qed.

(** the first 32 bytes of a key are one HMAC *)
Lemma kdf_first cr prk l c n : (forall k m, lenN (cr_hmac cr k m) = 32) -> 32 <= n ->
  takeN 32 (rfc_kdf (cr_hmac cr) prk l c n) = cr_hmac cr prk (rfc_edhoc_info l c n ++ [1]).
Proof.
  intros HL Hn. unfold rfc_kdf, hkdf_okm, hkdf_stream.
  replace (N.to_nat ((n + 31) / 32)) with (S (N.to_nat ((n + 31) / 32) - 1)) by lia.
  cbn [seq map concat]. set (rest := concat _). cbn [hkdf_T app].
  change (N.of_nat 1 mod 256) with 1. set (t := cr_hmac cr prk _).
  assert (Lt : lenN t = 32) by apply HL.
  unfold takeN. rewrite firstn_firstn. replace (Nat.min (N.to_nat 32) (N.to_nat n)) with (N.to_nat 32) by lia.
  change (takeN 32 (t ++ rest) = t). rewrite <- Lt. apply takeN_app.
Qed.
Lemma info_inj l c n l' c' n' : l < 24 -> l' < 24 -> lenN c < 2 ^ 64 -> lenN c' < 2 ^ 64 -> n < 2 ^ 64 -> n' < 2 ^ 64 ->
  rfc_edhoc_info l c n = rfc_edhoc_info l' c' n' -> l = l' /\ c = c' /\ n = n'.
Proof.
  intros H1 H2 H3 H4 H5 H6 E. rewrite <- !info_rfc in E. unfold enc_edhoc_info, enc_uint in E.
  apply enc_head_inj in E as (_ & -> & E); [|lia|lia]. apply enc_bstr_inj in E as [-> E]; [|assumption|assumption].
  rewrite <- (app_nil_r (enc_head 0 n)), <- (app_nil_r (enc_head 0 n')) in E.
  apply enc_head_inj in E as (_ & -> & _); auto.
Qed.

(** The pure part: equal keys give equal views, up to the border between plaintext
    and credential. *)
Lemma views_agree cr v w n n' : crypto_ok cr ->
  lenN (v_g_y v) < 2 ^ 64 -> lenN (v_g_y w) < 2 ^ 64 -> lenN (v_prk_4e3m v) = 32 -> lenN (v_prk_4e3m w) = 32 ->
  32 <= n < 2 ^ 64 -> 32 <= n' < 2 ^ 64 -> v_prk_out cr v n = v_prk_out cr w n' ->
  views_collide cr v w n n' \/
  (v_m1 v = v_m1 w /\ v_g_y v = v_g_y w /\ v_pt2 v ++ v_cred_r v = v_pt2 w ++ v_cred_r w /\
   v_pt3 v ++ v_cred_i v = v_pt3 w ++ v_cred_i w /\ v_prk_4e3m v = v_prk_4e3m w /\ n = n').
Proof.
  intros K G G' L L' Hn Hn' E. unfold views_collide.
  assert (HL : forall m, lenN (cr_hash cr m) < 2 ^ 64) by (intros; rewrite (ok_hash_len cr K); lia).
  assert (EB : cr_hmac cr (v_prk_4e3m v) (v_block cr v n) = cr_hmac cr (v_prk_4e3m w) (v_block cr w n')).
  { apply (f_equal (takeN 32)) in E. unfold v_prk_out in E.
    rewrite !kdf_first in E by (try exact (ok_hmac_len cr K); lia). exact E. }
  destruct (bytes_dec (v_prk_4e3m v) (v_prk_4e3m w)) as [EP|NP].
  2:{ left. do 4 right. repeat split; try assumption. congruence. }
  destruct (bytes_dec (v_block cr v n) (v_block cr w n')) as [EK|NK].
  2:{ left. do 4 right. repeat split; try assumption. congruence. }
  apply app_inj_tail in EK as [EK _]. apply info_inj in EK as (_ & E4 & En); try lia; auto;
    try (apply N.ltb_lt; reflexivity).
  destruct (bytes_dec (v_th4_input cr v) (v_th4_input cr w)) as [E4i|N4]; [|left; do 3 right; left; split; assumption].
  unfold v_th4_input, rfc_th34_input in E4i. rewrite !cbor_bytes in E4i.
  apply enc_bstr_inj in E4i as [E3 S3]; auto.
  destruct (bytes_dec (v_th3_input cr v) (v_th3_input cr w)) as [E3i|N3]; [|left; do 2 right; left; split; assumption].
  unfold v_th3_input, rfc_th34_input in E3i. rewrite !cbor_bytes in E3i.
  apply enc_bstr_inj in E3i as [E2 S2]; auto.
  destruct (bytes_dec (v_th2_input cr v) (v_th2_input cr w)) as [E2i|N2]; [|left; right; left; split; assumption].
  unfold v_th2_input, rfc_th2_input in E2i. rewrite !cbor_seq_cons, !cbor_bytes in E2i.
  apply enc_bstr_inj in E2i as [EG E1]; auto. apply enc_bstr_inj in E1 as [E1 _]; auto.
  destruct (bytes_dec (v_m1 v) (v_m1 w)) as [EM|NM]; [|left; left; split; assumption].
  right. auto 10.
Qed.

(** PLAINTEXT_2 and PLAINTEXT_3 are what they are called, if they are generated *)
Lemma pt_gen_inv cf c i sig ead cap p : cid_ok i -> plaintext_gen cf c (rfc_id_cred i) sig ead cap = Ok p ->
  p = match c with Some c_r => rfc_plaintext_2 c_r i sig ead | None => rfc_plaintext_3 i sig ead end /\ lenN sig < 2 ^ 64.
Proof.
  intros HI H. unfold plaintext_gen in H. apply bind_ok in H as ([] & EL & H).
  split; [|apply new_ok in EL; pose proof (as_bstr_lower (lenN sig)); change (as_bstr_size SIG_OR_MAC_SIZE) with 66 in EL; lia]. apply bind_ok in H as (se & ES & H).
  apply encode_bstr_ok in ES as [-> _]. apply bind_ok in H as (p1 & E1 & H).
  assert (P1 : p1 = match c with Some c_r => rfc_conn_id c_r | None => [] end).
  { destruct c as [c_r|]; [|congruence]. rewrite is_encoded_int in E1. unfold rfc_conn_id. destruct (one_byte_int c_r).
    - now apply append_inv in E1 as [-> _].
    - apply bind_ok in E1 as ([] & _ & E1). apply bind_ok in E1 as (e & EE & E1). apply encode_bstr_ok in EE as [-> _].
      apply append_inv in E1 as [-> _]. now rewrite cbor_bytes. }
  destruct (cid_compact i HI) as (k & EK & EC). rewrite EK in H. cbn [bind] in H. rewrite EC in H.
  apply bind_ok in H as (p2 & E2 & H). apply append_inv in E2 as [-> _].
  apply bind_ok in H as (p3 & E3 & H). apply append_inv in E3 as [-> _].
  assert (EP : p = ((p1 ++ rfc_id_cred_compact i) ++ enc_bstr sig) ++ ead).
  { destruct (N.ltb_spec 0 (lenN ead)) as [Q|Q].
    - now apply append_inv in H as [-> _].
    - injection H as <-. assert (Z : lenN ead = 0) by lia. apply lenN_0 in Z. subst ead. now rewrite app_nil_r. }
  subst p p1. destruct c; unfold rfc_plaintext_2, rfc_plaintext_3; rewrite cbor_bytes, <- !app_assoc; reflexivity.
Qed.


Definition cid_choice (i : cred_id) : id_cred_choice :=
  match i with KidInt z => IdInt z | _ => IdMap (cid_map i) end.
Lemma dec_cid_choice i r : cid_ok i -> dec_id_cred_choice (rfc_id_cred_compact i ++ r) = Some (cid_choice i, r).
Proof.
  intros H. unfold dec_id_cred_choice. destruct i as [z|c|a h]; unfold rfc_id_cred_compact.
  - rewrite cbor_int. destruct (dec_map_int z r H) as [-> ->]. rewrite dec_enc_int by exact H. reflexivity.
  - rewrite dec_cid by exact H. reflexivity.
  - rewrite dec_cid by exact H. reflexivity.
Qed.
Lemma split_cid i cap o : id_cred_split (cid_choice i) cap = Ok o -> o = Some (rfc_id_cred i).
Proof.
  pose proof (enc_cid i) as EN. destruct i as [z|c|a h]; cbn [cid_choice id_cred_split cid_map ic_x5chain ic_x5t bind].
  - unfold id_cred_kid_encode. fold (cid_map (KidInt z)). rewrite EN. intros H. apply bind_ok in H as (b & E & H).
    apply cbor_put_ok in E as [-> _]. congruence.
  - unfold id_cred_x5chain_encode. fold (cid_map (X5chain c)). rewrite EN. intros H. apply bind_ok in H as (b & E & H).
    apply bind_ok in E as (b' & E & Q). apply cbor_put_ok in E as [-> _]. congruence.
  - unfold id_cred_x5t_encode. fold (cid_map (X5t a h)). rewrite EN. intros H. apply bind_ok in H as (b & E & H).
    apply cbor_put_ok in E as [-> _]. congruence.
Qed.

(** Reading a plaintext followed by something, when this is the same as an honest
    plaintext followed by something. *)
Lemma read_3 l x i sig ead cred id_cap ead_cap s :
  cid_ok i -> lenN sig < 2 ^ 64 ->
  plaintext3_split l id_cap ead_cap = Ok s -> l ++ x = rfc_plaintext_3 i sig ead ++ cred ->
  sp_id_cred s = Some (rfc_id_cred i) /\ sp_sig s = sig /\ ends_with (ead ++ cred) x.
Proof.
  intros HI HS H E. unfold plaintext3_split in H. apply bind_ok in H as (p & EP & H). apply ext_ok in EP.
  unfold cbor_decode_ptxt3 in EP. destruct (dec_id_cred_choice l) as [[ch l1]|] eqn:E1; [|discriminate].
  destruct (dec_bstr l1) as [[sg l2]|] eqn:E2; [|discriminate]. injection EP as <-.
  cbn [pt_id_cred pt_sgn_or_mac pt_ead] in H.
  apply (id_choice_stable _ _ _ x) in E1. apply (bstr_stable _ _ _ x) in E2. rewrite E in E1.
  unfold rfc_plaintext_3 in E1. rewrite cbor_bytes, <- !app_assoc, dec_cid_choice in E1 by exact HI. injection E1 as <- E1.
  rewrite <- E1, dec_enc_bstr in E2 by exact HS. injection E2 as <- E2.
  apply bind_ok in H as (id & EI & H). apply split_cid in EI as ->. apply bind_ok in H as (sg' & EG & H).
  apply copy_null_inv in EG as [-> _]. apply bind_ok in H as (e & _ & H). injection H as <-. cbn [sp_id_cred sp_sig].
  split; [reflexivity|]. split; [reflexivity|]. exists l2. exact E2.
Qed.
Lemma read_2 l x c i sig ead cred c_cap id_cap ead_cap s :
  cid_ok i -> lenN c < 2 ^ 64 -> lenN sig < 2 ^ 64 ->
  plaintext2_split l c_cap id_cap ead_cap = Ok s -> l ++ x = rfc_plaintext_2 c i sig ead ++ cred ->
  sp_c_r s = c /\ sp_id_cred s = Some (rfc_id_cred i) /\ sp_sig s = sig /\ ends_with (ead ++ cred) x.
Proof.
  intros HI HC HS H E. unfold plaintext2_split in H. apply bind_ok in H as (p & EP & H). apply ext_ok in EP.
  unfold cbor_decode_ptxt2, cbor_decode_ptxt3 in EP. destruct (dec_int_or_bstr l) as [[u l0]|] eqn:E0; [|discriminate].
  destruct (dec_id_cred_choice l0) as [[ch l1]|] eqn:E1; [|discriminate].
  destruct (dec_bstr l1) as [[sg l2]|] eqn:E2; [|discriminate]. injection EP as <-.
  cbn [pt_c_r pt_id_cred pt_sgn_or_mac pt_ead] in H.
  apply (int_or_bstr_stable _ _ _ x) in E0. apply (id_choice_stable _ _ _ x) in E1. apply (bstr_stable _ _ _ x) in E2. rewrite E in E0.
  unfold rfc_plaintext_2 in E0. rewrite cbor_bytes, <- !app_assoc, dec_conn_id in E0 by exact HC. injection E0 as EU E0.
  rewrite <- E0, dec_cid_choice in E1 by exact HI. injection E1 as <- E1.
  rewrite <- E1, dec_enc_bstr in E2 by exact HS. injection E2 as <- E2.
  apply bind_ok in H as (c' & ECR & H).
  assert (EC : c' = c).
  { rewrite <- EU in ECR. destruct (one_byte_int c) eqn:O.
    - destruct (decode_one_byte c O) as (z & D & EN & _). rewrite D in ECR. unfold encode_int in ECR. rewrite EN in ECR.
      now apply cbor_put_ok in ECR as [-> _].
    - now apply copy_null_inv in ECR as [-> _]. }
  apply bind_ok in H as (id & EI & H). apply split_cid in EI as ->. apply bind_ok in H as (sg' & EG & H).
  apply copy_null_inv in EG as [-> _]. apply bind_ok in H as (e & _ & H). injection H as <-. cbn [sp_c_r sp_id_cred sp_sig].
  repeat split; try assumption. exists l2. exact E2.
Qed.

Section Views.
Variable cr : crypto.
Variable cf : cfg.
Variable pf : platform.
Hypothesis K : crypto_ok cr.

Lemma initiator_ran_ok i creds n e k id_i :
  n <= 8128 -> i_id_cred i = rfc_id_cred id_i -> cid_ok id_i ->
  let o := initiator_run cr cf pf i creds n e in
  o_ret o = Ok tt -> o_prk o = Some k ->
  exists s f v, initiator_ran cr cf pf i creds n e o s f v /\ k = v_prk_out cr v n /\
    lenN (v_prk_3e2m v) = 32 /\ lenN (v_prk_4e3m v) = 32 /\
    exists st si sr sg, get_suite (last (i_suites i) 0) = Ok st /\ (i_method i <= 3 -> method_static (i_method i) si sr) /\
      lenN sg < 2 ^ 64 /\ v_pt3 v = rfc_plaintext_3 id_i sg (i_ead_3 i) /\
      made_field cr si st (i_sk i) (i_pk i) (v_prk_4e3m v) [] (cr_hash cr (v_th3_input cr v)) (i_id_cred i) (i_cred i) (i_ead_3 i)
        L_MAC_3 sg.
Proof.
  intros HP HID HOK o HO PO. subst o. unfold initiator_run, initiator_run_extended in *.
  destruct (msg1_gen cr cf i) as [[[m1' st] h1]|?|?] eqn:E1; try discriminate HO.
  apply msg1_gen_ok in E1 as (_ & -> & GS & -> & _). set (m1 := rfc_message_1 _ _ _ _ _) in *.
  destruct (e_tx e 1 m1) as [u1|?|?]; try discriminate HO.
  destruct (receive cf e 2 [m1]) as [m2|?|?] eqn:ER; try discriminate HO.
  destruct (msg3_gen cr cf pf i st (cr_hash cr m1) m2 creds (C_R_SIZE cf) n) as [[[a m3] prk]|?|?] eqn:E3; try discriminate HO.
  destruct (e_ead e 2 (a2_ead a)) as [u2|?|?]; try discriminate HO.
  unfold receive in ER. apply bind_ok in ER as (m & ER & EM). destruct (_ <? _) in EM; [discriminate|]. injection EM as ->.
  destruct (authentication_type_get (i_method i) (false, false)) as [si sr] eqn:EA.
  destruct (msg3_gen_sound cr cf pf K (last (i_suites i) 0) i st _ _ _ _ _ _ _ _ si sr GS EA HP E3) as [E2 QP].
  apply (msg2_sound cr cf pf K (last (i_suites i) 0)) in E2; [|exact GS].
  destruct E2 as (g_y & pt & s & f & EC & EE & ET & L3 & L4 & V).
  assert (MS : i_method i <= 3 -> method_static (i_method i) si sr).
  { intros HM. destruct (method_inv _ HM) as (si' & sr' & EA' & MS). rewrite EA in EA'. injection EA' as -> ->. exact MS. }
  cbn [stop o_sent o_peer_c o_prk o_eads] in *. subst prk.
  destruct (QP k eq_refl) as (pt3 & ct3 & Q1 & Q2 & (sg & cap & P1 & P2) & _ & Q3 & _).
  rewrite HID in P1. apply pt_gen_inv in P1 as [-> LS]; [|exact HOK]. rewrite ET in Q1, Q3, P2.
  exists s, f, {| v_m1 := m1; v_g_y := g_y; v_pt2 := pt; v_cred_r := f_cred f; v_prk_3e2m := a2_prk_3e2m a;
    v_pt3 := rfc_plaintext_3 id_i sg (i_ead_3 i); v_cred_i := i_cred i; v_prk_4e3m := a2_prk_4e3m a |}. split.
  { exists st, si, sr, m2, m3. rewrite EC, EE. split; [exact GS|]. split; [exact MS|]. split; [exact ER|]. do 3 (split; [reflexivity|]).
    split; [apply (V (rfc_plaintext_3 id_i sg (i_ead_3 i)) (i_cred i))|]. split; [|exact (f_equal Some Q3)].
    split; [reflexivity|]. exists ct3. split; [exact Q1|exact Q2]. }
  split; [exact Q3|]. split; [exact L3|]. split; [exact L4|].
  exists st, si, sr, sg. do 4 (split; [assumption || reflexivity|]). exact P2.
Qed.

Lemma responder_ran_ok r creds ci_cap pk_cap n e k id_r :
  n <= 8128 -> r_id_cred r = rfc_id_cred id_r -> cid_ok id_r ->
  let o := responder_run_extended cr cf pf r creds ci_cap pk_cap n e in
  o_ret o = Ok tt -> o_prk o = Some k ->
  exists s f v, responder_ran cr cf pf r creds ci_cap n e o s f v /\ k = v_prk_out cr v n /\
    lenN (v_prk_3e2m v) = 32 /\ lenN (v_prk_4e3m v) = 32 /\
    exists sg, lenN sg < 2 ^ 64 /\ v_pt2 v = rfc_plaintext_2 (r_c_r r) id_r sg (r_ead_2 r).
Proof.
  intros HP HID HOK o HO PO. subst o. unfold responder_run_extended in *.
  destruct (receive cf e 1 []) as [m1|?|?] eqn:ER1; try discriminate HO.
  destruct (msg2_gen cr cf r m1 ci_cap) as [[c_i rc]|?|?] eqn:E2; try discriminate HO.
  destruct (e_ead e 1 (rr_ead rc)) as [?|?|?]; try discriminate HO.
  destruct (e_tx e 2 (rr_msg rc)) as [?|?|?]; try discriminate HO.
  destruct (receive cf e 3 [rr_msg rc]) as [m3|?|?] eqn:ER3; try discriminate HO.
  destruct (msg3_process cr cf pf r rc m3 creds n) as [[[ead3 pk] prk]|?|?] eqn:E3; try discriminate HO.
  unfold receive in ER1, ER3. apply bind_ok in ER1 as (m & ER1 & EM). destruct (_ <? _) in EM; [discriminate|]. injection EM as ->.
  apply bind_ok in ER3 as (m & ER3 & EM). destruct (_ <? _) in EM; [discriminate|]. injection EM as ->.
  apply (msg2_gen_sound cr cf K) in E2.
  destruct E2 as (me & su & g_x & ead & sr & pt2 & P1 & MS & GS & L3 & (sg & cap & PT & _) & ET3 & V).
  rewrite HID in PT. apply pt_gen_inv in PT as [-> LS]; [|exact HOK]. set (pt2 := rfc_plaintext_2 _ _ _ _) in *.
  eapply (msg3_sound cr cf pf K (last su 0)) in E3; [|exact GS|exact HP| |].
  2:{ exact (eq_refl (v_prk_3e2m {| v_m1 := m1; v_g_y := r_g_y r; v_pt2 := pt2; v_cred_r := r_cred r;
         v_prk_3e2m := rr_prk_3e2m rc; v_pt3 := []; v_cred_i := []; v_prk_4e3m := [] |})). }
  2:{ symmetry. exact ET3. }
  destruct E3 as (pt & s & f & p4 & -> & -> & W & EK & _). cbn [v_m1 v_g_y v_pt2 v_cred_r v_prk_3e2m] in W, EK.
  cbn [stop o_sent o_peer_c o_prk o_eads o_peer_pk] in *. injection PO as ->.
  exists s, f. match type of W with verified_message_3 _ _ _ _ _ _ _ _ _ _ ?w => exists w end.
  assert (L4 : lenN p4 = 32).
  { destruct W as (_ & ? & ? & ? & ? & _ & _ & _ & _ & _ & W & _). eapply prk_len_after; [exact K| |exact W]. exact L3. }
  split; [|split; [exact EK|split; [exact L3|split; [exact L4|exists sg; split; [exact LS|reflexivity]]]]].
  exists (rr_msg rc), m3, me, su, g_x, c_i, ead, (rr_static_i rc), sr, (rr_suite rc), (rr_ead rc). cbn [v_m1].
  do 8 (split; [first [assumption|reflexivity]|]).
  split; [apply V|]. split; [exact W|]. split; [now rewrite EK|].
  intros q. destruct pk_cap as [c|]; [|discriminate]. destruct (_ <? _); [discriminate|]. intros Q; injection Q as <-; reflexivity.
Qed.
End Views.

(** What is signed determines its parts. *)
Lemma tbs_parts id th cred ead m : rfc_tbs id th cred ead m =
  [0x84; 0x6A; 0x53; 0x69; 0x67; 0x6E; 0x61; 0x74; 0x75; 0x72; 0x65; 0x31] ++
  enc_bstr id ++ enc_bstr (enc_bstr th ++ cred ++ ead) ++ enc_bstr m.
Proof. unfold rfc_tbs. cbor_norm. reflexivity. Qed.
Lemma enc_bstr_ge b : lenN b <= lenN (enc_bstr b).
Proof. unfold enc_bstr. rewrite lenN_app. lia. Qed.
Lemma tbs_inj id th cred ead m id' th' cred' ead' m' :
  lenN (rfc_tbs id th cred ead m) < 2 ^ 64 ->
  rfc_tbs id th cred ead m = rfc_tbs id' th' cred' ead' m' ->
  id = id' /\ th = th' /\ cred ++ ead = cred' ++ ead' /\ m = m'.
Proof.
  intros L E. pose proof L as L'. rewrite E in L'.
  rewrite !tbs_parts in *.
  rewrite !lenN_app in L, L'. apply app_inv_head in E.
  pose proof (enc_bstr_ge id). pose proof (enc_bstr_ge id'). pose proof (enc_bstr_ge m). pose proof (enc_bstr_ge m').
  pose proof (enc_bstr_ge (enc_bstr th ++ cred ++ ead)) as G. pose proof (enc_bstr_ge (enc_bstr th' ++ cred' ++ ead')) as G'.
  pose proof (enc_bstr_ge th). pose proof (enc_bstr_ge th').
  apply enc_bstr_inj in E as [-> E]; [|lia|lia]. apply enc_bstr_inj in E as [EA E]; [|lia|lia].
  rewrite <- (app_nil_r (enc_bstr m)), <- (app_nil_r (enc_bstr m')) in E. apply enc_bstr_inj in E as [-> _]; [|lia|lia].
  rewrite lenN_app in G, G'. apply enc_bstr_inj in EA as [-> EA]; [|lia|lia]. auto.
Qed.

Lemma context_c_ge c : lenN c <= lenN (context_c c).
Proof. destruct c as [|a c]; [reflexivity|]. unfold context_c. rewrite cbor_bytes. apply enc_bstr_ge. Qed.
Lemma context_c_inj c c' r : lenN c < 2 ^ 64 -> lenN c' < 2 ^ 64 -> context_c c ++ r = context_c c' ++ r -> c = c'.
Proof.
  intros H H' E. apply app_inv_tail in E. unfold context_c in E. destruct c as [|a c], c' as [|a' c'].
  - reflexivity.
  - rewrite cbor_bytes in E. apply (f_equal lenN) in E. pose proof (enc_bstr_ge (a' :: c')) as G. rewrite <- E, lenN_cons in G. change (1 + lenN c' <= 0) in G. lia.
  - rewrite cbor_bytes in E. apply (f_equal lenN) in E. pose proof (enc_bstr_ge (a :: c)) as G. rewrite E, lenN_cons in G. change (1 + lenN c <= 0) in G. lia.
  - rewrite !cbor_bytes, <- (app_nil_r (enc_bstr (a :: c))), <- (app_nil_r (enc_bstr (a' :: c'))) in E. now apply enc_bstr_inj in E as [E _].
Qed.

Lemma signing_match cr th_input prk c id cred ead label x :
  crypto_ok cr -> possible cr x -> lenN prk = 32 -> label < 24 ->
  to_sign cr prk c (cr_hash cr th_input) id cred ead label = s_text cr x ->
  id = s_id x /\ cred ++ ead = s_cred x ++ s_ead x /\
  (hash_collision cr th_input (s_th_input cr x) \/ th_input = s_th_input cr x) /\
  (hmac_collision cr prk (mac_block (rfc_context (context_c c) id (cr_hash cr th_input) cred ead) label) (s_prk x) (s_block cr x) \/
   prk = s_prk x /\ label = s_label x /\ c = s_c x).
Proof.
  intros K (LT & LB & LP & _) L32 LL E. unfold s_text, to_sign in *. rewrite <- E in LT.
  apply tbs_inj in E as (EI & ET & EC & EM); [|exact LT]. split; [exact EI|]. split; [exact EC|]. split.
  { destruct (bytes_dec th_input (s_th_input cr x)) as [Q|Q]; [right; exact Q|left; split; assumption]. }
  unfold rfc_mac in EM. apply (f_equal (takeN 32)) in EM.
  rewrite !kdf_first in EM by (try exact (ok_hmac_len cr K); reflexivity).
  fold (mac_block (rfc_context (context_c c) id (cr_hash cr th_input) cred ead) label) in EM.
  set (m := mac_block _ label) in *.
  assert (EB : rfc_edhoc_info (s_label x) (rfc_context (context_c (s_c x)) (s_id x) (cr_hash cr (s_th_input cr x)) (s_cred x) (s_ead x)) 32 ++ [1]
             = s_block cr x) by reflexivity.
  rewrite EB in EM. destruct (bytes_dec prk (s_prk x)) as [EP|NP].
  2:{ left. repeat split; try assumption. congruence. }
  destruct (bytes_dec m (s_block cr x)) as [EQ|NQ].
  2:{ left. repeat split; try assumption. congruence. }
  right. split; [exact EP|]. rewrite <- EQ in LB. unfold m, mac_block in EQ, LB. unfold s_block, mac_block in EQ.
  apply app_inj_tail in EQ as [EQ _]. rewrite lenN_app in LB. pose proof LB as LB'. rewrite EQ in LB'.
  assert (LI : forall l k n, lenN k <= lenN (rfc_edhoc_info l k n)).
  { intros l k n. rewrite <- info_rfc. unfold enc_edhoc_info. rewrite !lenN_app. pose proof (enc_bstr_ge k). lia. }
  pose proof (LI label (rfc_context (context_c c) id (cr_hash cr th_input) cred ead) 32) as L1.
  pose proof (LI (s_label x) (rfc_context (context_c (s_c x)) (s_id x) (cr_hash cr (s_th_input cr x)) (s_cred x) (s_ead x)) 32) as L2.
  assert (LS : s_label x < 24) by (destruct x; reflexivity).
  apply info_inj in EQ as (-> & EQ & _); try lia; try (eapply N.le_lt_trans; [eassumption|lia]); try (apply N.ltb_lt; reflexivity).
  split; [reflexivity|]. unfold rfc_context in *. rewrite <- EI, <- ET, EC in EQ. rewrite lenN_app in L1, L2.
  pose proof (context_c_ge c). pose proof (context_c_ge (s_c x)).
  eapply context_c_inj; [| |exact EQ]; lia.
Qed.
