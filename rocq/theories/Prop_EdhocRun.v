(** Properties C37 (agreement of honest runs) and C38 (ok means verified). *)
From Verif Require Import Base Proof_Base Model_Common Model_Cbor Proof_Cbor Model_Crypto
  Spec_CborTree Proof_CborTree Spec_Hkdf Proof_Hkdf Spec_Edhoc Spec_EdhocRun Spec_EdhocView Model_EdhocCfg Model_EdhocCbor Model_EdhocKeys
  Proof_EdhocBase Model_EdhocCert Model_EdhocMsg Model_EdhocRun Proof_EdhocMsg1 Proof_EdhocMsg Proof_EdhocRun
  Proof_EdhocAgree Proof_EdhocDefault Prop_EdhocAuth Proof_EdhocSound Model_Toy Proof_Toy Model_ToyEdhoc.

(* ---------- C37 ---------- *)

(** Two parties that fit together finish with ok and the PRK_out of RFC 9528, for
    every method, suite and kind of credential; each learns the other's connection
    identifier, the responder EAD_1 and the initiator's signature key.
    Missing: EAD_2 and EAD_3 must be empty and message_3 must not be longer than
    message_2. *)
Theorem C37_agreement_partial :
  forall (cr : crypto) (cf : cfg) (pf : platform) (i : initiator) (r : responder) (creds_i creds_r : list other_party_cred)
    (st : suite) (si sr : bool) (id_i id_r : cred_id) (key_i key_r g_xy g_rx g_iy : bytes) (ei er : env) (prk_len pk_cap : N),
  crypto_ok cr -> aead_total cr ->
  fit cr cf pf i r creds_i creds_r st si sr id_i id_r key_i key_r g_xy g_rx g_iy ->
  m3_fits_m2 r st si sr id_i id_r ->
  obliging ei -> obliging er -> prk_len <= 8128 -> 65 <= pk_cap ->
  let oi := initiator_run cr cf pf i creds_r prk_len ei in
  let or := responder_run_extended cr cf pf r creds_i (C_I_SIZE cf) (Some pk_cap) prk_len er in
  connected ei er oi or ->
  let m1 := rfc_message_1 (i_method i) (i_suites i) (i_g_x i) (i_c_i i) (i_ead_1 i) in
  exists s2 s3 ct3, let x := session i r st si sr m1 id_i id_r g_xy g_rx g_iy s2 s3 in
  let prk := x_prk_out (cr_hmac cr) (cr_hash cr) x prk_len in
  x_ct3 (cr_hmac cr) (cr_hash cr) (cr_aead_enc cr) x = Some ct3 /\
  o_ret oi = Ok tt /\ o_sent oi = [m1; cbor (CBytes ct3)] /\ o_prk oi = Some prk /\ o_peer_c oi = Some (r_c_r r) /\
  o_ret or = Ok tt /\ o_sent or = [x_m2 (cr_hmac cr) (cr_hash cr) x] /\ o_prk or = Some prk /\ o_peer_c or = Some (i_c_i i) /\
  lenN prk = prk_len /\
  (i_ead_1 i <> [] -> o_eads or = [i_ead_1 i; []]) /\
  (si = false -> lenN (i_pk i) <= 65 -> o_peer_pk or = Some (i_pk i)).
Proof.
  intros cr cf pf i r creds_i creds_r st si sr id_i id_r key_i key_r g_xy g_rx g_iy ei er prk_len pk_cap K A F M Oi Or HP HK oi or Cn m1.
  destruct (sig2_exists cr cf pf K i r creds_i creds_r st si sr id_i id_r key_i key_r g_xy g_rx g_iy F) as (s2 & G2 & L2).
  destruct (sig3_exists cr cf pf K i r creds_i creds_r st si sr id_i id_r key_i key_r g_xy g_rx g_iy F s2) as (s3 & G3 & L3).
  pose proof (G2 s3) as G2'. edestruct (ct3_exists cr cf pf K A i r creds_i creds_r st si sr) as (ct3 & C3); [exact F|eassumption..|].
  exists s2, s3, ct3. cbv zeta.
  pose proof (run_i cr cf pf K i r creds_i creds_r st si sr id_i id_r key_i key_r g_xy g_rx g_iy F s2 s3 G2' L2 G3 L3
    ei er prk_len (Some pk_cap) Oi Or HP Cn ct3 C3 M) as RI.
  pose proof (run_r cr cf pf K i r creds_i creds_r st si sr id_i id_r key_i key_r g_xy g_rx g_iy F s2 s3 G2' L2 G3 L3
    ei er prk_len (Some pk_cap) Oi Or HP Cn ct3 C3 M) as RR.
  fold oi in RI. fold or in RR. rewrite RI, RR. cbn [o_ret o_sent o_prk o_peer_c o_eads o_peer_pk].
  split; [exact C3|]. repeat split.
  - apply kdf_len, (ok_hmac_len cr K).
  - destruct (i_ead_1 i); [contradiction|reflexivity].
  - intros -> L. destruct (N.ltb_spec pk_cap (lenN (i_pk i))); [lia|reflexivity].
Qed.
Print Assumptions C37_agreement_partial.

(** In particular with key identifiers and the default configuration, for the
    methods 0, 2 and 3: no assumption on sizes is left. *)
Theorem C37_kid_partial :
  forall (cr : crypto) (pf : platform) (i : initiator) (r : responder) (creds_i creds_r : list other_party_cred)
    (st : suite) (si sr : bool) (kid_i kid_r : Z) (g_xy g_rx g_iy : bytes) (ei er : env),
  crypto_ok cr -> aead_total cr ->
  kid_parties cr i r creds_i creds_r st si sr kid_i kid_r g_xy g_rx g_iy -> ~ (si = false /\ sr = true) ->
  obliging ei -> obliging er ->
  let oi := initiator_run cr default_cfg pf i creds_r 32 ei in
  let or := responder_run_extended cr default_cfg pf r creds_i 10 (Some 65) 32 er in
  connected ei er oi or ->
  o_ret oi = Ok tt /\ o_ret or = Ok tt /\
  (exists prk, o_prk oi = Some prk /\ o_prk or = Some prk /\ lenN prk = 32) /\
  o_peer_c oi = Some (r_c_r r) /\ o_peer_c or = Some (i_c_i i) /\ (si = false -> o_peer_pk or = Some (i_pk i)).
Proof.
  intros cr pf i r creds_i creds_r st si sr kid_i kid_r g_xy g_rx g_iy ei er K A P NM Oi Or oi or Cn.
  pose proof (kid_fit cr pf i r creds_i creds_r st si sr kid_i kid_r g_xy g_rx g_iy P) as F.
  apply (kid_m3 cr i r creds_i creds_r st si sr kid_i kid_r g_xy g_rx g_iy P) in NM.
  assert (H32 : 32 <= 8128) by (apply N.leb_le; reflexivity).
  assert (H65 : 65 <= 65) by (apply N.leb_le; reflexivity).
  destruct (C37_agreement_partial cr default_cfg pf i r creds_i creds_r st si sr _ _ _ _ g_xy g_rx g_iy ei er 32 65 K A F NM Oi Or
    H32 H65 Cn) as (s2 & s3 & ct3 & Q).
  cbv zeta in Q. fold oi in Q. change (C_I_SIZE default_cfg) with 10 in Q. fold or in Q.
  destruct Q as (_ & R1 & _ & P1 & C1 & R2 & _ & P2 & C2 & L & _ & PK).
  split; [exact R1|]. split; [exact R2|]. split; [eexists; split; [exact P1|]; split; [exact P2|exact L]|].
  split; [exact C1|]. split; [exact C2|]. intros S. apply PK; [exact S|]. apply (kp_keys _ _ _ _ _ _ _ _ _ _ _ _ _ P).
Qed.
Print Assumptions C37_kid_partial.

(** With method 1 the same parties never agree: message_3 does not fit the array
    with the length of message_2. The initiator nevertheless reports ok. *)
Theorem C37_method_1_refuted :
  forall (cr : crypto) (pf : platform) (i : initiator) (r : responder) (creds_i creds_r : list other_party_cred)
    (st : suite) (kid_i kid_r : Z) (g_xy g_rx g_iy : bytes) (ei er : env),
  crypto_ok cr -> aead_total cr ->
  kid_parties cr i r creds_i creds_r st false true kid_i kid_r g_xy g_rx g_iy ->
  obliging ei -> obliging er ->
  let oi := initiator_run cr default_cfg pf i creds_r 32 ei in
  let or := responder_run_extended cr default_cfg pf r creds_i 10 (Some 65) 32 er in
  connected ei er oi or ->
  o_ret oi = Ok tt /\ o_prk oi = None.
Proof.
  intros cr pf i r creds_i creds_r st kid_i kid_r g_xy g_rx g_iy ei er K A P Oi Or oi or Cn.
  pose proof (kid_fit cr pf i r creds_i creds_r st false true kid_i kid_r g_xy g_rx g_iy P) as F.
  assert (NM : ~ m3_fits_m2 r st false true (KidInt kid_i) (KidInt kid_r)).
  { intros Q. apply (kid_m3 cr i r creds_i creds_r st false true kid_i kid_r g_xy g_rx g_iy P) in Q. tauto. }
  destruct (sig2_exists cr default_cfg pf K i r creds_i creds_r st false true _ _ _ _ g_xy g_rx g_iy F) as (s2 & G2 & L2).
  destruct (sig3_exists cr default_cfg pf K i r creds_i creds_r st false true _ _ _ _ g_xy g_rx g_iy F s2) as (s3 & G3 & L3).
  pose proof (G2 s3) as G2'. edestruct (ct3_exists cr default_cfg pf K A i r creds_i creds_r st false true) as (ct3 & C3); [exact F|eassumption..|].
  assert (H32 : 32 <= 8128) by (apply N.leb_le; reflexivity).
  destruct (run_i_too_long cr default_cfg pf K i r creds_i creds_r st false true _ _ _ _ g_xy g_rx g_iy F s2 s3 G2' L2 G3 L3
    ei er 32 (Some 65) Oi Or H32 Cn ct3 C3 NM) as (R1 & R2 & _).
  split; [exact R1|exact R2].
Qed.
Print Assumptions C37_method_1_refuted.

(** A responder that sends EAD_2 is never believed by the initiator (the MAC is
    computed over the encoded EAD_2 on one side and over its content on the other):
    method 3, EAD_2 = h'01' (C71_ead_2_refuted is the general theorem). Without EAD_2 the
    same parties agree. *)
Example C37_ead_2_ex :
  let cf := {| EAD_SIZE := 10; C_I_SIZE := 10; C_R_SIZE := 10; ID_CRED_I_SIZE := 400; ID_CRED_R_SIZE := 400;
               CRED_I_SIZE := 400; CRED_R_SIZE := 400; SUITES_I_SIZE := 6 |} in
  let i := toy_initiator 3 [2] [1; 2] [] in
  let r e := {| r_c_r := [7; 8]; r_suites := [2]; r_g_y := repeat 21 32; r_y := repeat 21 32;
    r_g_r := repeat 22 32; r_r := repeat 22 32; r_ead_2 := e;
    r_id_cred := toy_id_r; r_cred := toy_cred_r; r_sk := repeat 23 32; r_pk := repeat 23 32 |} in
  o_ret (toy_oi cf i (r [0x41; 1])) = Err mac_authentication_failed /\
  o_ret (toy_oi cf i (r [])) = Ok tt /\ o_ret (toy_or cf i (r [])) = Ok tt /\
  o_prk (toy_oi cf i (r [])) = o_prk (toy_or cf i (r [])) /\ o_prk (toy_or cf i (r [])) <> None.
Proof. vm_compute. repeat split; try reflexivity. discriminate. Qed.

(** A run of two parties per method: PRK_out is the same for the methods 0, 2 and 3. *)
Example C37_example :
  let agree m := match o_ret (toy_oi default_cfg (toy_initiator m [2] [1; 2] []) (toy_responder [2] [7; 8])),
                       o_ret (toy_or default_cfg (toy_initiator m [2] [1; 2] []) (toy_responder [2] [7; 8])),
                       o_prk (toy_oi default_cfg (toy_initiator m [2] [1; 2] []) (toy_responder [2] [7; 8])),
                       o_prk (toy_or default_cfg (toy_initiator m [2] [1; 2] []) (toy_responder [2] [7; 8])) with
                 | Ok _, Ok _, Some a, Some b => beqb a b
                 | _, _, _, _ => false
                 end in
  agree 0 = true /\ agree 1 = false /\ agree 2 = true /\ agree 3 = true.
Proof. vm_compute. auto. Qed.

(** The hypotheses of the theorems above are met by these parties and their runs. *)
Lemma toy_total : aead_total toy_crypto.
Proof.
  intros k n a t p _ _ _ _ B. cbn [toy_crypto cr_aead_enc]. unfold toy_enc.
  assert (E : forallb (fun b => b <? 256) p = true).
  { apply forallb_forall. intros b I. apply (proj1 (Forall_forall _ _) B) in I. unfold is_byte in I. lia. }
  rewrite E. discriminate.
Qed.
Lemma toy_sign_pair g k : 32 <= lenN k -> sign_pair toy_crypto g k k.
Proof.
  intros L. split; [intros _; exact L|]. intros m s E. change (Some (toy_sig g k m) = Some s) in E. change (Some (beqb s (toy_sig g k m)) = Some true).
  assert (E' : s = toy_sig g k m) by congruence. rewrite E', beqb_refl. reflexivity.
Qed.
Lemma toy_signs g a b m : cr_sign toy_crypto g a b m <> None.
Proof. change (Some (toy_sig g a m) <> None). intros E. congruence. Qed.
Lemma toy_connected (m : N) (i := toy_initiator m [2] [1; 2] []) (r := toy_responder [2] [7; 8])
  (ei := toy_env (toy_m2 default_cfg i r) (Err not_implemented)) (er := toy_env (toy_m1 default_cfg i) (toy_m3 default_cfg i r)) :
  In m [0; 1; 2; 3] ->
  connected ei er (initiator_run toy_crypto default_cfg toy_pf i toy_creds_r 32 ei)
    (responder_run_extended toy_crypto default_cfg toy_pf r toy_creds_i 10 (Some 65) 32 er).
Proof.
  assert (Q : forall (o : list bytes) (n : nat) (a : res bytes),
    match nth_error o n with Some m => match a with Ok m' => beqb m m' | _ => false end | None => true end = true ->
    forall m, nth_error o n = Some m -> a = Ok m).
  { intros o n a B m' E. rewrite E in B. destruct a as [m''|?|?]; try discriminate. apply beqb_eq in B. now subst. }
  intros HI. unfold connected. cbn [e_rx ei er toy_env].
  split; [|split]; intros x; intros; eapply Q; try eassumption;
    repeat (destruct HI as [<-|HI]; [vm_compute; reflexivity|]); destruct HI.
Qed.
Lemma toy_parties (si sr : bool) (m := (if si then 2 else 0) + (if sr then 1 else 0)) :
  kid_parties toy_crypto (toy_initiator m [2] [1; 2] []) (toy_responder [2] [7; 8]) toy_creds_i toy_creds_r
    {| suite_label := 2; edhoc_aead := AES_CCM_16_64_128; edhoc_mac_len_static_dh := 8;
       edhoc_ecdh := P256; edhoc_sign := ES256; app_aead := AES_CCM_16_64_128 |} si sr 5 (-3)
    (be_enc 32 (be_val (repeat 11 32) + be_val (repeat 21 32))) (be_enc 32 (be_val (repeat 11 32) + be_val (repeat 22 32)))
    (be_enc 32 (be_val (repeat 12 32) + be_val (repeat 21 32))).
Proof.
  constructor.
  - reflexivity.
  - split; [|split; apply N.leb_le; reflexivity]. apply is_bytes_dec. reflexivity.
  - reflexivity.
  - discriminate.
  - reflexivity.
  - reflexivity.
  - split; (split; [vm_compute; reflexivity|discriminate]).
  - destruct sr; [split; (split; [vm_compute; reflexivity|discriminate])|]. split; [apply toy_sign_pair; apply N.leb_le; reflexivity|intros; apply toy_signs].
  - destruct si; [split; (split; [vm_compute; reflexivity|discriminate])|]. split; [apply toy_sign_pair; apply N.leb_le; reflexivity|intros; apply toy_signs].
  - split; [reflexivity|lia].
  - split; [reflexivity|lia].
  - eexists [_], _, []. split; [reflexivity|]. split; [constructor; [discriminate|constructor]|]. repeat split.
  - eexists [], _, []. split; [reflexivity|]. split; [constructor|]. repeat split.
  - repeat split; apply N.leb_le; reflexivity.
  - repeat split; apply N.leb_le; reflexivity.
  - split; [apply N.leb_le; reflexivity|discriminate].
  - split; [apply N.leb_le; reflexivity|discriminate].
  - repeat split.
Qed.
Example C37_hypotheses :
  crypto_ok toy_crypto /\ aead_total toy_crypto /\ (forall a b, obliging (toy_env a b)) /\
  forall si sr : bool, let m := (if si then 2 else 0) + (if sr then 1 else 0) in
  let i := toy_initiator m [2] [1; 2] [] in
  let r := toy_responder [2] [7; 8] in
  let ei := toy_env (toy_m2 default_cfg i r) (Err not_implemented) in
  let er := toy_env (toy_m1 default_cfg i) (toy_m3 default_cfg i r) in
  connected ei er (initiator_run toy_crypto default_cfg toy_pf i toy_creds_r 32 ei)
    (responder_run_extended toy_crypto default_cfg toy_pf r toy_creds_i 10 (Some 65) 32 er) /\
  exists st g_xy g_rx g_iy, kid_parties toy_crypto i r toy_creds_i toy_creds_r st si sr 5 (-3) g_xy g_rx g_iy.
Proof.
  split; [exact toy_ok|]. split; [exact toy_total|]. split; [split; reflexivity|]. intros si sr m i r ei er. split.
  - apply toy_connected. destruct si, sr; cbn; tauto.
  - do 4 eexists. exact (toy_parties si sr).
Qed.

(* ---------- C38 ---------- *)

(** If edhoc_initiator_run, or edhoc_initiator_run_extended with a c_r_bytes of any
    capacity, returns ok, then it sent two messages and verified the
    message it received in between: this contains a G_Y, and what it decrypts to
    names a credential that the lookup accepts and has a Signature_or_MAC field that
    vouches for this credential, C_R, EAD_2 and the transcript of this session.
    PRK_out, if it was written, is that of RFC 9528 for the transcript with the
    message_3 that was sent. Missing: PRK_out may be left unwritten. *)
Theorem C38_initiator_ok_partial :
  forall (cr : crypto) (cf : cfg) (pf : platform) (i : initiator) (creds : list other_party_cred) (c_cap prk_len : N) (e : env),
  crypto_ok cr -> prk_len <= 8128 ->
  let o := initiator_run_extended cr cf pf i creds c_cap prk_len e in
  o_ret o = Ok tt ->
  let m1 := rfc_message_1 (i_method i) (i_suites i) (i_g_x i) (i_c_i i) (i_ead_1 i) in
  exists st m2 m3 si sr s f v,
    get_suite (last (i_suites i) 0) = Ok st /\ (i_method i <= 3 -> method_static (i_method i) si sr) /\
    e_rx e 2 [m1] = Ok m2 /\ o_sent o = [m1; m3] /\ o_peer_c o = Some (sp_c_r s) /\ o_eads o = [sp_ead s] /\
    verified_message_2_into c_cap cr cf pf i creds st si sr m2 s f v /\
    (forall prk, o_prk o = Some prk ->
       sealed_message_3 cr i st m3 v /\ prk = v_prk_out cr v prk_len /\ lenN prk = prk_len).
Proof.
  intros cr cf pf i creds c_cap prk_len e K HP o HO m1. subst o. unfold initiator_run_extended in *.
  destruct (msg1_gen cr cf i) as [[[m1' st] h1]|?|?] eqn:E1; try discriminate HO.
  apply msg1_gen_ok in E1 as (_ & -> & GS & -> & _). fold m1 in HO |- *.
  destruct (e_tx e 1 m1) as [u1|?|?]; try discriminate HO.
  destruct (receive cf e 2 [m1]) as [m2|?|?] eqn:ER; try discriminate HO.
  destruct (msg3_gen cr cf pf i st (cr_hash cr m1) m2 creds c_cap prk_len) as [[[a m3] prk]|?|?] eqn:E3; try discriminate HO.
  destruct (e_ead e 2 (a2_ead a)) as [u2|?|?]; try discriminate HO.
  unfold receive in ER. apply bind_ok in ER as (m & ER & EM). destruct (_ <? _) in EM; [discriminate|]. injection EM as ->.
  destruct (authentication_type_get (i_method i) (false, false)) as [si sr] eqn:EA.
  destruct (msg3_gen_sound cr cf pf K (last (i_suites i) 0) i st _ _ _ _ _ _ _ _ si sr GS EA HP E3) as [E2 QP].
  apply (msg2_sound_into cr cf pf K c_cap (last (i_suites i) 0)) in E2; [|exact GS].
  destruct E2 as (g_y & pt & s & f & EC & EE & ET & _ & _ & V).
  assert (MS : i_method i <= 3 -> method_static (i_method i) si sr).
  { intros HM. destruct (method_inv _ HM) as (si' & sr' & EA' & MS). rewrite EA in EA'. injection EA' as -> ->. exact MS. }
  cbn [stop o_sent o_peer_c o_prk o_eads]. rewrite EC, EE. destruct prk as [p|].
  - destruct (QP p eq_refl) as (pt3 & ct3 & Q1 & Q2 & _ & _ & Q3 & Q4).
    exists st, m2, m3, si, sr, s, f. eexists. do 6 (split; [first [assumption|reflexivity]|]). split; [apply (V pt3 (i_cred i))|].
    intros p' Q. injection Q as <-. rewrite ET in Q1, Q3. split; [|split; [exact Q3|exact Q4]].
    split; [reflexivity|]. exists ct3. split; [exact Q1|exact Q2].
  - exists st, m2, m3, si, sr, s, f. eexists. do 6 (split; [first [assumption|reflexivity]|]). split; [apply (V [] [])|].
    intros p' Q. discriminate Q.
Qed.
Print Assumptions C38_initiator_ok_partial.

(** If edhoc_responder_run returns ok, PRK_out was written and message_3 was
    verified: it decrypts under the keys of the session with the message_1 received
    and the message_2 sent, names a credential that the lookup accepts, and its
    Signature_or_MAC field vouches for this credential, EAD_3 and the transcript. *)
Theorem C38_responder_ok :
  forall (cr : crypto) (cf : cfg) (pf : platform) (r : responder) (creds : list other_party_cred) (ci_cap : N)
    (pk_cap : option N) (prk_len : N) (e : env),
  crypto_ok cr -> prk_len <= 8128 ->
  let o := responder_run_extended cr cf pf r creds ci_cap pk_cap prk_len e in
  o_ret o = Ok tt ->
  exists m1 m2 m3 me su g_x c_i ead_1 si sr st s f v e1,
    e_rx e 1 [] = Ok m1 /\ e_rx e 3 [m2] = Ok m3 /\ o_sent o = [m2] /\ o_peer_c o = Some c_i /\ o_eads o = [e1; sp_ead s] /\
    msg1_parse cf m1 ci_cap = Ok (me, su, g_x, c_i, ead_1) /\ method_static me si sr /\ get_suite (last su 0) = Ok st /\
    made_message_2 cr r st sr g_x m1 m2 v /\ verified_message_3 cr cf pf r creds st si m3 s f v /\
    o_prk o = Some (v_prk_out cr v prk_len) /\ (forall k, o_peer_pk o = Some k -> k = f_pk f).
Proof.
  intros cr cf pf r creds ci_cap pk_cap prk_len e K HP o HO. subst o. unfold responder_run_extended in *.
  destruct (receive cf e 1 []) as [m1|?|?] eqn:ER1; try discriminate HO.
  destruct (msg2_gen cr cf r m1 ci_cap) as [[c_i rc]|?|?] eqn:E2; try discriminate HO.
  destruct (e_ead e 1 (rr_ead rc)) as [?|?|?]; try discriminate HO.
  destruct (e_tx e 2 (rr_msg rc)) as [?|?|?]; try discriminate HO.
  destruct (receive cf e 3 [rr_msg rc]) as [m3|?|?] eqn:ER3; try discriminate HO.
  destruct (msg3_process cr cf pf r rc m3 creds prk_len) as [[[ead3 pk] prk]|?|?] eqn:E3; try discriminate HO.
  unfold receive in ER1, ER3. apply bind_ok in ER1 as (m & ER1 & EM). destruct (_ <? _) in EM; [discriminate|]. injection EM as ->.
  apply bind_ok in ER3 as (m & ER3 & EM). destruct (_ <? _) in EM; [discriminate|]. injection EM as ->.
  apply (msg2_gen_sound cr cf K) in E2.
  destruct E2 as (me & su & g_x & ead & sr & pt2 & P1 & MS & GS & _ & _ & ET3 & V).
  eapply (msg3_sound cr cf pf K (last su 0)) in E3; [|exact GS|exact HP| |].
  2:{ exact (eq_refl (v_prk_3e2m {| v_m1 := m1; v_g_y := r_g_y r; v_pt2 := pt2; v_cred_r := r_cred r;
         v_prk_3e2m := rr_prk_3e2m rc; v_pt3 := []; v_cred_i := []; v_prk_4e3m := [] |})). }
  2:{ symmetry. exact ET3. }
  destruct E3 as (pt & s & f & p4 & -> & -> & W & -> & _). cbn [v_m1 v_g_y v_pt2 v_cred_r v_prk_3e2m] in W |- *.
  exists m1, (rr_msg rc), m3, me, su, g_x, c_i, ead, (rr_static_i rc), sr, (rr_suite rc), s, f.
  match type of W with verified_message_3 _ _ _ _ _ _ _ _ _ _ ?w => exists w, (rr_ead rc) end.
  cbn [stop o_sent o_peer_c o_prk o_eads o_peer_pk]. do 8 (split; [first [assumption|reflexivity]|]).
  split; [apply V|]. split; [exact W|]. split; [reflexivity|].
  intros k. destruct pk_cap as [n|]; [|discriminate]. destruct (_ <? _); [discriminate|]. congruence.
Qed.
Print Assumptions C38_responder_ok.

(** When the initiator cannot sign (the cryptographic library fails), a run that
    returns ok has not written PRK_out, and the "message_3" it sent is the received
    message_2. *)
Theorem C38_sign_failure_refuted :
  forall (cr : crypto) (cf : cfg) (pf : platform) (i : initiator) (creds : list other_party_cred) (prk_len : N) (e : env) (sr : bool),
  method_static (i_method i) false sr -> (forall g m, cr_sign cr g (i_sk i) (i_pk i) m = None) ->
  let o := initiator_run cr cf pf i creds prk_len e in
  o_ret o = Ok tt ->
  o_prk o = None /\ exists m1 m2, o_sent o = [m1; m2] /\ e_rx e 2 [m1] = Ok m2.
Proof.
  intros cr cf pf i creds prk_len e sr MS NS o HO. subst o. unfold initiator_run, initiator_run_extended in *.
  destruct (msg1_gen cr cf i) as [[[m1 st] h1]|?|?]; try discriminate HO.
  destruct (e_tx e 1 m1) as [u1|?|?]; try discriminate HO.
  destruct (receive cf e 2 [m1]) as [m2|?|?] eqn:ER; try discriminate HO.
  unfold receive in ER. apply bind_ok in ER as (m & ER & EM). destruct (_ <? _) in EM; [discriminate|]. injection EM as ->.
  unfold msg3_gen in *. destruct (method_type _ _ _ MS) as [EM _]. rewrite EM in HO |- *.
  destruct (msg2_process cr cf pf i st h1 m2 creds (C_R_SIZE cf) false sr) as [a|?|?]; try discriminate HO. cbn [bind] in *.
  assert (Q : exists r, msg3_only_gen cr cf i st false a m2 prk_len = (m2, r) /\ forall p, r <> Ok p).
  { unfold msg3_only_gen. cbv zeta.
    match goal with |- exists r, match ?f with Ok _ => _ | Err _ => _ | UB _ => _ end = _ /\ _ => assert (NF : forall p, f <> Ok p) end.
    { intros p Q. apply bind_ok in Q as ([] & _ & Q). apply bind_ok in Q as ([] & _ & Q). apply bind_ok in Q as (sg & EG & _).
      unfold sig_or_mac_generate in EG. apply bind_ok in EG as (mc & _ & EG). apply bind_ok in EG as (t & _ & EG).
      unfold sign in EG. rewrite NS in EG. discriminate. }
    match goal with |- exists r, match ?f with Ok _ => _ | Err _ => _ | UB _ => _ end = _ /\ _ => destruct f as [p|?|?] end.
    - exfalso. now apply (NF p).
    - eexists. split; [reflexivity|discriminate].
    - eexists. split; [reflexivity|discriminate]. }
  destruct Q as (r & EQ & NR). rewrite EQ in HO |- *. destruct r as [p|?|?]; [exfalso; now apply (NR p)| |discriminate HO].
  destruct (e_ead e 2 (a2_ead a)) as [u2|?|?]; try discriminate HO.
  cbn [stop o_prk o_sent]. split; [reflexivity|]. exists m1, m2. split; [reflexivity|exact ER].
Qed.
Print Assumptions C38_sign_failure_refuted.

(** ok without a key in a whole class of sessions in which nothing fails (method 1
    with key identifiers and the default buffer sizes); message_3 then is message_2. *)
Theorem C38_method_1_refuted :
  forall (cr : crypto) (pf : platform) (i : initiator) (r : responder) (creds_i creds_r : list other_party_cred)
    (st : suite) (kid_i kid_r : Z) (g_xy g_rx g_iy : bytes) (ei er : env),
  crypto_ok cr -> aead_total cr ->
  kid_parties cr i r creds_i creds_r st false true kid_i kid_r g_xy g_rx g_iy ->
  obliging ei -> obliging er ->
  let oi := initiator_run cr default_cfg pf i creds_r 32 ei in
  connected ei er oi (responder_run_extended cr default_cfg pf r creds_i 10 (Some 65) 32 er) ->
  ~ (o_ret oi = Ok tt -> exists prk, o_prk oi = Some prk).
Proof.
  intros cr pf i r creds_i creds_r st kid_i kid_r g_xy g_rx g_iy ei er K A P Oi Or oi Cn Q.
  destruct (C37_method_1_refuted cr pf i r creds_i creds_r st kid_i kid_r g_xy g_rx g_iy ei er K A P Oi Or Cn) as [R1 R2].
  destruct (Q R1) as (prk & R3). fold oi in R2. congruence.
Qed.
Print Assumptions C38_method_1_refuted.

(** The runs of method 1; and method 0 with a library that cannot sign for the
    initiator. *)
Example C38_example :
  let i := toy_initiator 1 [2] [1; 2] [] in
  let r := toy_responder [2] [7; 8] in
  o_ret (toy_oi default_cfg i r) = Ok tt /\ o_prk (toy_oi default_cfg i r) = None /\
  o_ret (toy_or default_cfg i r) <> Ok tt /\
  (let i := toy_initiator 0 [2] [1; 2] [] in
   let mute := {| cr_hmac := cr_hmac toy_crypto; cr_hash := cr_hash toy_crypto; cr_aead_enc := cr_aead_enc toy_crypto;
     cr_aead_dec := cr_aead_dec toy_crypto; cr_dh := cr_dh toy_crypto; cr_pub := cr_pub toy_crypto;
     cr_sign := fun _ _ _ _ => None; cr_verify := cr_verify toy_crypto |} in
   let o := initiator_run mute default_cfg toy_pf i toy_creds_r 32 (toy_env (toy_m2 default_cfg i r) (Err not_implemented)) in
   o_ret o = Ok tt /\ o_prk o = None /\ Ok (nth 1 (o_sent o) []) = toy_m2 default_cfg i r).
Proof. vm_compute. repeat split; try reflexivity. discriminate. Qed.
