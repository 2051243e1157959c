(** What is known after message_2 or message_3 was processed successfully. *)
From Verif Require Import Base Proof_Base Model_Common Model_Cbor Proof_Cbor Model_Crypto
  Spec_CborTree Proof_CborTree Spec_Hkdf Proof_Hkdf Spec_Edhoc Spec_EdhocRun Spec_EdhocView Model_EdhocCfg Model_EdhocCbor Model_EdhocKeys
  Proof_EdhocBase Model_EdhocCert Model_EdhocMsg Model_EdhocRun Model_EdhocMsg4 Proof_EdhocMsg1 Proof_EdhocMsg Proof_EdhocRun Prop_EdhocAuth.

Lemma copy_null_inv cap b x : copy_null cap b = Ok x -> x = b /\ lenN b <= cap.
Proof.
  unfold copy_null. destruct (N.eqb_spec (lenN b) 0) as [E|E].
  - intros Q. injection Q as <-. apply lenN_0 in E. subst. split; [reflexivity|]. apply N.le_0_l.
  - destruct (cap =? 0); [discriminate|]. intros Q. apply bind_ok in Q as ([] & C & Q). apply check_ok in C. split; [congruence|exact C].
Qed.
Lemma split2_sig l a b c s : plaintext2_split l a b c = Ok s -> lenN (sp_sig s) <= 64.
Proof.
  unfold plaintext2_split. intros H. apply bind_ok in H as (p & _ & H). apply bind_ok in H as (x & _ & H).
  apply bind_ok in H as (y & _ & H). apply bind_ok in H as (z & E & H). apply bind_ok in H as (w & _ & H).
  injection H as <-. cbn [sp_sig]. apply copy_null_inv in E as [-> E]. exact E.
Qed.
Lemma split3_sig l b c s : plaintext3_split l b c = Ok s -> lenN (sp_sig s) <= 64.
Proof.
  unfold plaintext3_split. intros H. apply bind_ok in H as (p & _ & H).
  apply bind_ok in H as (y & _ & H). apply bind_ok in H as (z & E & H). apply bind_ok in H as (w & _ & H).
  injection H as <-. cbn [sp_sig]. apply copy_null_inv in E as [-> E]. exact E.
Qed.
Lemma ssd_inv cr alg sk pk s : shared_secret_derive cr alg sk pk = Ok s ->
  cr_dh cr (ecdh_id alg) (key_bytes alg sk) (key_bytes alg pk) = Some s.
Proof.
  unfold shared_secret_derive. destruct alg; cbn [key_bytes].
  - intros Q. now apply ext_ok in Q.
  - destruct (lenN sk <? 32); [discriminate|]. destruct (lenN pk <? 32); [discriminate|]. intros Q. now apply ext_ok in Q.
Qed.

Section Sound.
Variable cr : crypto.
Variable cf : cfg.
Variable pf : platform.
Hypothesis K : crypto_ok cr.

Lemma prk_inv sdh st label ctx prk pk sk x : prk_derive cr cf sdh st label ctx prk pk sk = Ok x ->
  prk_after cr sdh st prk label ctx sk pk x.
Proof.
  intros H. apply prk_derive_ok in H as (dh & -> & HD); [|exact (ok_hmac_len cr K)]. exists dh. split; [reflexivity|].
  intros Q. apply ssd_inv. auto.
Qed.
Lemma verify_inv l st sdh pk prk c_r th id cred ead label s :
  get_suite l = Ok st -> lenN s <= 64 ->
  sig_or_mac_verify cr cf sdh st pk prk c_r th id cred ead label s = Ok tt ->
  vouches cr sdh st pk prk c_r th id cred ead label s.
Proof.
  intros HL LS H. unfold vouches. destruct sdh.
  - now apply (C36_mac_partial cr cf l) in H as (E & _).
  - now apply (C36_signature_sound cr cf l) in H.
Qed.

Lemma prk_len_after sdh st prk label th sk pk next : lenN prk = 32 ->
  prk_after cr sdh st prk label th sk pk next -> lenN next = 32.
Proof. intros L (dh & -> & _). apply prk_next_len; [exact (ok_hmac_len cr K)|exact L]. Qed.

(** what the initiator learned from message_2 *)
Lemma msg2_sound_into cap l i st m2 creds si sr a :
  get_suite l = Ok st ->
  let m1 := rfc_message_1 (i_method i) (i_suites i) (i_g_x i) (i_c_i i) (i_ead_1 i) in
  msg2_process cr cf pf i st (cr_hash cr m1) m2 creds cap si sr = Ok a ->
  exists g_y pt s f, a2_c_r a = sp_c_r s /\ a2_ead a = sp_ead s /\
    a2_th3 a = rfc_th34 (cr_hash cr) (rfc_th2 (cr_hash cr) g_y m1) pt (f_cred f) /\
    lenN (a2_prk_3e2m a) = 32 /\ lenN (a2_prk_4e3m a) = 32 /\
    forall pt3 cred_i, verified_message_2_into cap cr cf pf i creds st si sr m2 s f
      {| v_m1 := m1; v_g_y := g_y; v_pt2 := pt; v_cred_r := f_cred f; v_prk_3e2m := a2_prk_3e2m a; v_pt3 := pt3;
         v_cred_i := cred_i; v_prk_4e3m := a2_prk_4e3m a |}.
Proof.
  intros HL m1 H. unfold msg2_process in H.
  assert (PL : get_ecdh_pk_len (edhoc_ecdh st) = 32) by (destruct (edhoc_ecdh st); reflexivity).
  rewrite PL in H. apply bind_ok in H as ([] & _ & H). cbv zeta in H. apply bind_ok in H as ([] & _ & H).
  apply bind_ok in H as ([g_y ct] & E1 & H). unfold msg2_parse in E1. apply bind_ok in E1 as (b & E1 & E2).
  unfold decode_bstr in E1. apply bind_ok in E1 as ([b' rest] & E1 & E3). apply bind_ok in E3 as ([] & _ & E3).
  injection E3 as ->. apply ext_ok in E1.
  destruct (N.ltb_spec (lenN b) 32) as [|LB]; [destruct (_ =? 0) in E2; discriminate|].
  apply bind_ok in E2 as (ct' & E2 & E3). apply copy_null_inv in E2 as [-> _]. injection E3 as <- <-.
  apply bind_ok in H as (g_xy & EXY & H). apply bind_ok in H as (th2 & ET & H). apply th2_ok in ET.
  apply bind_ok in H as ([] & _ & H). apply bind_ok in H as ([pt s] & ES & H).
  unfold ciphertext2_decrypt_split in ES. apply bind_ok in ES as ([] & _ & ES). apply bind_ok in ES as (key & EKS & ES).
  apply bind_ok in ES as (aad & _ & ES). cbv zeta in ES. apply bind_ok in ES as (s' & ES & EP). injection EP as EPT ->.
  rewrite EPT in ES. pose proof (split2_sig _ _ _ _ _ ES) as LS. apply bind_ok in H as (f & EF & H). cbv zeta in H.
  apply bind_ok in H as (prk & EK & H). apply bind_ok in H as ([] & EV & H).
  apply bind_ok in H as (th3 & ET3 & H). apply bind_ok in H as (p4 & EP4 & H). injection H as <-.
  destruct (sp_id_cred s) as [id|] eqn:EID; [|discriminate]. cbn in EV.
  exists (takeN 32 b), pt, s, f.
  assert (L32 : lenN (takeN 32 b) = 32) by (rewrite lenN_takeN; lia).
  change (rfc_th2 (cr_hash cr) (takeN 32 b) m1) with (cr_hash cr (rfc_th2_input (takeN 32 b) (cr_hash cr m1))).
  unfold verified_message_2_into, v_th3_input, v_th2_input. cbn [v_m1 v_g_y v_pt2 v_cred_r v_prk_3e2m v_pt3 v_cred_i v_prk_4e3m].
  rewrite <- ET. cbn [a2_prk_3e2m a2_c_r a2_ead a2_th3 a2_prk_4e3m].
  assert (TN : th2 <> []) by (intros Q; apply (f_equal lenN) in ET; rewrite Q, (ok_hash_len cr K) in ET; discriminate).
  rewrite extract_rfc in EK, EKS by exact TN. apply th34_ok in ET3. apply prk_inv in EK, EP4.
  assert (L3 : lenN prk = 32) by (eapply prk_len_after; [|exact EK]; apply (ok_hmac_len cr K)).
  assert (L4 : lenN p4 = 32) by (eapply prk_len_after; [exact L3|exact EP4]).
  do 5 (split; [assumption || reflexivity|]). intros pt3 cred_i. split; [reflexivity|]. split; [reflexivity|].
  exists (dropN 32 b), rest, g_xy, id. rewrite takeN_dropN. split; [exact E1|]. split; [exact L32|]. split.
  { apply ssd_inv in EXY. unfold key_bytes in *. destruct (edhoc_ecdh st); [exact EXY|].
    rewrite (takeN_all (takeN 32 b)) in EXY by lia. exact EXY. }
  cbv zeta. split.
  { intros LC. rewrite <- EPT, rfc_xor_eq. f_equal. unfold key_gen_2 in EKS.
    apply kdf_ok in EKS as [-> _]; [reflexivity|exact (ok_hmac_len cr K)|lia]. }
  split; [exact ES|]. split; [exact EID|]. split; [exact EF|]. split; [exact EK|]. split; [now apply (verify_inv l)|].
  unfold rfc_th34 in ET3. rewrite <- ET3. exact EP4.
Qed.

Definition msg2_sound := msg2_sound_into (C_R_SIZE cf).

(** A plaintext is what [plaintext_gen] makes from an honest field. *)
Definition pt_made (c : option bytes) (st : suite) (static : bool) (sk pk prk c_r th id cred ead : bytes) (label : N) (pt : bytes) : Prop :=
  exists sg cap, plaintext_gen cf c id sg ead cap = Ok pt /\ made_field cr static st sk pk prk c_r th id cred ead label sg.
Lemma made_gen l sdh st sk pk prk c_r th id cred ead label sg c cap pt : get_suite l = Ok st ->
  sig_or_mac_generate cr cf sdh st sk pk prk c_r th id cred ead label = Ok sg ->
  plaintext_gen cf c id sg ead cap = Ok pt -> pt_made c st sdh sk pk prk c_r th id cred ead label pt.
Proof.
  intros HL EG EP. exists sg, cap. split; [exact EP|]. unfold sig_or_mac_generate in EG.
  apply bind_ok in EG as (mc & EM & EG). apply mac_ok in EM as [-> _]; [|exact (ok_hmac_len cr K)|].
  2:{ unfold get_suite in HL. destruct l as [|[[p|p|]|[p|p|]|]]; try discriminate; injection HL as <-; destruct sdh; apply N.leb_le; reflexivity. }
  destruct sdh; cbn [made_field].
  - injection EG as <-. reflexivity.
  - apply bind_ok in EG as (t & ETB & EG). apply tbs_ok in ETB as ->. unfold sign in EG. apply ext_ok in EG. exact EG.
Qed.
Lemma msg3_gen_sound l i st h1 m2 creds cap prk_len a m3 prk si sr :
  get_suite l = Ok st -> authentication_type_get (i_method i) (false, false) = (si, sr) -> prk_len <= 8128 ->
  msg3_gen cr cf pf i st h1 m2 creds cap prk_len = Ok (a, m3, prk) ->
  msg2_process cr cf pf i st h1 m2 creds cap si sr = Ok a /\
  forall p, prk = Some p -> exists pt3 ct3,
    cr_aead_enc cr (rfc_kdf (cr_hmac cr) (a2_prk_3e2m a) L_K_3 (a2_th3 a) 16)
      (rfc_kdf (cr_hmac cr) (a2_prk_3e2m a) L_IV_3 (a2_th3 a) 13) (rfc_aad (a2_th3 a)) (edhoc_mac_len_static_dh st) pt3 = Some ct3 /\
    m3 = cbor (CBytes ct3) /\ pt_made None st si (i_sk i) (i_pk i) (a2_prk_4e3m a) [] (a2_th3 a) (i_id_cred i) (i_cred i) (i_ead_3 i) L_MAC_3 pt3 /\
    rc_th4 cr cf i st a m2 = rfc_th34 (cr_hash cr) (a2_th3 a) pt3 (i_cred i) /\
    p = rfc_kdf (cr_hmac cr) (a2_prk_4e3m a) L_PRK_out (rfc_th34 (cr_hash cr) (a2_th3 a) pt3 (i_cred i)) prk_len /\
    lenN p = prk_len.
Proof.
  intros HL EA HP H. destruct (suite_lens l _ HL) as (_ & S2 & S3 & S4 & _). unfold msg3_gen in H. rewrite EA in H.
  apply bind_ok in H as (a' & E2 & H). unfold msg3_only_gen, rc_th4 in *. rewrite EA.
  destruct (msg3_message cr cf i st si a' (lenN m2)) as [[pt m]|?|?] eqn:EM.
  2:{ injection H as -> _ <-. split; [exact E2|]. discriminate. }
  2:{ discriminate. }
  destruct (th34_calculate cr cf (a2_th3 a') pt (i_cred i)) as [th4|?|?] eqn:ET; cbn [bind] in H.
  2:{ injection H as -> _ <-. split; [exact E2|]. discriminate. }
  2:{ discriminate. }
  destruct (edhoc_kdf cr cf (a2_prk_4e3m a') PRK_out th4 prk_len) as [p'|?|?] eqn:EK.
  2:{ injection H as -> _ <-. split; [exact E2|]. discriminate. }
  2:{ discriminate. }
  injection H as -> -> <-. split; [exact E2|]. intros p Q. injection Q as <-.
  rewrite EM. unfold msg3_message in EM. cbv zeta in EM. apply bind_ok in EM as ([] & _ & EM). apply bind_ok in EM as ([] & _ & EM).
  apply bind_ok in EM as (sg & EG & EM). apply bind_ok in EM as ([pt' ct] & EC & EM). apply bind_ok in EM as (m' & EB & EM).
  injection EM as -> ->. unfold ciphertext3_gen in EC. apply bind_ok in EC as (pt' & EPT & EC). apply bind_ok in EC as ([] & _ & EC).
  apply bind_ok in EC as ([key iv] & EKV & EC). apply bind_ok in EC as (aad & EAD & EC). apply aad_ok in EAD as ->. cbv zeta in EC.
  destruct (_ <? _) in EC; [discriminate|]. apply bind_ok in EC as (c & EC & Q). injection Q as -> ->. apply ext_ok in EC.
  unfold key_gen_3 in EKV. apply bind_ok in EKV as (k & EK3 & EKV). apply bind_ok in EKV as (iv' & EI3 & EKV). injection EKV as -> ->.
  rewrite S2 in EK3. rewrite S3 in EI3. apply kdf_ok in EK3 as [-> _]; [|exact (ok_hmac_len cr K)|lia].
  apply kdf_ok in EI3 as [-> _]; [|exact (ok_hmac_len cr K)|lia]. rewrite S4 in EC.
  exists pt, ct. split; [exact EC|]. split; [apply encode_bstr_ok in EB as [-> _]; now rewrite cbor_bytes|].
  split; [eapply made_gen; eassumption|]. cbn [bind]. rewrite ET. apply th34_ok in ET as ->. split; [reflexivity|].
  apply kdf_ok in EK as [-> LK]; [|exact (ok_hmac_len cr K)|lia]. split; [reflexivity|exact LK].
Qed.
(** what the responder learned from message_3 *)
Lemma msg3_full_sound l r rc m3 creds prk_len ead3 pk prk p4 t4 v :
  get_suite l = Ok (rr_suite rc) -> prk_len <= 8128 ->
  msg3_process_full cr cf pf r rc m3 creds prk_len = Ok (ead3, pk, prk, (p4, t4)) ->
  v_prk_3e2m v = rr_prk_3e2m rc -> cr_hash cr (v_th3_input cr v) = rr_th3 rc ->
  exists pt s f, ead3 = sp_ead s /\ pk = f_pk f /\
    let w := {| v_m1 := v_m1 v; v_g_y := v_g_y v; v_pt2 := v_pt2 v; v_cred_r := v_cred_r v; v_prk_3e2m := v_prk_3e2m v;
                v_pt3 := pt; v_cred_i := f_cred f; v_prk_4e3m := p4 |} in
    verified_message_3 cr cf pf r creds (rr_suite rc) (rr_static_i rc) m3 s f w /\
    t4 = cr_hash cr (v_th4_input cr w) /\ prk = v_prk_out cr w prk_len /\ lenN prk = prk_len.
Proof.
  intros HL HP H V3 VT. pose proof (suite_lens l _ HL) as (S1 & S2 & S3 & S4 & S5). unfold msg3_process_full in H. cbv zeta in H.
  apply bind_ok in H as ([] & _ & H). apply bind_ok in H as (ct & E1 & H).
  unfold decode_bstr in E1. apply bind_ok in E1 as ([b' rest] & E1 & E3). apply bind_ok in E3 as ([] & _ & E3).
  injection E3 as ->. apply ext_ok in E1. apply bind_ok in H as ([] & _ & H).
  apply bind_ok in H as ([pt s] & ES & H).
  unfold ciphertext3_decrypt_split in ES. apply bind_ok in ES as ([] & _ & ES). apply bind_ok in ES as ([key iv] & EG & ES).
  apply bind_ok in ES as (aad & EA & ES). cbv zeta in ES. destruct (_ <? _) in ES; [discriminate|].
  apply bind_ok in ES as (pt' & ED & ES). apply bind_ok in ES as (s' & ES & EP). injection EP as -> ->. apply ext_ok in ED.
  pose proof (split3_sig _ _ _ _ ES) as LS. apply aad_ok in EA as ->.
  unfold key_gen_3 in EG. apply bind_ok in EG as (k & EK3 & EG). apply bind_ok in EG as (iv' & EI3 & EG). injection EG as -> ->.
  apply bind_ok in H as (f & EF & H). cbv zeta in H.
  apply bind_ok in H as (p4' & EK & H). apply bind_ok in H as ([] & EV & H).
  apply bind_ok in H as (th4 & ET & H). apply th34_ok in ET as ->. apply bind_ok in H as (pk' & EO & H).
  apply kdf_ok in EO as [-> LO]; [|exact (ok_hmac_len cr K)|lia]. injection H as <- <- <- <- <-.
  destruct (sp_id_cred s) as [id|] eqn:EID; [|discriminate]. cbn in EV.
  exists pt, s, f. split; [reflexivity|]. split; [reflexivity|]. cbv zeta.
  assert (KL : get_aead_key_len (edhoc_aead (rr_suite rc)) = 16) by (destruct (edhoc_aead (rr_suite rc)); reflexivity).
  assert (IL : get_aead_iv_len (edhoc_aead (rr_suite rc)) = 13) by (destruct (edhoc_aead (rr_suite rc)); reflexivity).
  assert (TL : get_aead_mac_len (edhoc_aead (rr_suite rc)) = edhoc_mac_len_static_dh (rr_suite rc)).
  { clear - HL. unfold get_suite in HL. destruct l as [|[[p|p|]|[p|p|]|]]; try discriminate; injection HL as <-; reflexivity. }
  rewrite KL in EK3. rewrite IL in EI3. apply kdf_ok in EK3 as [-> _]; [|exact (ok_hmac_len cr K)|lia].
  apply kdf_ok in EI3 as [-> _]; [|exact (ok_hmac_len cr K)|lia]. rewrite TL in ED.
  unfold v_prk_out, v_th4_input, verified_message_3.
  match goal with |- context [cr_hash cr (v_th3_input cr ?w)] => change (v_th3_input cr w) with (v_th3_input cr v) end.
  cbn [v_m1 v_g_y v_pt2 v_cred_r v_prk_3e2m v_pt3 v_cred_i v_prk_4e3m]. rewrite V3, VT. split.
  - split; [reflexivity|]. cbv zeta. eexists ct, rest, id, _. split; [exact E1|]. split; [exact ED|]. split; [exact ES|].
    split; [exact EID|]. split; [exact EF|]. split; [apply prk_inv in EK; exact EK|now apply (verify_inv l)].
  - split; [reflexivity|]. split; [reflexivity|exact LO].
Qed.

Lemma msg3_sound l r rc m3 creds prk_len ead3 pk prk v :
  get_suite l = Ok (rr_suite rc) -> prk_len <= 8128 ->
  msg3_process cr cf pf r rc m3 creds prk_len = Ok (ead3, pk, prk) ->
  v_prk_3e2m v = rr_prk_3e2m rc -> cr_hash cr (v_th3_input cr v) = rr_th3 rc ->
  exists pt s f p4, ead3 = sp_ead s /\ pk = f_pk f /\
    let w := {| v_m1 := v_m1 v; v_g_y := v_g_y v; v_pt2 := v_pt2 v; v_cred_r := v_cred_r v; v_prk_3e2m := v_prk_3e2m v;
                v_pt3 := pt; v_cred_i := f_cred f; v_prk_4e3m := p4 |} in
    verified_message_3 cr cf pf r creds (rr_suite rc) (rr_static_i rc) m3 s f w /\
    prk = v_prk_out cr w prk_len /\ lenN prk = prk_len.
Proof.
  intros HL HP H V3 VT. unfold msg3_process in H. apply bind_ok in H as ([[[e k] o] [p4 t4]] & E & H). injection H as -> -> ->.
  destruct (msg3_full_sound l _ _ _ _ _ _ _ _ _ _ v HL HP E V3 VT) as (pt & s & f & Q1 & Q2 & Q3 & Q4 & Q5 & Q6).
  exists pt, s, f, p4. auto 10.
Qed.

Lemma method_inv me : me <= 3 -> exists si sr, authentication_type_get me (false, false) = (si, sr) /\ method_static me si sr.
Proof.
  intros H. assert (C : me = 0 \/ me = 1 \/ me = 2 \/ me = 3) by lia.
  destruct C as [->|[->|[->| ->]]]; eexists _, _; (split; [reflexivity|reflexivity]).
Qed.
Lemma msg1_parse_method m cap me su g_x c_i ead : msg1_parse cf m cap = Ok (me, su, g_x, c_i, ead) -> me <= 3.
Proof.
  unfold msg1_parse. intros H. apply bind_ok in H as (x & _ & H). destruct (_ || _)%bool eqn:E in H; [discriminate|].
  apply bind_ok in H as (a & _ & H). apply bind_ok in H as (b & _ & H). apply bind_ok in H as (c & _ & H).
  apply bind_ok in H as (d & _ & H). injection H as <- _ _ _ _. apply Bool.orb_false_iff in E as [E1 E2].
  apply Z.ltb_ge in E1, E2. lia.
Qed.
(** what the responder put into message_2 *)
Lemma msg2_gen_sound_len r m1 cap c_i rc :
  msg2_gen cr cf r m1 cap = Ok (c_i, rc) ->
  exists me su g_x ead sr pt2, msg1_parse cf m1 cap = Ok (me, su, g_x, c_i, ead) /\
    method_static me (rr_static_i rc) sr /\ get_suite (last su 0) = Ok (rr_suite rc) /\
    lenN (rr_prk_3e2m rc) = 32 /\
    pt_made (Some (r_c_r r)) (rr_suite rc) sr (r_sk r) (r_pk r) (rr_prk_3e2m rc) (r_c_r r)
      (rfc_th2 (cr_hash cr) (r_g_y r) m1) (r_id_cred r) (r_cred r) (r_ead_2 r) L_MAC_2 pt2 /\
    rr_th3 rc = rfc_th34 (cr_hash cr) (rfc_th2 (cr_hash cr) (r_g_y r) m1) pt2 (r_cred r) /\
    lenN pt2 <= CIPHERTEXT2_SIZE cf /\
    forall pt3 cred_i p4, made_message_2 cr r (rr_suite rc) sr g_x m1 (rr_msg rc)
      {| v_m1 := m1; v_g_y := r_g_y r; v_pt2 := pt2; v_cred_r := r_cred r; v_prk_3e2m := rr_prk_3e2m rc; v_pt3 := pt3;
         v_cred_i := cred_i; v_prk_4e3m := p4 |}.
Proof.
  unfold msg2_gen. intros H. apply bind_ok in H as ([[[[me su] g_x] ci] ead] & EP & H).
  destruct (negb _); [discriminate|]. apply bind_ok in H as (st & ES & H).
  destruct (method_inv me (msg1_parse_method _ _ _ _ _ _ _ EP)) as (si & sr & EM & MS). rewrite EM in H.
  apply bind_ok in H as (th2 & ET & H). apply th2_ok in ET. apply bind_ok in H as (gxy & EX & H). cbv zeta in H.
  apply bind_ok in H as (p3 & EK & H). apply bind_ok in H as (sg & EG & H). apply bind_ok in H as ([] & _ & H).
  apply bind_ok in H as ([pt ct] & EC & H). apply bind_ok in H as (m2 & E2 & H). apply bind_ok in H as (th3 & E3 & H).
  apply th34_ok in E3 as ->. injection H as -> <-. cbn [rr_static_i rr_suite rr_msg rr_th3 rr_prk_3e2m].
  unfold msg2_encode in E2. apply bind_ok in E2 as ([] & _ & E2). apply encode_bstr_ok in E2 as [-> _].
  unfold ciphertext2_gen in EC. apply bind_ok in EC as (p & EPT & EC). apply bind_ok in EC as ([] & EB & EC). apply new_ok in EB.
  apply bind_ok in EC as (key & EKS & EC). destruct (_ <? _) in EC; [discriminate|]. injection EC as -> <-.
  assert (TN : th2 <> []) by (intros Q; apply (f_equal lenN) in ET; rewrite Q, (ok_hash_len cr K) in ET; discriminate).
  rewrite extract_rfc in EK, EKS by exact TN. apply prk_inv in EK. apply ssd_inv in EX.
  exists me, su, g_x, ead, sr, pt. do 3 (split; [assumption|]).
  split; [eapply prk_len_after; [|exact EK]; apply (ok_hmac_len cr K)|].
  change (rfc_th2 (cr_hash cr) (r_g_y r) m1) with (cr_hash cr (rfc_th2_input (r_g_y r) (cr_hash cr m1))). rewrite <- ET.
  split; [eapply made_gen; eassumption|]. split; [reflexivity|]. split; [exact EB|]. intros pt3 cred_i p4.
  unfold made_message_2, v_th2_input. cbn [v_m1 v_g_y v_pt2 v_cred_r v_prk_3e2m v_pt3 v_cred_i v_prk_4e3m]. rewrite <- ET.
  do 3 (split; [reflexivity|]). exists gxy. split; [exact EX|]. cbv zeta. split; [|exact EK].
  eexists. split; [rewrite cbor_bytes; reflexivity|]. intros LP. rewrite rfc_xor_eq. f_equal. unfold key_gen_2 in EKS.
  apply kdf_ok in EKS as [-> _]; [reflexivity|exact (ok_hmac_len cr K)|lia].
Qed.
Lemma msg2_gen_sound r m1 cap c_i rc :
  msg2_gen cr cf r m1 cap = Ok (c_i, rc) ->
  exists me su g_x ead sr pt2, msg1_parse cf m1 cap = Ok (me, su, g_x, c_i, ead) /\
    method_static me (rr_static_i rc) sr /\ get_suite (last su 0) = Ok (rr_suite rc) /\
    lenN (rr_prk_3e2m rc) = 32 /\
    pt_made (Some (r_c_r r)) (rr_suite rc) sr (r_sk r) (r_pk r) (rr_prk_3e2m rc) (r_c_r r)
      (rfc_th2 (cr_hash cr) (r_g_y r) m1) (r_id_cred r) (r_cred r) (r_ead_2 r) L_MAC_2 pt2 /\
    rr_th3 rc = rfc_th34 (cr_hash cr) (rfc_th2 (cr_hash cr) (r_g_y r) m1) pt2 (r_cred r) /\
    forall pt3 cred_i p4, made_message_2 cr r (rr_suite rc) sr g_x m1 (rr_msg rc)
      {| v_m1 := m1; v_g_y := r_g_y r; v_pt2 := pt2; v_cred_r := r_cred r; v_prk_3e2m := rr_prk_3e2m rc; v_pt3 := pt3;
         v_cred_i := cred_i; v_prk_4e3m := p4 |}.
Proof.
  intros H. destruct (msg2_gen_sound_len _ _ _ _ _ H) as (me & su & g_x & ead & sr & pt2 & H1 & H2 & H3 & H4 & H5 & H6 & _ & H7).
  exists me, su, g_x, ead, sr, pt2. auto 10.
Qed.
End Sound.
