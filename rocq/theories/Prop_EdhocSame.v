(** C52: equal keys mean the same session, whatever the network did. C53: a peer that
    authenticates with a signature took part in the session. *)
From Verif Require Import Base Proof_Base Model_Common Model_Cbor Proof_Cbor Proof_CborStable Model_Crypto
  Spec_CborTree Proof_CborTree Spec_Hkdf Spec_Edhoc Spec_EdhocRun Spec_EdhocView Model_EdhocCfg Model_EdhocCbor Model_EdhocKeys
  Proof_EdhocBase Model_EdhocCert Model_EdhocMsg Model_EdhocRun Proof_EdhocMsg1 Proof_EdhocMsg Prop_EdhocMsg1 Proof_EdhocSound Proof_EdhocSame
  Model_Toy Proof_Toy Model_ToyEdhoc Prop_EdhocRun.

(** An initiator and a responder run with arbitrary callbacks (the network is the
    attacker), return ok and have the same PRK_out of at least 32 bytes. Then the
    responder received exactly the message_1 that the initiator sent (so they agree
    on method, suites, G_X, C_I and EAD_1), the initiator received the responder's
    G_Y and C_R, each of them looked up the other one's identifier, and the
    credentials found are the ends of what the owners have. Otherwise a collision of
    the hash function or of HMAC can be read off the two runs. *)
Theorem C52_same_key_same_session :
  forall (cr : crypto) (cf cf' : cfg) (pf pf' : platform) (i : initiator) (r : responder)
    (creds_r creds_i : list other_party_cred) (n n' ci_cap : N) (pk_cap : option N) (ei er : env) (id_i id_r : cred_id) (k : bytes),
  crypto_ok cr -> 32 <= n <= 8128 -> 32 <= n' <= 8128 ->
  i_id_cred i = rfc_id_cred id_i -> id_range id_i -> r_id_cred r = rfc_id_cred id_r -> id_range id_r ->
  lenN (r_c_r r) < 2 ^ 64 -> lenN (r_g_y r) < 2 ^ 64 ->
  let oi := initiator_run cr cf pf i creds_r n ei in
  let or := responder_run_extended cr cf' pf' r creds_i ci_cap pk_cap n' er in
  o_ret oi = Ok tt -> o_ret or = Ok tt -> o_prk oi = Some k -> o_prk or = Some k ->
  exists (s s' : split) (f f' : found) (v w : view),
    initiator_ran cr cf pf i creds_r n ei oi s f v /\ responder_ran cr cf' pf' r creds_i ci_cap n' er or s' f' w /\
    (views_collide cr v w n n' \/
     n = n' /\ e_rx er 1 [] = Ok (rfc_message_1 (i_method i) (i_suites i) (i_g_x i) (i_c_i i) (i_ead_1 i)) /\
     v_g_y v = r_g_y r /\ o_peer_c oi = Some (r_c_r r) /\ v_prk_4e3m v = v_prk_4e3m w /\
     sp_id_cred s = Some (r_id_cred r) /\ sp_id_cred s' = Some (i_id_cred i) /\
     ends_with (r_ead_2 r ++ r_cred r) (f_cred f) /\ ends_with (i_ead_3 i ++ i_cred i) (f_cred f')).
Proof.
  intros cr cf cf' pf pf' i r creds_r creds_i n n' ci_cap pk_cap ei er id_i id_r k K Hn Hn' II RI IR RR LC LG oi or HO HR PI PR.
  assert (OI : cid_ok id_i) by (destruct id_i; exact RI). assert (OR : cid_ok id_r) by (destruct id_r; exact RR).
  destruct (initiator_ran_ok cr cf pf K i creds_r n ei k id_i) as (s & f & v & V & KV & _ & L4 & st & si & sr & sg & _ & _ & LS & EP & _);
    try assumption; [apply Hn|].
  destruct (responder_ran_ok cr cf' pf' K r creds_i ci_cap pk_cap n' er k id_r) as (s' & f' & w & W & KW & _ & L4' & sg' & LS' & EP');
    try assumption; [apply Hn'|].
  exists s, s', f, f', v, w. split; [exact V|]. split; [exact W|].
  destruct V as (st1 & si1 & sr1 & m2 & m3 & _ & _ & ER & _ & PC & _ & (M1 & CR & V) & (CI & _) & _).
  destruct V as (ct & rest & gxy & id & _ & LG' & _ & _ & SP & SID & _).
  destruct W as (m2' & m3' & me & su & g_x & c_i & ead_1 & si2 & sr2 & st2 & e1 & ER1 & _ & _ & _ & _ & _ & _ & _ & (_ & EG & CR' & _) & (CI' & W) & _).
  destruct W as (ct' & rest' & id' & cap' & _ & _ & SP' & SID' & _).
  rewrite KV in KW. apply (views_agree cr v w n n' K) in KW; try assumption; try lia; [|rewrite EG; exact LG].
  destruct KW as [KW|(Q1 & Q2 & Q3 & Q4 & Q5 & Q6)]; [left; exact KW|]. right.
  rewrite CR, CR', EP' in Q3. rewrite CI, CI', EP in Q4.
  apply (read_2 (v_pt2 v) (f_cred f) (r_c_r r) id_r sg' (r_ead_2 r) (r_cred r) _ _ _ s OR LC LS' SP) in Q3 as (R1 & R2 & _ & R4).
  symmetry in Q4. apply (read_3 (v_pt3 w) (f_cred f') id_i sg (i_ead_3 i) (i_cred i) _ _ s' OI LS SP') in Q4 as (R5 & _ & R7).
  split; [exact Q6|]. split; [rewrite ER1, <- Q1, M1; reflexivity|]. split; [congruence|]. split; [rewrite <- R1; exact PC|].
  split; [exact Q5|]. split; [rewrite IR; exact R2|]. split; [rewrite II; exact R5|]. split; assumption.
Qed.
Print Assumptions C52_same_key_same_session.

(* ---------- C53 ---------- *)

(** The initiator returns ok and the responder authenticates with a signature. The
    signature is valid for a text [t] under the key of the credential that was
    looked up. If the owner of this key signed [t] in one of the [signings] (runs of
    this code in either role, in any session), then the owner was responder in this
    very session: same message_1, G_Y, C_R, PRK_3e2m, and the credential that was
    looked up, followed by EAD_2, is the owner's followed by the owner's EAD_2.
    Otherwise a collision can be read off. If the owner did not sign [t], the
    signature is a forgery. *)
Theorem C53_initiator_authenticates :
  forall (cr : crypto) (cf : cfg) (pf : platform) (i : initiator) (creds : list other_party_cred) (n : N) (e : env)
    (signings : list signing),
  crypto_ok cr -> n <= 8128 -> (forall x, In x signings -> possible cr x) ->
  let o := initiator_run cr cf pf i creds n e in
  o_ret o = Ok tt ->
  exists st m2 si sr s f v id,
    get_suite (last (i_suites i) 0) = Ok st /\ (i_method i <= 3 -> method_static (i_method i) si sr) /\
    e_rx e 2 [v_m1 v] = Ok m2 /\ o_peer_c o = Some (sp_c_r s) /\ o_eads o = [sp_ead s] /\
    verified_message_2 cr cf pf i creds st si sr m2 s f v /\ sp_id_cred s = Some id /\
    (sr = false ->
     let t := to_sign cr (v_prk_3e2m v) (sp_c_r s) (cr_hash cr (v_th2_input cr v)) id (f_cred f) (sp_ead s) L_MAC_2 in
     cr_verify cr (sign_sel (edhoc_sign st)) (f_pk f) t (sp_sig s) = Some true /\
     forall x, In x signings -> s_text cr x = t ->
       signing_collides cr v (v_th2_input cr v) (v_prk_3e2m v) (sp_c_r s) id (f_cred f) (sp_ead s) L_MAC_2 x \/
       exists r, x = AsResponder r (v_m1 v) (v_prk_3e2m v) /\ r_g_y r = v_g_y v /\ r_c_r r = sp_c_r s /\ r_id_cred r = id /\
         r_cred r ++ r_ead_2 r = f_cred f ++ sp_ead s).
Proof.
  intros cr cf pf i creds n e signings K Hn HP o HO.
  destruct (C38_initiator_ok_partial cr cf pf i creds (C_R_SIZE cf) n e K Hn HO) as (st & m2 & m3 & si & sr & s & f & v & GS & MS & ER & _ & PC & PE & V & _).
  pose proof V as V'. destruct V' as (M1 & CR & ct & rest & gxy & id & _ & LG & _ & _ & SP & SID & _ & P3 & VO & _).
  rewrite <- M1 in ER. exists st, m2, si, sr, s, f, v, id. do 7 (split; [assumption|]). intros ->. cbv zeta.
  split; [exact VO|]. intros x Hx ET.
  assert (L3 : lenN (v_prk_3e2m v) = 32) by (eapply prk_len_after; [exact K| |exact P3]; apply (ok_hmac_len cr K)).
  pose proof (HP x Hx) as Px. symmetry in ET.
  apply (signing_match cr _ _ _ _ _ _ _ x K Px L3) in ET; [|apply N.ltb_lt; reflexivity].
  destruct ET as (EI & EC & [TC|ET] & [MC|(EP & EL & ECR)]); try (left; unfold signing_collides; tauto).
  destruct x as [r m1 prk|i' m1 g_y pt2 cred_r prk]; cbn [s_id s_cred s_ead s_th_input s_prk s_label s_c] in *.
  - unfold v_th2_input, rfc_th2_input in ET. rewrite !cbor_seq_cons, !cbor_bytes in ET. destruct Px as (_ & _ & _ & LG').
    assert (HL : forall m, lenN (cr_hash cr m) < 2 ^ 64) by (intros; rewrite (ok_hash_len cr K); lia).
    apply enc_bstr_inj in ET as [EG ET]; [|lia|exact LG']. apply enc_bstr_inj in ET as [EH _]; [|apply HL|apply HL].
    destruct (bytes_dec (v_m1 v) m1) as [EM|NM].
    + right. exists r. rewrite EM, EP. auto.
    + left. unfold signing_collides. right. right. split; assumption.
  - discriminate EL.
Qed.
Print Assumptions C53_initiator_authenticates.

(** The same for a responder that returns ok and an initiator that authenticates with
    a signature: the owner of the key was initiator in this session, with the same
    message_1, G_Y and PRK_4e3m, and had read this responder's C_R and identifier
    from message_2. *)
Theorem C53_responder_authenticates :
  forall (cr : crypto) (cf : cfg) (pf : platform) (r : responder) (creds : list other_party_cred) (ci_cap : N)
    (pk_cap : option N) (n : N) (e : env) (id_r : cred_id) (signings : list signing),
  crypto_ok cr -> n <= 8128 -> r_id_cred r = rfc_id_cred id_r -> id_range id_r ->
  lenN (r_g_y r) < 2 ^ 64 -> lenN (r_c_r r) < 2 ^ 64 ->
  (forall x, In x signings -> possible cr x) ->
  let o := responder_run_extended cr cf pf r creds ci_cap pk_cap n e in
  o_ret o = Ok tt ->
  exists m2 m3 me su g_x c_i ead_1 si sr st s f v id,
    e_rx e 1 [] = Ok (v_m1 v) /\ e_rx e 3 [m2] = Ok m3 /\ o_sent o = [m2] /\
    msg1_parse cf (v_m1 v) ci_cap = Ok (me, su, g_x, c_i, ead_1) /\ method_static me si sr /\ get_suite (last su 0) = Ok st /\
    made_message_2 cr r st sr g_x (v_m1 v) m2 v /\ verified_message_3 cr cf pf r creds st si m3 s f v /\ sp_id_cred s = Some id /\
    (si = false ->
     let t := to_sign cr (v_prk_4e3m v) [] (cr_hash cr (v_th3_input cr v)) id (f_cred f) (sp_ead s) L_MAC_3 in
     cr_verify cr (sign_sel (edhoc_sign st)) (f_pk f) t (sp_sig s) = Some true /\
     forall x, In x signings -> s_text cr x = t ->
       signing_collides cr v (v_th3_input cr v) (v_prk_4e3m v) [] id (f_cred f) (sp_ead s) L_MAC_3 x \/
       exists i pt2 cred_r, x = AsInitiator i (v_m1 v) (r_g_y r) pt2 cred_r (v_prk_4e3m v) /\ i_id_cred i = id /\
         i_cred i ++ i_ead_3 i = f_cred f ++ sp_ead s /\
         (forall a b c s2, plaintext2_split pt2 a b c = Ok s2 ->
            sp_c_r s2 = r_c_r r /\ sp_id_cred s2 = Some (r_id_cred r) /\ ends_with (r_ead_2 r ++ r_cred r) cred_r)).
Proof.
  intros cr cf pf r creds ci_cap pk_cap n e id_r signings K Hn IR RR LG LC HP o HO.
  assert (OR : cid_ok id_r) by (destruct id_r; exact RR).
  assert (PO : exists k, o_prk o = Some k).
  { destruct (C38_responder_ok cr cf pf r creds ci_cap pk_cap n e K Hn HO)
      as (? & ? & ? & ? & ? & ? & ? & ? & ? & ? & ? & ? & ? & ? & ? & _ & _ & _ & _ & _ & _ & _ & _ & _ & _ & Q & _).
    eexists. exact Q. }
  destruct PO as (k & PO).
  destruct (responder_ran_ok cr cf pf K r creds ci_cap pk_cap n e k id_r Hn IR OR HO PO) as (s & f & v & W & _ & L3 & L4 & sg & LS & EP2).
  destruct W as (m2 & m3 & me & su & g_x & c_i & ead_1 & si & sr & st & e1 & ER1 & ER3 & ES & _ & _ & MP & MS & GS & MM & VM & _).
  pose proof MM as (_ & EG & ECR & _). pose proof VM as (_ & ct & rest & id & cap & _ & _ & SP & SID & _ & _ & VO).
  exists m2, m3, me, su, g_x, c_i, ead_1, si, sr, st, s, f, v, id. do 9 (split; [assumption|]). intros ->. cbv zeta.
  split; [exact VO|]. intros x Hx ET. pose proof (HP x Hx) as Px. symmetry in ET.
  apply (signing_match cr _ _ _ _ _ _ _ x K Px L4) in ET; [|apply N.ltb_lt; reflexivity].
  destruct ET as (EI & EC & [TC|ET] & [MC|(EP & EL & _)]); try (left; unfold signing_collides; tauto).
  destruct x as [r' m1 prk|i m1 g_y pt2 cred_r prk]; cbn [s_id s_cred s_ead s_th_input s_prk s_label] in *; [discriminate EL|].
  destruct Px as (_ & _ & _ & LG'). cbn in LG'.
  assert (HL : forall m, lenN (cr_hash cr m) < 2 ^ 64) by (intros; rewrite (ok_hash_len cr K); lia).
  unfold v_th3_input, rfc_th34_input in ET. rewrite !cbor_bytes in ET.
  apply enc_bstr_inj in ET as [E2 ET]; [|apply HL|apply HL]. unfold rfc_th2 in E2.
  destruct (bytes_dec (v_th2_input cr v) (rfc_th2_input g_y (cr_hash cr m1))) as [EI2|N2].
  2:{ left. unfold signing_collides, hash_collision. tauto. }
  unfold v_th2_input, rfc_th2_input in EI2. rewrite !cbor_seq_cons, !cbor_bytes in EI2.
  apply enc_bstr_inj in EI2 as [EG2 EI2]; [|rewrite EG; exact LG|exact LG']. apply enc_bstr_inj in EI2 as [EH _]; [|apply HL|apply HL].
  destruct (bytes_dec (v_m1 v) m1) as [EM|NM].
  2:{ left. unfold signing_collides, hash_collision. tauto. }
  right. exists i, pt2, cred_r. rewrite EM, EP, <- EG, EG2. split; [reflexivity|]. split; [now symmetry|]. split; [now symmetry|].
  intros a b c s2 SP2. rewrite EP2, ECR in ET. symmetry in ET.
  apply (read_2 pt2 cred_r (r_c_r r) id_r sg (r_ead_2 r) (r_cred r) _ _ _ s2 OR LC LS SP2) in ET as (R1 & R2 & _ & R4).
  rewrite IR. auto.
Qed.
Print Assumptions C53_responder_authenticates.

(** What a run of the responder signs: the signature in the message_2 that it sends
    is made for such a text, with the data of this run. *)
Theorem C53_responder_signs :
  forall (cr : crypto) (cf : cfg) (pf : platform) (r : responder) (creds : list other_party_cred) (ci_cap : N)
    (pk_cap : option N) (n : N) (e : env) (id_r : cred_id) (m2 : bytes),
  crypto_ok cr -> r_id_cred r = rfc_id_cred id_r -> id_range id_r ->
  let o := responder_run_extended cr cf pf r creds ci_cap pk_cap n e in
  In m2 (o_sent o) ->
  exists m1 me su g_x c_i ead_1 si sr st v sg,
    e_rx e 1 [] = Ok m1 /\ msg1_parse cf m1 ci_cap = Ok (me, su, g_x, c_i, ead_1) /\ method_static me si sr /\
    get_suite (last su 0) = Ok st /\ made_message_2 cr r st sr g_x m1 m2 v /\
    v_pt2 v = rfc_plaintext_2 (r_c_r r) id_r sg (r_ead_2 r) /\ lenN (v_prk_3e2m v) = 32 /\
    (sr = false -> cr_sign cr (sign_sel (edhoc_sign st)) (r_sk r) (r_pk r) (s_text cr (AsResponder r m1 (v_prk_3e2m v))) = Some sg).
Proof.
  intros cr cf pf r creds ci_cap pk_cap n e id_r m2 K IR RR o HI. subst o. unfold responder_run_extended in HI.
  assert (OR : cid_ok id_r) by (destruct id_r; exact RR).
  destruct (receive cf e 1 []) as [m1|?|?] eqn:ER1; try destruct HI.
  destruct (msg2_gen cr cf r m1 ci_cap) as [[c_i rc]|?|?] eqn:E2; try destruct HI.
  destruct (e_ead e 1 (rr_ead rc)) as [?|?|?]; try destruct HI.
  assert (Q : m2 = rr_msg rc).
  { destruct (e_tx e 2 (rr_msg rc)) as [?|?|?]; [|destruct HI as [<-|[]]; reflexivity|destruct HI as [<-|[]]; reflexivity].
    destruct (receive cf e 3 [rr_msg rc]) as [m3|?|?]; [|destruct HI as [<-|[]]; reflexivity|destruct HI as [<-|[]]; reflexivity].
    destruct (msg3_process cr cf pf r rc m3 creds n) as [[[ead3 pk] prk]|?|?]; destruct HI as [<-|[]]; reflexivity. }
  subst m2. unfold receive in ER1. apply bind_ok in ER1 as (m & ER1 & EM). destruct (_ <? _) in EM; [discriminate|]. injection EM as ->.
  apply (msg2_gen_sound cr cf K) in E2.
  destruct E2 as (me & su & g_x & ead & sr & pt2 & P1 & MS & GS & L3 & (sg & cap & PT & MF) & ET3 & V).
  rewrite IR in PT. apply pt_gen_inv in PT as [-> LS]; [|exact OR].
  exists m1, me, su, g_x, c_i, ead, (rr_static_i rc), sr, (rr_suite rc). eexists. exists sg. do 4 (split; [assumption|]).
  split; [apply (V [] [] [])|]. split; [reflexivity|]. split; [exact L3|]. intros ->. exact MF.
Qed.
Print Assumptions C53_responder_signs.

(** And a run of the initiator that has a key. *)
Theorem C53_initiator_signs :
  forall (cr : crypto) (cf : cfg) (pf : platform) (i : initiator) (creds : list other_party_cred) (n : N) (e : env) (id_i : cred_id) (k : bytes),
  crypto_ok cr -> n <= 8128 -> i_id_cred i = rfc_id_cred id_i -> id_range id_i ->
  let o := initiator_run cr cf pf i creds n e in
  o_ret o = Ok tt -> o_prk o = Some k ->
  exists s f v st si sr sg, initiator_ran cr cf pf i creds n e o s f v /\
    get_suite (last (i_suites i) 0) = Ok st /\ (i_method i <= 3 -> method_static (i_method i) si sr) /\
    v_pt3 v = rfc_plaintext_3 id_i sg (i_ead_3 i) /\ lenN (v_prk_4e3m v) = 32 /\
    (si = false -> cr_sign cr (sign_sel (edhoc_sign st)) (i_sk i) (i_pk i)
       (s_text cr (AsInitiator i (v_m1 v) (v_g_y v) (v_pt2 v) (v_cred_r v) (v_prk_4e3m v))) = Some sg).
Proof.
  intros cr cf pf i creds n e id_i k K Hn II RI o HO PO.
  assert (OI : cid_ok id_i) by (destruct id_i; exact RI).
  destruct (initiator_ran_ok cr cf pf K i creds n e k id_i Hn II OI HO PO) as (s & f & v & V & _ & _ & L4 & st & si & sr & sg & GS & MS & _ & EP & MF).
  exists s, f, v, st, si, sr, sg. do 5 (split; [assumption|]). intros ->. exact MF.
Qed.
Print Assumptions C53_initiator_signs.

(** Runs that meet the hypotheses of C52: the methods 0, 2 and 3. *)
Example C52_example :
  forall m, m = 0 \/ m = 2 \/ m = 3 ->
  let i := toy_initiator m [2] [1; 2] [] in
  let r := toy_responder [2] [7; 8] in
  crypto_ok toy_crypto /\ i_id_cred i = rfc_id_cred (KidInt 5) /\ id_range (KidInt 5) /\
  r_id_cred r = rfc_id_cred (KidInt (-3)) /\ id_range (KidInt (-3)) /\
  o_ret (toy_oi default_cfg i r) = Ok tt /\ o_ret (toy_or default_cfg i r) = Ok tt /\
  exists k, o_prk (toy_oi default_cfg i r) = Some k /\ o_prk (toy_or default_cfg i r) = Some k.
Proof.
  intros m Hm i r. pose proof C37_example as C. cbv beta zeta in C. destruct C as (A0 & _ & A2 & A3).
  assert (A : match o_ret (toy_oi default_cfg i r), o_ret (toy_or default_cfg i r),
                    o_prk (toy_oi default_cfg i r), o_prk (toy_or default_cfg i r) with
              | Ok _, Ok _, Some a, Some b => beqb a b | _, _, _, _ => false end = true).
  { subst i r. destruct Hm as [->|[->| ->]]; [exact A0|exact A2|exact A3]. }
  clear A0 A2 A3.
  split; [exact toy_ok|]. split; [reflexivity|]. split; [split; reflexivity || discriminate|]. split; [reflexivity|].
  split; [split; reflexivity || discriminate|].
  destruct (o_ret (toy_oi default_cfg i r)) as [[]|?|?]; try discriminate A.
  destruct (o_ret (toy_or default_cfg i r)) as [[]|?|?]; try discriminate A.
  destruct (o_prk (toy_oi default_cfg i r)) as [a|]; try discriminate A.
  destruct (o_prk (toy_or default_cfg i r)) as [b|]; try discriminate A.
  apply beqb_eq in A. subst b. split; [reflexivity|]. split; [reflexivity|]. exists a. split; reflexivity.
Qed.

(** In the run of method 0 the signature in message_2 is one of [signings]. *)
Example C53_example :
  let i := toy_initiator 0 [2] [1; 2] [] in
  let r := toy_responder [2] [7; 8] in
  let m1 := rfc_message_1 0 [2] (i_g_x i) [1; 2] [] in
  let th2 := rfc_th2 (cr_hash toy_crypto) (r_g_y r) m1 in
  exists st g_xy sg, get_suite 2 = Ok st /\ method_static 0 false false /\
    cr_dh toy_crypto (ecdh_id (edhoc_ecdh st)) (r_y r) (i_g_x i) = Some g_xy /\
    let prk := rfc_prk_2e (cr_hmac toy_crypto) th2 g_xy in
    let x := AsResponder r m1 prk in
    let pt := rfc_plaintext_2 [7; 8] (KidInt (-3)) sg [] in
    possible toy_crypto x /\ cr_sign toy_crypto (sign_sel (edhoc_sign st)) (r_sk r) (r_pk r) (s_text toy_crypto x) = Some sg /\
    toy_m2 default_cfg i r = Ok (cbor (CBytes (r_g_y r ++ rfc_xor pt (rfc_kdf (cr_hmac toy_crypto) prk L_KEYSTREAM_2 th2 (lenN pt))))) /\
    o_ret (toy_oi default_cfg i r) = Ok tt.
Proof.
  do 3 eexists. split; [reflexivity|]. split; [reflexivity|]. split; [reflexivity|]. cbv zeta.
  split; [|split; [|split]].
  - unfold possible. repeat split; vm_compute; reflexivity.
  - vm_compute. reflexivity.
  - vm_compute. reflexivity.
  - destruct (C52_example 0) as (_ & _ & _ & _ & _ & Q & _); [left; reflexivity|exact Q].
Qed.
