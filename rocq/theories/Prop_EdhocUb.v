(** Property C58: which EDHOC messages cannot make their receiver misbehave. *)
From Verif Require Import Base Proof_Base Model_Common Model_Cbor Proof_Cbor Model_Crypto
  Spec_CborTree Proof_CborTree Spec_Hkdf Proof_Hkdf Spec_Edhoc Model_EdhocCfg Model_EdhocCbor Model_EdhocKeys
  Proof_EdhocBase Model_EdhocCert Model_EdhocMsg Model_EdhocRun Proof_EdhocMsg1 Proof_EdhocMsg Proof_EdhocRun
  Spec_EdhocRun Spec_EdhocView Proof_EdhocAgree Proof_EdhocSound Proof_EdhocSafe Spec_EdhocUb Proof_EdhocUb Model_Toy Model_ToyEdhoc
  Prop_EdhocRun Prop_EdhocAuth Spec_EdhocCred Prop_EdhocCred.

Lemma stop_ub {A} a b c d f (r : res A) : is_ub (o_ret (stop a b c d f r)) = is_ub r.
Proof. destruct r; reflexivity. Qed.
Lemma receive_quiet cf e n s : correct_callbacks cf e -> is_ub (receive cf e n s) = false.
Proof.
  intros (_ & _ & RX & SZ). unfold receive. specialize (RX n s). specialize (SZ n s). destruct (e_rx e n s) as [m|?|?]; cbn [bind]; [|reflexivity|discriminate].
  specialize (SZ m eq_refl). destruct (N.ltb_spec (MSG_MAX_SIZE cf) (lenN m)); [lia|reflexivity].
Qed.
Lemma receive_rx cf e n s m : receive cf e n s = Ok m -> e_rx e n s = Ok m.
Proof. unfold receive. intros H. apply bind_ok in H as (x & HX & H). destruct (_ <? _) in H; [discriminate|]. injection H as ->. exact HX. Qed.

(** Nothing that a responder receives makes it misbehave, unless message_1 selects an
    X25519 suite and its G_X has less than 32 bytes, or message_3 opens under the
    keys of the session and contains one of the things of Spec_EdhocUb. Missing:
    these. *)
Theorem C58_responder_partial :
  forall (cr : crypto) (cf : cfg) (pf : platform) (r : responder) (creds : list other_party_cred) (ci_cap : N)
    (pk_cap : option N) (n : N) (e : env) (id_r : cred_id),
  crypto_ok cr -> usable_cfg cf -> set_up_responder r id_r -> 0 < ci_cap -> n <= 8128 -> correct_callbacks cf e ->
  let o := responder_run_extended cr cf pf r creds ci_cap pk_cap n e in
  is_ub (o_ret o) = true ->
  exists m1 me su g_x c_i ead,
    e_rx e 1 [] = Ok m1 /\ msg1_parse cf m1 ci_cap = Ok (me, su, g_x, c_i, ead) /\
    ((last su 0 <= 1 /\ lenN g_x < 32) \/
     exists st si sr m2 m3 v ct rest,
       get_suite (last su 0) = Ok st /\ method_static me si sr /\ o_sent o = [m2] /\ e_rx e 3 [m2] = Ok m3 /\
       made_message_2 cr r st sr g_x m1 m2 v /\ dec_bstr m3 = Some (ct, rest) /\
       let th3 := cr_hash cr (v_th3_input cr v) in
       cr_aead_dec cr (rfc_kdf (cr_hmac cr) (v_prk_3e2m v) L_K_3 th3 16) (rfc_kdf (cr_hmac cr) (v_prk_3e2m v) L_IV_3 th3 13)
         (rfc_aad th3) (edhoc_mac_len_static_dh st) ct = Some (v_pt3 v) /\
       harmful_3 cr cf pf r creds st si (v_prk_3e2m v) th3 (v_pt3 v)).
Proof.
  intros cr cf pf r creds ci_cap pk_cap n e id_r K UC SR HC HN CB o H. subst o. unfold responder_run_extended in *.
  pose proof (receive_quiet cf e 1 [] CB) as Q1.
  destruct (receive cf e 1 []) as [m1|?|?] eqn:ER1; [|discriminate H|discriminate Q1]. apply receive_rx in ER1.
  destruct (msg2_gen cr cf r m1 ci_cap) as [[c_i rc]|?|u] eqn:E2; [|discriminate H|].
  2:{ destruct (msg2_gen_ub cr cf K r id_r m1 ci_cap u UC SR HC E2) as (me & su & g_x & c & ead & P & A & B).
      exists m1, me, su, g_x, c, ead. auto. }
  destruct (e_ead e 1 (rr_ead rc)) as [?|?|?] eqn:E; [|discriminate H|exfalso; destruct CB as (_ & C & _); specialize (C 1 (rr_ead rc)); now rewrite E in C]. clear E.
  destruct (e_tx e 2 (rr_msg rc)) as [?|?|?] eqn:E; [|discriminate H|exfalso; destruct CB as (C & _); specialize (C 2 (rr_msg rc)); now rewrite E in C]. clear E.
  pose proof (receive_quiet cf e 3 [rr_msg rc] CB) as Q3.
  destruct (receive cf e 3 [rr_msg rc]) as [m3|?|?] eqn:ER3; [|discriminate H|discriminate Q3]. apply receive_rx in ER3.
  destruct (msg3_process cr cf pf r rc m3 creds n) as [[[ead3 ipk] prk]|?|u] eqn:E3; [|discriminate H|].
  { exfalso. rewrite stop_ub in H. destruct CB as (_ & C & _). now rewrite C in H. }
  cbn [stop o_sent]. apply (msg2_gen_sound cr cf K) in E2.
  destruct E2 as (me & su & g_x & ead & sr & pt2 & P & MS & GS & L3 & _ & ET & V).
  exists m1, me, su, g_x, c_i, ead. split; [exact ER1|]. split; [exact P|]. right.
  apply (msg3_ub cr cf pf K (last su 0)) in E3; try assumption.
  2:{ apply UC. }
  2:{ apply SR. }
  2:{ rewrite ET. apply (ok_hash_len cr K). }
  destruct E3 as (ct & rest & pt & DB & DEC & HH).
  exists (rr_suite rc), (rr_static_i rc), sr, (rr_msg rc), m3.
  exists {| v_m1 := m1; v_g_y := r_g_y r; v_pt2 := pt2; v_cred_r := r_cred r; v_prk_3e2m := rr_prk_3e2m rc; v_pt3 := pt;
            v_cred_i := []; v_prk_4e3m := [] |}, ct, rest.
  do 4 (split; [first [assumption|reflexivity]|]). split; [apply V|]. split; [exact DB|]. cbv zeta.
  match goal with |- context [cr_hash cr (v_th3_input cr ?w)] => change (cr_hash cr (v_th3_input cr w)) with
    (rfc_th34 (cr_hash cr) (rfc_th2 (cr_hash cr) (r_g_y r) m1) pt2 (r_cred r)) end.
  rewrite <- ET. cbn [v_prk_3e2m v_pt3]. split; [exact DEC|exact HH].
Qed.
Print Assumptions C58_responder_partial.

(** The same for an initiator and message_2, with a c_r_bytes of any capacity. *)
Theorem C58_initiator_partial :
  forall (cr : crypto) (cf : cfg) (pf : platform) (i : initiator) (creds : list other_party_cred) (c_cap n : N) (e : env) (id_i : cred_id),
  crypto_ok cr -> usable_cfg cf -> set_up_initiator i id_i -> n <= 8128 -> correct_callbacks cf e ->
  is_ub (o_ret (initiator_run_extended cr cf pf i creds c_cap n e)) = true ->
  let m1 := rfc_message_1 (i_method i) (i_suites i) (i_g_x i) (i_c_i i) (i_ead_1 i) in
  exists st si sr m2 g_y ct rest g_xy,
    get_suite (last (i_suites i) 0) = Ok st /\ (i_method i <= 3 -> method_static (i_method i) si sr) /\
    e_rx e 2 [m1] = Ok m2 /\ dec_bstr m2 = Some (g_y ++ ct, rest) /\ lenN g_y = 32 /\
    cr_dh cr (ecdh_id (edhoc_ecdh st)) (key_bytes (edhoc_ecdh st) (i_x i)) g_y = Some g_xy /\
    let th2 := rfc_th2 (cr_hash cr) g_y m1 in
    let prk := rfc_prk_2e (cr_hmac cr) th2 g_xy in
    harmful_2 c_cap cr cf pf i creds st sr prk th2 (rfc_xor ct (rfc_kdf (cr_hmac cr) prk L_KEYSTREAM_2 th2 (lenN ct))).
Proof.
  intros cr cf pf i creds c_cap n e id_i K UC SI HN CB H m1. unfold initiator_run_extended in H.
  destruct SI as [(EI & HI) SL (KX & KI)]. assert (HCI : cid_ok id_i) by (destruct id_i; exact HI).
  destruct (msg1_gen cr cf i) as [[[m1' st] h1]|?|u] eqn:E1; [|discriminate H|].
  2:{ exfalso. unfold msg1_gen in E1. apply bind_ub in E1 as [E1|(x & _ & E1)].
      - unfold msg1_struct in E1. apply bind_ub in E1 as [E1|(su & _ & E1)].
        + destruct (i_suites i) as [|a [|b l]]; [change (lenN (@nil N)) with 0 in SL; lia|discriminate|].
          destruct (N.ltb_spec 10 (lenN (a :: b :: l))); [lia|discriminate].
        + apply bind_ub in E1 as [E1|(c & _ & E1)]; [|discriminate]. destruct (c_x_is_encoded_int _); [|discriminate].
          apply bind_ub in E1 as [E1|(z & _ & E1)]; [|discriminate]. unfold decode_int in E1.
          apply bind_ub in E1 as [E1|([z q] & _ & E1)]; [now apply no_ub_ext in E1|]. destruct (_ =? _) in E1; discriminate.
      - apply bind_ub in E1 as [E1|(m & _ & E1)].
        + unfold cbor_encode_message_1 in E1. apply bind_ub in E1 as [E1|(b & _ & E1)]; [now apply no_ub_ext in E1|now apply no_ub_put in E1].
        + apply bind_ub in E1 as [E1|(s & _ & E1)]; [|discriminate].
          unfold get_suite in E1. destruct (last (i_suites i) 0) as [|[[p|p|]|[p|p|]|]]; discriminate. }
  apply msg1_gen_ok in E1 as (_ & -> & GS & -> & _). fold m1 in H.
  destruct (e_tx e 1 m1) as [?|?|?] eqn:E; [|discriminate H|exfalso; destruct CB as (C & _); specialize (C 1 m1); now rewrite E in C]. clear E.
  pose proof (receive_quiet cf e 2 [m1] CB) as Q2.
  destruct (receive cf e 2 [m1]) as [m2|?|?] eqn:ER; [|discriminate H|discriminate Q2]. apply receive_rx in ER.
  destruct (msg3_gen cr cf pf i st (cr_hash cr m1) m2 creds c_cap n) as [[[am m3] prk]|?|u] eqn:E3; [|discriminate H|].
  { exfalso. destruct CB as (C1 & C2 & _). specialize (C2 2 (a2_ead am)). destruct (e_ead e 2 (a2_ead am)); [|discriminate H|discriminate C2].
    rewrite stop_ub in H. now rewrite C1 in H. }
  unfold msg3_gen in E3. destruct (authentication_type_get (i_method i) (false, false)) as [si sr] eqn:EA.
  apply bind_ub in E3 as [E3|(a2 & E2 & E3)].
  2:{ exfalso. assert (T : lenN (a2_th3 a2) = 32).
      { apply (msg2_sound_into cr cf pf K c_cap (last (i_suites i) 0)) in E2; [|exact GS].
        destruct E2 as (g_y & pt & s & f & _ & _ & ET & _). rewrite ET. apply (ok_hash_len cr K). }
      pose proof (msg3_only_gen_total cr cf K i (last (i_suites i) 0) st si a2 m2 n id_i GS EI HCI T HN) as Q.
      destruct (msg3_only_gen cr cf i st si a2 m2 n) as [m [p|?|u']]; [discriminate E3|discriminate E3|]. now apply (Q u'). }
  apply (msg2_ub cr cf pf K (last (i_suites i) 0)) in E3; try assumption.
  destruct E3 as (g_y & ct & rest & g_xy & DB & LG & DH & HH).
  exists st, si, sr, m2, g_y, ct, rest, g_xy. split; [exact GS|].
  split; [intros HM; destruct (method_inv _ HM) as (si' & sr' & EA' & MS); rewrite EA in EA'; injection EA' as -> ->; exact MS|].
  do 4 (split; [assumption|]). exact HH.
Qed.
Print Assumptions C58_initiator_partial.

(* ---------- the exceptions ---------- *)

(** message_1: for every party and every cryptography, a message_1 that selects an
    X25519 suite, with a G_X of less than 32 bytes, makes
    the responder compute with bytes that were never written. *)
Theorem C58_short_key_refuted :
  forall (cr : crypto) (cf : cfg) (pf : platform) (r : responder) (creds : list other_party_cred) (ci_cap : N) (pk_cap : option N)
    (n : N) (e : env) (me : N) (su g_x c_i ead : bytes),
  crypto_ok cr -> 32 <= lenN (r_y r) -> lenN (r_g_y r) = 32 ->
  me <= 3 -> is_bytes su -> 1 <= lenN su <= 10 -> lenN su <= SUITES_I_SIZE cf ->
  lenN c_i <= ci_cap -> lenN c_i < 2 ^ 64 -> lenN ead <= EAD_SIZE cf -> lenN ead < 2 ^ 64 ->
  r_suites r <> [] -> last su 0 <= 1 -> lenN g_x < 32 ->
  e_rx e 1 [] = Ok (rfc_message_1 me su g_x c_i ead) -> lenN (rfc_message_1 me su g_x c_i ead) <= MSG_MAX_SIZE cf ->
  o_ret (responder_run_extended cr cf pf r creds ci_cap pk_cap n e) = UB Uninit.
Proof.
  intros cr cf pf r creds ci_cap pk_cap n e me su g_x c_i ead K KY LY HM HB HS HS' HC HC' HE HE' HIN HL HG HR HSZ.
  unfold responder_run_extended, receive. rewrite HR. cbn [bind].
  destruct (N.ltb_spec (MSG_MAX_SIZE cf) (lenN (rfc_message_1 me su g_x c_i ead))); [lia|].
  unfold msg2_gen. rewrite msg1_parse_rfc by (try assumption; lia). cbn [bind].
  assert (SS : selected_suite_is_supported (last su 0) (r_suites r) = true).
  { unfold selected_suite_is_supported. destruct (r_suites r); [now destruct HIN|reflexivity]. }
  rewrite SS. cbn [negb]. destruct (method_inv _ HM) as (si & sr & EA & _). rewrite EA.
  assert (GS : exists st, get_suite (last su 0) = Ok st /\ edhoc_ecdh st = X25519).
  { assert (Q : last su 0 = 0 \/ last su 0 = 1) by lia. destruct Q as [-> | ->]; eexists; split; reflexivity. }
  destruct GS as (st & -> & EX). cbn [bind]. rewrite th2_rfc; [|apply (ok_hash_len cr K)|exact LY]. cbn [bind].
  rewrite EX. unfold shared_secret_derive. destruct (N.ltb_spec (lenN (r_y r)) 32); [lia|].
  destruct (N.ltb_spec (lenN g_x) 32); [|lia]. reflexivity.
Qed.
Print Assumptions C58_short_key_refuted.

(** message_2: a kid of more than one byte is a byte string in ID_CRED_R. Every
    message_2 with one makes the initiator use a value that was never written, before
    anything is authenticated. *)
Theorem C58_kid_string_2_refuted :
  forall (cr : crypto) (cf : cfg) (pf : platform) (i : initiator) (creds : list other_party_cred) (n : N) (e : env)
    (st : suite) (g_y g_xy c_r kid sig ead : bytes),
  crypto_ok cr -> 1 <= lenN (i_suites i) <= 10 -> get_suite (last (i_suites i) 0) = Ok st -> lenN g_y = 32 ->
  shared_secret_derive cr (edhoc_ecdh st) (i_x i) g_y = Ok g_xy ->
  lenN c_r <= C_R_SIZE cf -> lenN c_r < 2 ^ 64 -> lenN kid < 2 ^ 64 -> lenN sig < 2 ^ 64 ->
  let pt := cbor (CBytes c_r) ++ cbor (CBytes kid) ++ cbor (CBytes sig) ++ ead in
  let m1 := rfc_message_1 (i_method i) (i_suites i) (i_g_x i) (i_c_i i) (i_ead_1 i) in
  let th2 := rfc_th2 (cr_hash cr) g_y m1 in
  let m2 := cbor (CBytes (g_y ++ rfc_xor pt (rfc_kdf (cr_hmac cr) (rfc_prk_2e (cr_hmac cr) th2 g_xy) L_KEYSTREAM_2 th2 (lenN pt)))) in
  lenN pt + 1 <= CIPHERTEXT2_SIZE cf -> lenN pt <= 8128 -> lenN m1 <= MSG_MAX_SIZE cf -> lenN m2 <= MSG_MAX_SIZE cf ->
  e_tx e 1 m1 = Ok tt -> e_rx e 2 [m1] = Ok m2 ->
  o_ret (initiator_run cr cf pf i creds n e) = UB Uninit.
Proof.
  intros cr cf pf i creds n e st g_y g_xy c_r kid sig ead K HS GS LG HX HC HC' HK HSG pt m1 th2 m2 HP HP' L1 L2 HT HR.
  unfold initiator_run, initiator_run_extended. rewrite (msg1_gen_fits cr cf i st HS GS L1). fold m1. rewrite HT.
  unfold receive. rewrite HR. cbn [bind]. destruct (N.ltb_spec (MSG_MAX_SIZE cf) (lenN m2)); [lia|].
  assert (ACC : ct2_accepted cf (lenN pt)).
  { split; [exact HP'|]. rewrite ct2_array_bounds by exact HP'. destruct (_ || _); lia. }
  assert (HU : plaintext2_split pt (C_R_SIZE cf) (ID_CRED_R_SIZE cf) (EAD_SIZE cf) = UB Uninit).
  { apply split2_string; assumption. }
  unfold msg3_gen. destruct (authentication_type_get (i_method i) (false, false)) as [si sr].
  pose proof (msg2_split_ub cr cf pf K i st (cr_hash cr m1) creds si sr g_y g_xy pt Uninit (ok_hash_len cr K m1) LG HX ACC HU) as Q.
  cbv zeta in Q. change (cr_hash cr (rfc_th2_input g_y (cr_hash cr m1))) with th2 in Q. fold m2 in Q. rewrite Q. reflexivity.
Qed.
Print Assumptions C58_kid_string_2_refuted.

(** message_2 to an initiator that expects a static DH key: whoever made G_Y and names
    a responder that the initiator knows makes it compare more bytes than its MAC
    buffer has, with any field of 33 to 64 bytes. *)
Theorem C58_long_mac_refuted :
  forall (cr : crypto) (cf : cfg) (pf : platform) (i : initiator) (creds : list other_party_cred) (st : suite) (si : bool)
    (id_r : cred_id) (cred_r g_r g_y g_xy g_rx c_r field : bytes) (e : env) (n : N),
  crypto_ok cr -> small cf -> 1 <= lenN (i_suites i) <= 10 ->
  method_static (i_method i) si true -> get_suite (last (i_suites i) 0) = Ok st ->
  resolves cr pf true creds id_r (CRED_R_SIZE cf) cred_r g_r -> id_range id_r ->
  lenN (rfc_id_cred id_r) <= ID_CRED_R_SIZE cf -> lenN cred_r <= CRED_MAX_SIZE cf ->
  dh_secret cr (edhoc_ecdh st) (i_x i) g_r g_rx ->
  lenN g_y = 32 -> dh_secret cr (edhoc_ecdh st) (i_x i) g_y g_xy ->
  lenN c_r <= C_R_SIZE cf -> (forall b, c_r = [b] -> 23 < b) -> 32 < lenN field <= 64 ->
  let pt := rfc_plaintext_2 c_r id_r field [] in
  let m1 := rfc_message_1 (i_method i) (i_suites i) (i_g_x i) (i_c_i i) (i_ead_1 i) in
  let th2 := rfc_th2 (cr_hash cr) g_y m1 in
  let m2 := cbor (CBytes (g_y ++ rfc_xor pt (rfc_kdf (cr_hmac cr) (rfc_prk_2e (cr_hmac cr) th2 g_xy) L_KEYSTREAM_2 th2 (lenN pt)))) in
  lenN pt + 1 <= CIPHERTEXT2_SIZE cf -> lenN pt <= 8128 -> lenN m1 <= MSG_MAX_SIZE cf -> lenN m2 <= MSG_MAX_SIZE cf ->
  e_tx e 1 m1 = Ok tt -> e_rx e 2 [m1] = Ok m2 ->
  o_ret (initiator_run cr cf pf i creds n e) = UB OobRead.
Proof.
  intros cr cf pf i creds st si id_r cred_r g_r g_y g_xy g_rx c_r field e n K SM HS MS GS RES HR LR CL DRX LY DXY LC HC LF
    pt m1 th2 m2 P1 P2 L1 L2 HT RX.
  pose (x := {| x_m1 := m1; x_g_y := g_y; x_g_xy := g_xy; x_static_r := true; x_g_rx := g_rx; x_static_i := si; x_g_iy := [];
    x_c_r := c_r; x_ctx_c := []; x_id_r := id_r; x_cred_r := cred_r; x_sig_2 := field; x_id_i := KidInt 0; x_cred_i := [];
    x_sig_3 := []; x_mac2_len := 0; x_mac3_len := 0; x_key_len := 0; x_iv_len := 0; x_tag_len := 0 |}).
  assert (EM : m2 = x_m2 (cr_hmac cr) (cr_hash cr) x) by reflexivity.
  destruct RES as (f & RF & FC & FG). destruct (method_type _ _ _ MS) as [MT _].
  assert (RAW : c_r_is_raw_int c_r = false).
  { unfold c_r_is_raw_int. destruct c_r as [|b [|? ?]]; try reflexivity. specialize (HC b eq_refl). apply N.leb_gt. exact HC. }
  unfold initiator_run, initiator_run_extended. rewrite (msg1_gen_fits cr cf i st HS GS L1). fold m1. rewrite HT.
  rewrite (receive_here cf e 2 [m1] m2 RX L2). unfold msg3_gen. rewrite MT.
  assert (P : msg2_process cr cf pf i st (cr_hash cr m1) m2 creds (C_R_SIZE cf) si true = UB OobRead).
  { rewrite EM. change (msg2_process cr cf pf i st (cr_hash cr (x_m1 x)) (x_m2 (cr_hmac cr) (cr_hash cr) x) creds (C_R_SIZE cf)
      (x_static_i x) (x_static_r x) = UB OobRead).
    rewrite (msg2_process_upto cr cf pf K x i st creds (C_R_SIZE cf) f); try assumption;
      cbn [x x_g_y x_id_r x_g_xy x_c_r x_sig_2 x_cred_r x_static_r x_g_rx x_static_i x_g_iy].
    - unfold sig_or_mac_verify. rewrite mac_fits; try assumption.
      + cbn [bind]. change HASH_SIZE with 32. destruct (N.ltb_spec 32 (lenN field)); [reflexivity|lia].
      + exact (ok_hmac_len cr K).
      + reflexivity.
      + pose proof (mac_len_le _ st true GS). lia.
      + apply len_th2, K.
      + unfold ID_CRED_MAX_SIZE. lia.
      + change (lenN (@nil N)) with 0. lia.
      + change (lenN (@nil N)) with 0. unfold small, ID_CRED_MAX_SIZE, CRED_MAX_SIZE in *. lia.
    - now apply ssd.
    - unfold small in SM. lia.
    - lia.
    - change (x_pt2 x) with pt. split; [lia|]. rewrite ct2_array_bounds by lia. destruct (_ || _); lia.
    - intros _. apply ssd. cbn in FG. rewrite FG. exact DRX. }
  rewrite P. reflexivity.
Qed.
Print Assumptions C58_long_mac_refuted.

(** message_3: the same as for message_2 for a kid of more than one byte, in every session in which the responder
    answered. The keys that encrypt message_3 follow from G_XY (and the responder's
    static key), so anyone who sends message_1 has them. *)
Theorem C58_kid_string_3_refuted :
  forall (cr : crypto) (cf : cfg) (pf : platform) (r : responder) (creds : list other_party_cred) (ci_cap : N) (pk_cap : option N)
    (n : N) (e : env) (kid sig ead m1 : bytes) (me : N) (su g_x c_i : bytes) (ead_1 : option bytes) (m2 : bytes),
  crypto_ok cr -> lenN kid < 2 ^ 64 -> lenN sig < 2 ^ 64 ->
  (forall k m, e_ead e k m = Ok tt) -> (forall k m, e_tx e k m = Ok tt) ->
  e_rx e 1 [] = Ok m1 -> msg1_parse cf m1 ci_cap = Ok (me, su, g_x, c_i, ead_1) ->
  let pt := cbor (CBytes kid) ++ cbor (CBytes sig) ++ ead in
  lenN pt <= PLAINTEXT3_SIZE cf -> PLAINTEXT3_SIZE cf < 2 ^ 32 ->
  PLAINTEXT2_SIZE cf <= 8128 -> sends_message_3 cr cf r e m1 m2 me su g_x (fun _ => pt) ->
  let o := responder_run_extended cr cf pf r creds ci_cap pk_cap n e in
  o_sent o = [m2] -> o_ret o = UB Uninit.
Proof.
  intros cr cf pf r creds ci_cap pk_cap n e kid sig ead m1 me su g_x c_i ead_1 m2 K HK HSG EE ET HR HP pt LP P32 P8 HA o HO. subst o.
  unfold responder_run_extended in *.
  destruct (receive cf e 1 []) as [m1'|?|?] eqn:ER1; [|discriminate HO|discriminate HO].
  apply receive_rx in ER1. rewrite HR in ER1. injection ER1 as <-.
  destruct (msg2_gen cr cf r m1 ci_cap) as [[c_i' rc]|?|u] eqn:E2; [|discriminate HO|discriminate HO].
  rewrite EE, ET in *.
  apply (msg2_gen_sound_len cr cf K) in E2. destruct E2 as (me' & su' & g_x' & ead' & sr & pt2 & P & MS & GS & L3 & _ & ETH & LP2 & V).
  rewrite HP in P. injection P as <- <- <- <- <-.
  assert (EM : rr_msg rc = m2).
  { destruct (receive cf e 3 [rr_msg rc]) as [m3|?|?]; [destruct (msg3_process cr cf pf r rc m3 creds n) as [[[? ?] ?]|?|?]|..];
      cbn in HO; now injection HO. }
  set (v := {| v_m1 := m1; v_g_y := r_g_y r; v_pt2 := pt2; v_cred_r := r_cred r; v_prk_3e2m := rr_prk_3e2m rc; v_pt3 := [];
            v_cred_i := []; v_prk_4e3m := [] |}).
  specialize (HA (rr_suite rc) (rr_static_i rc) sr v GS MS). rewrite <- EM in HA. specialize (HA (V [] [] []) (N.le_trans _ _ _ LP2 P8)).
  destruct HA as (ct & R3 & L1 & L2 & EN). unfold receive. rewrite R3. cbn [bind].
  destruct (N.ltb_spec (MSG_MAX_SIZE cf) (lenN (cbor (CBytes ct)))); [lia|].
  change (cr_hash cr (v_th3_input cr v)) with (rfc_th34 (cr_hash cr) (rfc_th2 (cr_hash cr) (r_g_y r) m1) pt2 (r_cred r)) in EN.
  rewrite <- ETH in EN. cbv zeta in EN. change (v_prk_3e2m v) with (rr_prk_3e2m rc) in EN.
  pose proof (ok_aead_enc_len cr K _ _ _ _ _ _ EN) as LC. apply (ok_aead cr K) in EN.
  pose proof (suite_lens _ _ GS) as (S1 & _).
  rewrite (msg3_split_ub cr cf pf K (last su 0) r rc creds n ct pt Uninit); [reflexivity|exact GS| | |exact L2| | |exact EN|].
  - rewrite ETH. apply (ok_hash_len cr K).
  - pose proof (ct2_size_ge cf). lia.
  - lia.
  - lia.
  - apply split3_string; assumption.
Qed.
Print Assumptions C58_kid_string_3_refuted.

(** Concrete sessions. [forged_2]: what somebody with the ephemeral key 99 and
    without any credential sends in answer to message_1; PLAINTEXT_2 may depend on
    PRK_2e and TH_2. [forged_3]: what somebody without any credential sends after
    message_2. *)
Definition forged_2 (i : initiator) (pt : bytes -> bytes -> bytes) : res bytes :=
  let* st := get_suite (last (i_suites i) 0) in
  let g_y := repeat 99 32 in
  let m1 := rfc_message_1 (i_method i) (i_suites i) (i_g_x i) (i_c_i i) (i_ead_1 i) in
  let* g_xy := shared_secret_derive toy_crypto (edhoc_ecdh st) (repeat 99 32) (i_g_x i) in
  let th2 := rfc_th2 (cr_hash toy_crypto) g_y m1 in
  let prk := rfc_prk_2e (cr_hmac toy_crypto) th2 g_xy in
  let p := pt prk th2 in
  Ok (cbor (CBytes (g_y ++ rfc_xor p (rfc_kdf (cr_hmac toy_crypto) prk L_KEYSTREAM_2 th2 (lenN p))))).
Definition forged_3 (i : initiator) (r : responder) (pt : bytes) : res bytes :=
  let* m1 := toy_m1 default_cfg i in
  let* (_, rc) := msg2_gen toy_crypto default_cfg r m1 32 in
  let th3 := rr_th3 rc in let prk := rr_prk_3e2m rc in
  let* ct := ext (cr_aead_enc toy_crypto (rfc_kdf (cr_hmac toy_crypto) prk L_K_3 th3 16) (rfc_kdf (cr_hmac toy_crypto) prk L_IV_3 th3 13)
                    (rfc_aad th3) (edhoc_mac_len_static_dh (rr_suite rc)) pt) in
  Ok (cbor (CBytes ct)).
Definition toy_run_2 (i : initiator) (pt : bytes -> bytes -> bytes) : res unit :=
  o_ret (initiator_run toy_crypto default_cfg toy_pf i toy_creds_r 32 (toy_env (forged_2 i pt) (Err not_implemented))).
Definition toy_run_3 (i : initiator) (r : responder) (pt : bytes) : res unit :=
  o_ret (responder_run toy_crypto default_cfg toy_pf r toy_creds_i 32 (toy_env (toy_m1 default_cfg i) (forged_3 i r pt))).
(** the MAC_2 of the holder of the responder's static key, method 3 and suite 0 *)
Definition toy_mac_2 (prk th : bytes) : bytes :=
  match get_suite 0, shared_secret_derive toy_crypto X25519 (repeat 22 32) (repeat 11 32) with
  | Ok st, Ok dh =>
      expected_mac toy_crypto (rfc_prk_next (cr_hmac toy_crypto) true prk L_SALT_3e2m th dh) [9; 9] th toy_id_r toy_cred_r [] L_MAC_2 true st
  | _, _ => []
  end.

(** Cases of the other exceptions (Prop_EdhocBadId.v has the theorems). message_2: ID_CRED_R {35: uri}; an x5t with the algorithm
    "a"; the certificate 30; a signature of 63 bytes; C_R = 5; a MAC_2 with a further
    byte, and one of 33 bytes. message_3: the first four, and a MAC_3 of 33 bytes. *)
Example C58_content_ex :
  let i0 := toy_initiator 0 [0] [5; 5] [] in
  let i3 := toy_initiator 3 [0] [5; 5] [] in
  let r0 := toy_responder [0] [9; 9] in
  let c := cbor (CBytes [9; 9]) in
  let sig := cbor (CBytes (repeat 0 64)) in
  let x5u := cbor (CMap [(CInt 35, CBytes [1; 2])]) in
  let x5t := cbor (CMap [(CInt 34, CArr [CText [0x61]; CBytes [1; 2]])]) in
  let x5chain := cbor (CMap [(CInt 33, CBytes [0x30])]) in
  toy_run_2 i0 (fun _ _ => c ++ x5u ++ sig) = UB Uninit /\
  toy_run_2 i0 (fun _ _ => c ++ x5t ++ sig) = UB Uninit /\
  toy_run_2 i0 (fun _ _ => c ++ x5chain ++ sig) = UB OobRead /\
  toy_run_2 i0 (fun _ _ => c ++ cbor (CInt (-3)) ++ cbor (CBytes (repeat 0 63))) = UB Uninit /\
  toy_run_2 i0 (fun _ _ => cbor (CInt 5) ++ cbor (CInt (-3)) ++ sig) = UB OobRead /\
  toy_run_2 i3 (fun prk th => c ++ cbor (CInt (-3)) ++ cbor (CBytes (toy_mac_2 prk th ++ [0]))) = UB Uninit /\
  toy_run_2 i3 (fun _ _ => c ++ cbor (CInt (-3)) ++ cbor (CBytes (repeat 0 33))) = UB OobRead /\
  toy_run_3 i0 r0 (x5u ++ sig) = UB Uninit /\
  toy_run_3 i0 r0 (x5t ++ sig) = UB Uninit /\
  toy_run_3 i0 r0 (x5chain ++ sig) = UB OobRead /\
  toy_run_3 i0 r0 (cbor (CInt 5) ++ cbor (CBytes (repeat 0 63))) = UB Uninit /\
  toy_run_3 i3 r0 (cbor (CInt 5) ++ cbor (CBytes (repeat 0 33))) = UB OobRead.
Proof. vm_compute. repeat split. Qed.

(** A certificate with a key of three bytes, presented with the certificate that the CA
    once signed (see C39_unsigned_key_refuted): as signature key and as static DH
    key. *)
Example C58_short_peer_key_ex :
  let id := rfc_id_cred (X5chain (x509 (der 48 (elems ex_els)) (spki [] [1; 2; 3]) (takeN 32 ex_sig) (dropN 32 ex_sig))) in
  let run m sig := let i := toy_initiator m [0] [5; 5] [] in
    o_ret (initiator_run toy_crypto default_cfg toy_pf i [ex_ca] 32
             (toy_env (forged_2 i (fun _ _ => cbor (CBytes [9; 9]) ++ id ++ cbor (CBytes sig))) (Err not_implemented))) in
  run 0 (repeat 0 64) = UB Uninit /\ run 3 (repeat 0 8) = UB Uninit.
Proof. vm_compute. repeat split. Qed.

(** Messages without these things are only refused, or accepted. *)
Example C58_example :
  let i0 := toy_initiator 0 [0] [5; 5] [] in
  let i3 := toy_initiator 3 [0] [5; 5] [] in
  let r0 := toy_responder [0] [9; 9] in
  toy_run_2 i0 (fun _ _ => cbor (CBytes [9; 9]) ++ cbor (CInt (-3)) ++ cbor (CBytes (repeat 0 64))) = Err signature_authentication_failed /\
  toy_run_2 i3 (fun prk th => cbor (CBytes [9; 9]) ++ cbor (CInt (-3)) ++ cbor (CBytes (toy_mac_2 prk th))) = Ok tt /\
  toy_run_3 i0 r0 (cbor (CInt 5) ++ cbor (CBytes (repeat 0 64))) = Err signature_authentication_failed /\
  toy_run_3 i0 r0 [0xFF] = Err unexpected_result_from_ext_lib.
Proof. vm_compute. repeat split. Qed.
(** The hypotheses of the first two theorems hold of the toy parties, those of the
    third to fifth too. *)
Example C58_hypotheses :
  usable_cfg default_cfg /\ set_up_responder (toy_responder [0] [9; 9]) (KidInt (-3)) /\
  set_up_initiator (toy_initiator 0 [0] [5; 5] []) (KidInt 5) /\
  correct_callbacks default_cfg (toy_env (Ok [1; 2; 3]) (Ok [0xFF])).
Proof.
  split; [split; [apply N.ltb_lt; reflexivity|split; [apply N.leb_le; reflexivity|apply N.ltb_lt; reflexivity]]|].
  split; [constructor; [split; [reflexivity|cbn; lia]|intros b Q; discriminate Q|split; apply N.leb_le; reflexivity]|].
  split; [constructor; [split; [reflexivity|cbn; lia]|split; apply N.leb_le; reflexivity|split; apply N.leb_le; reflexivity]|].
  split; [reflexivity|]. split; [reflexivity|]. split.
  - intros n s. unfold toy_env. cbn [e_rx]. destruct (n =? 1), (n =? 2); reflexivity.
  - intros n s m. unfold toy_env. cbn [e_rx]. destruct (n =? 1), (n =? 2); intros [= <-]; apply N.leb_le; reflexivity.
Qed.
Example C58_short_key_example :
  o_ret (responder_run toy_crypto default_cfg toy_pf (toy_responder [0] [9; 9]) toy_creds_i 32
    (toy_env (Ok (rfc_message_1 0 [0] (repeat 7 31) [5; 5] [])) (Err not_implemented))) = UB Uninit /\
  toy_run_2 (toy_initiator 0 [0] [5; 5] []) (fun _ _ => cbor (CBytes [9; 9]) ++ cbor (CBytes [1; 2]) ++ cbor (CBytes (repeat 0 64))) = UB Uninit /\
  toy_run_3 (toy_initiator 0 [0] [5; 5] []) (toy_responder [0] [9; 9]) (cbor (CBytes [1; 2]) ++ cbor (CBytes (repeat 0 64))) = UB Uninit.
Proof. vm_compute. repeat split. Qed.
