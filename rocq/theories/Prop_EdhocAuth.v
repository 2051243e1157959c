(** Properties C35 (plaintext and ciphertext codecs) and C36 (peer authentication). *)
From Verif Require Import Base Proof_Base Model_Common Model_Cbor Proof_Cbor Model_Crypto
  Spec_CborTree Proof_CborTree Spec_Hkdf Proof_Hkdf Spec_Edhoc Spec_EdhocRun Model_EdhocCfg Model_EdhocCbor Model_EdhocKeys
  Proof_EdhocBase Model_EdhocCert Model_EdhocMsg Model_EdhocRun Proof_EdhocMsg1 Proof_EdhocMsg Proof_EdhocRun
  Proof_EdhocAgree Proof_EdhocSafe Model_Toy Model_ToyEdhoc.

(* ---------- C35 ---------- *)

(** Encrypting twice with the same key stream gives the input back. *)
Theorem C35_xor_involutive : forall a k : bytes, lenN k = lenN a ->
  xor_bytes (xor_bytes a k) k = a /\ xor_bytes a k = rfc_xor a k.
Proof. intros a k H. split; [now apply xor_xor|symmetry; apply rfc_xor_eq]. Qed.
Print Assumptions C35_xor_involutive.

(** What the application passed as EAD, as far as the receiver sees it: nothing, or
    the encoding of a byte string, of which the content is delivered. *)
Definition ead_given (e : bytes) : bytes := match e with [] => [] | _ => cbor (CBytes e) end.
Lemma read_given e : lenN e < 2 ^ 64 -> read_ead (ead_given e) = e.
Proof.
  intros H. destruct e as [|b l]; [reflexivity|]. unfold ead_given. rewrite <- (app_nil_r (cbor _)). now apply read_ead_bstr.
Qed.

(** The ciphertext of message_2 is made as in RFC 9528 and taken apart by the other
    side into exactly the parts it was made of. Missing: the EAD must be passed as
    an encoded byte string by the sender and comes out without its encoding. *)
Theorem C35_ciphertext_2_partial :
  forall (cr : crypto) (cf : cfg) (st : suite) (c_r sig ead prk th : bytes) (i : cred_id) (cap bufsz c_cap id_cap ead_cap : N),
  crypto_ok cr -> id_range i -> lenN th = 32 ->
  lenN c_r <= C_I_SIZE cf -> lenN c_r < 2 ^ 32 -> lenN c_r <= c_cap ->
  lenN (rfc_id_cred i) <= id_cap -> lenN sig <= 64 -> lenN ead <= ead_cap -> lenN ead < 2 ^ 64 ->
  let pt := rfc_plaintext_2 c_r i sig (ead_given ead) in
  lenN pt <= cap -> lenN pt <= bufsz -> lenN pt <= CIPHERTEXT2_SIZE cf -> lenN pt <= 8128 ->
  let ct := rfc_xor pt (rfc_kdf (cr_hmac cr) prk L_KEYSTREAM_2 th (lenN pt)) in
  ciphertext2_gen cr cf c_r (rfc_id_cred i) sig (ead_given ead) prk th cap bufsz = Ok (pt, ct) /\
  ciphertext2_decrypt_split cr cf st prk th ct c_cap id_cap ead_cap =
    Ok (pt, {| sp_c_r := c_r; sp_id_cred := Some (rfc_id_cred i); sp_sig := sig; sp_ead := ead |}).
Proof.
  intros cr cf st c_r sig ead prk th i cap bufsz c_cap id_cap ead_cap K HI HT C1 C2 C3 ID LS LE LE' pt L1 L2 L3 L4 ct.
  assert (LC : lenN ct = lenN pt) by (unfold ct; rewrite rfc_xor_eq; apply xor_len, kdf_len, (ok_hmac_len cr K)).
  split.
  - unfold ciphertext2_gen. rewrite plaintext2_gen_fits; try assumption. cbn [bind]. fold pt.
    rewrite new_fits by exact L3. cbn [bind]. unfold key_gen_2. rewrite kdf32; try assumption; [|reflexivity]. cbn [bind].
    destruct (N.ltb_spec bufsz (lenN pt)); [lia|]. unfold ct. rewrite rfc_xor_eq. reflexivity.
  - unfold ciphertext2_decrypt_split. rewrite LC. rewrite new_fits by exact L3. cbn [bind]. unfold key_gen_2.
    rewrite kdf32; try assumption; [|reflexivity]. cbn [bind]. rewrite aad_rfc by exact HT. cbn [bind].
    assert (EX : xor_bytes ct (rfc_kdf (cr_hmac cr) prk KEYSTREAM_2 th (lenN pt)) = pt).
    { unfold ct. rewrite rfc_xor_eq. apply xor_xor, kdf_len, (ok_hmac_len cr K). }
    rewrite EX. unfold pt at 1. rewrite plaintext2_split_fits; try assumption; try lia.
    + cbn [bind]. rewrite read_given by exact LE'. reflexivity.
    + rewrite read_given by exact LE'. exact LE.
Qed.
Print Assumptions C35_ciphertext_2_partial.

(** The same for message_3, with the AEAD. *)
Theorem C35_ciphertext_3_partial :
  forall (cr : crypto) (cf : cfg) (l : N) (st : suite) (sig ead prk th ct : bytes) (i : cred_id) (cap bufsz id_cap ead_cap : N),
  crypto_ok cr -> get_suite l = Ok st -> id_range i -> lenN th = 32 ->
  lenN (rfc_id_cred i) <= id_cap -> lenN sig <= 64 -> lenN ead <= ead_cap -> lenN ead < 2 ^ 64 ->
  let pt := rfc_plaintext_3 i sig (ead_given ead) in
  lenN pt <= cap -> lenN pt + get_aead_mac_len (edhoc_aead st) <= bufsz ->
  cr_aead_enc cr (rfc_kdf (cr_hmac cr) prk L_K_3 th 16) (rfc_kdf (cr_hmac cr) prk L_IV_3 th 13) (rfc_aad th)
    (get_aead_mac_len (edhoc_aead st)) pt = Some ct ->
  ciphertext3_gen cr cf st (rfc_id_cred i) sig (ead_given ead) prk th cap bufsz = Ok (pt, ct) /\
  ciphertext3_decrypt_split cr cf st prk th ct id_cap ead_cap =
    Ok (pt, {| sp_c_r := []; sp_id_cred := Some (rfc_id_cred i); sp_sig := sig; sp_ead := ead |}).
Proof.
  intros cr cf l st sig ead prk th ct i cap bufsz id_cap ead_cap K HL HI HT ID LS LE LE' pt L1 L2 EN.
  pose proof (suite_lens l st HL) as (S1 & S2 & S3 & S4 & S5). pose proof (ct2_size_ge cf) as CG.
  assert (LC : lenN ct = lenN pt + get_aead_mac_len (edhoc_aead st)) by apply (ok_aead_enc_len cr K _ _ _ _ _ _ EN).
  split.
  - unfold ciphertext3_gen. rewrite plaintext3_gen_fits; try assumption. cbn [bind]. fold pt.
    rewrite S2. rewrite new_fits by lia. cbn [bind]. unfold key_gen_3. rewrite S2, S3.
    rewrite (kdf32 cr cf K _ K_3); [cbn [bind]|reflexivity|lia|exact HT].
    rewrite (kdf32 cr cf K _ IV_3); [cbn [bind]|reflexivity|lia|exact HT].
    rewrite aad_rfc by exact HT. cbn [bind]. destruct (N.ltb_spec bufsz (lenN pt + get_aead_mac_len (edhoc_aead st))); [lia|].
    change K_3 with L_K_3. change IV_3 with L_IV_3. rewrite EN. reflexivity.
  - unfold ciphertext3_decrypt_split. rewrite S2. rewrite new_fits by lia. cbn [bind]. unfold key_gen_3. rewrite S2, S3.
    rewrite (kdf32 cr cf K _ K_3); [cbn [bind]|reflexivity|lia|exact HT].
    rewrite (kdf32 cr cf K _ IV_3); [cbn [bind]|reflexivity|lia|exact HT].
    rewrite aad_rfc by exact HT. cbn [bind].
    destruct (N.ltb_spec (lenN ct) (get_aead_mac_len (edhoc_aead st))); [lia|].
    change K_3 with L_K_3. change IV_3 with L_IV_3. rewrite (ok_aead cr K _ _ _ _ _ _ EN). cbn [ext bind].
    unfold pt at 1. rewrite plaintext3_split_fits; try assumption.
    + cbn [bind]. rewrite read_given by exact LE'. reflexivity.
    + rewrite read_given by exact LE'. exact LE.
Qed.
Print Assumptions C35_ciphertext_3_partial.

(** An EAD that does not start with a byte string (for example the integer label that
    RFC 9528 prescribes) is sent by one side and is silently absent on the other. *)
Theorem C35_ead_lost_refuted :
  forall (c_r sig ead : bytes) (i : cred_id) (c_cap id_cap ead_cap : N),
  id_range i -> lenN c_r <= c_cap -> lenN c_r < 2 ^ 64 -> lenN (rfc_id_cred i) <= id_cap -> lenN sig <= 64 ->
  dec_bstr ead = None ->
  plaintext2_split (rfc_plaintext_2 c_r i sig ead) c_cap id_cap ead_cap =
  Ok {| sp_c_r := c_r; sp_id_cred := Some (rfc_id_cred i); sp_sig := sig; sp_ead := [] |}.
Proof.
  intros c_r sig ead i c_cap id_cap ead_cap HI HC HC' HID HS HD.
  assert (E : read_ead ead = []) by (unfold read_ead; now rewrite HD).
  rewrite plaintext2_split_fits; try assumption; rewrite E; [reflexivity|]. change (lenN (@nil N)) with 0. lia.
Qed.
Print Assumptions C35_ead_lost_refuted.

Example C35_example :
  ciphertext2_gen toy_crypto default_cfg [0x37] toy_id_r (repeat 9 8) [] (repeat 1 32) (repeat 2 32) 100 100 =
    Ok ([0x37; 0x22; 0x48] ++ repeat 9 8,
        xor_bytes ([0x37; 0x22; 0x48] ++ repeat 9 8) (rfc_kdf (cr_hmac toy_crypto) (repeat 1 32) 0 (repeat 2 32) 11)) /\
  (* 1, a non-critical EAD label *)
  dec_bstr [1] = None /\
  plaintext2_split (rfc_plaintext_2 [0x37] (KidInt (-3)) (repeat 9 8) [1; 0x42; 7; 7]) 10 10 10 =
    Ok {| sp_c_r := [0x37]; sp_id_cred := Some toy_id_r; sp_sig := repeat 9 8; sp_ead := [] |} /\
  plaintext2_split (rfc_plaintext_2 [0x37] (KidInt (-3)) (repeat 9 8) [0x42; 7; 7]) 10 10 10 =
    Ok {| sp_c_r := [0x37]; sp_id_cred := Some toy_id_r; sp_sig := repeat 9 8; sp_ead := [7; 7] |}.
Proof. repeat split; vm_compute; reflexivity. Qed.

(* ---------- C36 ---------- *)

(** A peer that signs: the received field is a valid signature under its key over the
    structure of RFC 9528, with the right transcript, credential and MAC. *)
Theorem C36_signature_sound :
  forall (cr : crypto) (cf : cfg) (l : N) (st : suite) (pk prk c_r th id_cred cred ead : bytes) (label : N) (received : bytes),
  crypto_ok cr -> get_suite l = Ok st -> lenN received <= 64 ->
  sig_or_mac_verify cr cf false st pk prk c_r th id_cred cred ead label received = Ok tt ->
  cr_verify cr (sign_sel (edhoc_sign st)) pk
    (rfc_tbs id_cred th cred ead (expected_mac cr prk c_r th id_cred cred ead label false st)) received = Some true.
Proof.
  intros cr cf l st pk prk c_r th id_cred cred ead label received K HL HR H. unfold sig_or_mac_verify in H.
  apply bind_ok in H as (m & EM & H). apply mac_ok in EM as [-> _]; [|exact (ok_hmac_len cr K)|vm_compute; discriminate].
  apply bind_ok in H as (t & ET & H). apply tbs_ok in ET as ->. apply bind_ok in H as (v & EV & H).
  destruct v; [|discriminate]. unfold verify in EV.
  change (expected_mac cr prk c_r th id_cred cred ead label false st) with (the_mac cr prk c_r th id_cred cred ead label false st).
  destruct (edhoc_sign st).
  - destruct (cr_verify cr (sign_sel ES256) pk _ received); [|discriminate]. cbn in EV. congruence.
  - destruct (N.ltb_spec (lenN received) 64); [discriminate|]. destruct (lenN pk <? 32); [discriminate|]. cbn [orb] in EV. rewrite takeN_all in EV by lia.
    destruct (cr_verify cr (sign_sel EdDSA) pk _ received); [|discriminate]. cbn in EV. congruence.
Qed.
Print Assumptions C36_signature_sound.

(** A peer with a static DH key: the received field is a beginning of the right MAC;
    it is the MAC if it has its length. Missing: the length is not checked. *)
Theorem C36_mac_partial :
  forall (cr : crypto) (cf : cfg) (l : N) (st : suite) (pk prk c_r th id_cred cred ead : bytes) (label : N) (received : bytes),
  crypto_ok cr -> get_suite l = Ok st ->
  sig_or_mac_verify cr cf true st pk prk c_r th id_cred cred ead label received = Ok tt ->
  let m := expected_mac cr prk c_r th id_cred cred ead label true st in
  received = takeN (lenN received) m /\ lenN received <= edhoc_mac_len_static_dh st /\
  (lenN received = edhoc_mac_len_static_dh st -> received = m).
Proof.
  intros cr cf l st pk prk c_r th id_cred cred ead label received K HL H m. unfold sig_or_mac_verify in H.
  pose proof (suite_lens l st HL) as (S1 & _).
  apply bind_ok in H as (m' & EM & H). apply mac_ok in EM as [-> LM]; [|exact (ok_hmac_len cr K)|cbn; lia].
  change (the_mac cr prk c_r th id_cred cred ead label true st) with m in *. cbn [mac_len] in LM. rewrite LM in H.
  destruct (HASH_SIZE <? lenN received); [discriminate|].
  destruct (N.leb_spec (lenN received) (edhoc_mac_len_static_dh st)) as [Q|Q].
  - destruct (beqb (takeN (lenN received) m) received) eqn:E; [|discriminate]. apply beqb_eq in E.
    split; [now symmetry|]. split; [exact Q|]. intros L. rewrite <- E, L, <- LM. apply takeN_all. lia.
  - destruct (beqb m _); discriminate.
Qed.
Print Assumptions C36_mac_partial.

(** The field that the other side generates is accepted: with its signature key, or
    with the same PRK for static DH. *)
Theorem C36_genuine_accepted :
  forall (cr : crypto) (cf : cfg) (l : N) (st : suite) (static_dh : bool) (sk pk prk c_r th id_cred cred ead : bytes)
    (label : N) (s : bytes),
  crypto_ok cr -> get_suite l = Ok st -> (static_dh = false -> sign_pair cr (sign_sel (edhoc_sign st)) sk pk) ->
  sig_or_mac_generate cr cf static_dh st sk pk prk c_r th id_cred cred ead label = Ok s ->
  sig_or_mac_verify cr cf static_dh st pk prk c_r th id_cred cred ead label s = Ok tt /\ lenN s <= 64.
Proof.
  intros cr cf l st static_dh sk pk prk c_r th id_cred cred ead label s K HL HP H.
  unfold sig_or_mac_generate in H. apply bind_ok in H as (m & EM & H). unfold sig_or_mac_verify. rewrite EM. cbn [bind].
  pose proof (mac_len_le l st static_dh HL) as LE. apply mac_ok in EM as [_ LM]; [|exact (ok_hmac_len cr K)|lia].
  destruct static_dh.
  - injection H as <-. pose proof (suite_lens l st HL) as (S1 & _). cbn [mac_len] in LM, LE. change HASH_SIZE with 32.
    destruct (N.ltb_spec 32 (lenN m)); [lia|]. rewrite N.leb_refl, takeN_all, beqb_refl by lia. split; [reflexivity|]. rewrite LM. lia.
  - apply bind_ok in H as (t & ET & H). rewrite ET. cbn [bind]. unfold sign in H. apply ext_ok in H.
    pose proof (ok_sign_len cr K _ _ _ _ _ H) as L64. destruct (HP eq_refl) as [P32 PV]. apply PV in H. split; [|lia].
    unfold verify. destruct (edhoc_sign st); cbn [sign_sel] in *.
    + rewrite H. reflexivity.
    + rewrite L64. change (64 <? 64) with false. specialize (P32 eq_refl). destruct (N.ltb_spec (lenN pk) 32); [lia|]. cbn [orb].
      rewrite takeN_all by lia. rewrite H. reflexivity.
Qed.
Print Assumptions C36_genuine_accepted.

(** The empty field is accepted from any peer with a static DH key, whatever the MAC
    would be. *)
Theorem C36_empty_mac_refuted :
  forall (cr : crypto) (cf : cfg) (st : suite) (pk prk c_r th id_cred cred ead : bytes) (label : N) (m : bytes),
  mac cr cf prk c_r th id_cred cred ead label true st = Ok m ->
  sig_or_mac_verify cr cf true st pk prk c_r th id_cred cred ead label [] = Ok tt.
Proof.
  intros cr cf st pk prk c_r th id_cred cred ead label m H. unfold sig_or_mac_verify. rewrite H. cbn [bind].
  change (lenN (@nil N)) with 0. destruct (N.leb_spec 0 (lenN m)); [|lia]. change (takeN 0 m) with (@nil N). reflexivity.
Qed.
Print Assumptions C36_empty_mac_refuted.

Lemma receive_here cf e n sent m : e_rx e n sent = Ok m -> lenN m <= MSG_MAX_SIZE cf -> receive cf e n sent = Ok m.
Proof. intros E L. unfold receive. rewrite E. cbn [bind]. destruct (N.ltb_spec (MSG_MAX_SIZE cf) (lenN m)); [lia|reflexivity]. Qed.
(** Every beginning of the right MAC is accepted. *)
Lemma begun_mac_accepted cr cf st pk prk c_r th id_cred cred ead label m k :
  mac cr cf prk c_r th id_cred cred ead label true st = Ok m -> lenN m <= 32 ->
  sig_or_mac_verify cr cf true st pk prk c_r th id_cred cred ead label (takeN k m) = Ok tt.
Proof.
  intros H L. unfold sig_or_mac_verify. rewrite H. cbn [bind]. pose proof (lenN_takeN k m) as LT. change HASH_SIZE with 32.
  destruct (N.ltb_spec 32 (lenN (takeN k m))); [lia|]. destruct (N.leb_spec (lenN (takeN k m)) (lenN m)); [|lia].
  replace (takeN (lenN (takeN k m)) m) with (takeN k m); [rewrite beqb_refl; reflexivity|].
  rewrite LT. destruct (N.le_gt_cases k (lenN m)); [rewrite N.min_l by assumption; reflexivity|].
  rewrite N.min_r by lia. rewrite !takeN_all by lia. reflexivity.
Qed.
(** So an initiator accepts, for every session with a responder that uses static DH, a
    message_2 with the first [k] bytes of MAC_2: the run returns ok and reports the C_R in it. *)
Theorem C36_short_mac_2_refuted :
  forall (cr : crypto) (cf : cfg) (pf : platform) (i : initiator) (creds : list other_party_cred) (st : suite) (si : bool)
    (id_i id_r : cred_id) (m1 h1 cred_r g_r g_y g_xy g_rx g_iy c_r : bytes) (e : env) (prk_len k : N),
  crypto_ok cr -> small cf ->
  method_static (i_method i) si true -> msg1_gen cr cf i = Ok (m1, st, h1) ->
  i_id_cred i = rfc_id_cred id_i -> id_range id_i ->
  (* the responder that the initiator knows *)
  resolves cr pf true creds id_r (CRED_R_SIZE cf) cred_r g_r -> id_range id_r ->
  lenN (rfc_id_cred id_r) <= ID_CRED_R_SIZE cf -> cred_r <> [] -> lenN cred_r <= CRED_MAX_SIZE cf ->
  dh_secret cr (edhoc_ecdh st) (i_x i) g_r g_rx ->
  (* ephemeral key and connection identifier of whoever sends message_2 *)
  lenN g_y = 32 -> dh_secret cr (edhoc_ecdh st) (i_x i) g_y g_xy ->
  (si = true -> dh_secret cr (edhoc_ecdh st) (i_i i) g_y g_iy) ->
  lenN c_r <= C_R_SIZE cf -> (forall b, c_r = [b] -> 23 < b) ->
  let th2 := rfc_th2 (cr_hash cr) g_y m1 in
  let prk_2 := rfc_prk_2e (cr_hmac cr) th2 g_xy in
  let right := expected_mac cr (rfc_prk_next (cr_hmac cr) true prk_2 L_SALT_3e2m th2 g_rx) c_r th2 (rfc_id_cred id_r) cred_r [] L_MAC_2 true st in
  let pt := rfc_plaintext_2 c_r id_r (takeN k right) [] in
  lenN pt < CIPHERTEXT2_SIZE cf -> lenN pt <= 8000 ->
  prk_len <= 8128 -> obliging e ->
  let m2 := cbor (CBytes (g_y ++ rfc_xor pt (rfc_kdf (cr_hmac cr) prk_2 L_KEYSTREAM_2 th2 (lenN pt)))) in
  lenN m2 <= MSG_MAX_SIZE cf -> e_rx e 2 [m1] = Ok m2 ->
  let o := initiator_run cr cf pf i creds prk_len e in
  o_ret o = Ok tt /\ o_peer_c o = Some c_r /\ length (o_sent o) = 2%nat.
Proof.
  intros cr cf pf i creds st si id_i id_r m1 h1 cred_r g_r g_y g_xy g_rx g_iy c_r e prk_len k K SM MS G1 EI HI RES HR LR CN CL
    DRX LY DXY DIY LC HC th2 prk_2 right pt P1 P2 HP OB m2 LM RX o.
  pose (x := {| x_m1 := m1; x_g_y := g_y; x_g_xy := g_xy; x_static_r := true; x_g_rx := g_rx; x_static_i := si; x_g_iy := g_iy;
    x_c_r := c_r; x_ctx_c := []; x_id_r := id_r; x_cred_r := cred_r; x_sig_2 := takeN k right; x_id_i := id_i; x_cred_i := [];
    x_sig_3 := []; x_mac2_len := 0; x_mac3_len := 0; x_key_len := 0; x_iv_len := 0; x_tag_len := 0 |}).
  assert (EM : m2 = x_m2 (cr_hmac cr) (cr_hash cr) x) by reflexivity.
  destruct RES as (f & RF & FC & FG). destruct (method_type _ _ _ MS) as [MT _].
  apply msg1_gen_ok in G1 as G1'. destruct G1' as (_ & _ & GS & -> & _).
  assert (LR32 : lenN right <= 32).
  { unfold right, expected_mac, rfc_mac. rewrite kdf_len by apply (ok_hmac_len cr K). exact (mac_len_le _ st true GS). }
  assert (RAW : c_r_is_raw_int c_r = false).
  { unfold c_r_is_raw_int. destruct c_r as [|b [|? ?]]; try reflexivity. specialize (HC b eq_refl). apply N.leb_gt. exact HC. }
  assert (P : msg2_process cr cf pf i st (cr_hash cr m1) m2 creds (C_R_SIZE cf) si true =
    Ok {| a2_c_r := c_r; a2_ead := []; a2_th3 := x_th3 (cr_hash cr) x; a2_prk_3e2m := x_prk_3e2m (cr_hmac cr) (cr_hash cr) x;
          a2_prk_4e3m := x_prk_4e3m (cr_hmac cr) (cr_hash cr) x |}).
  { rewrite EM. apply (msg2_process_any cr cf pf K SM x i st creds (C_R_SIZE cf) f); try assumption;
      cbn [x x_g_y x_id_r x_g_xy x_c_r x_sig_2 x_cred_r x_static_r x_g_rx x_static_i x_g_iy].
    - now apply ssd.
    - unfold small in SM. lia.
    - rewrite lenN_takeN. lia.
    - change (x_pt2 x) with pt. split; [lia|]. rewrite ct2_array_bounds by lia.
      destruct (_ || _); lia.
    - intros _. apply ssd. cbn in FG. rewrite FG. exact DRX.
    - intros Q. apply ssd. auto.
    - apply (begun_mac_accepted cr cf st (f_pk f) _ c_r _ _ _ _ _ right k); [|exact LR32]. apply mac_fits; try assumption.
      + exact (ok_hmac_len cr K).
      + reflexivity.
      + pose proof (mac_len_le _ st true GS). lia.
      + apply len_th2, K.
      + unfold ID_CRED_MAX_SIZE. lia.
      + change (lenN (@nil N)) with 0. lia.
      + change (lenN (@nil N)) with 0. unfold small, ID_CRED_MAX_SIZE, CRED_MAX_SIZE in *. lia. }
  unfold o, initiator_run, initiator_run_extended. rewrite G1, (proj1 OB), (receive_here cf e 2 [m1] m2 RX LM).
  unfold msg3_gen. rewrite MT, P. cbn [bind].
  match goal with |- context [msg3_only_gen cr cf i st si ?a m2 prk_len] =>
    pose proof (msg3_only_gen_total cr cf K i (last (i_suites i) 0) st si a m2 prk_len id_i GS EI HI (len_th3 cr K x) HP) as T;
    destruct (msg3_only_gen cr cf i st si a m2 prk_len) as [m3 [prk|er|u]] end.
  - cbn [a2_ead a2_c_r]. rewrite (proj2 OB), (proj1 OB). repeat split; reflexivity.
  - cbn [a2_ead a2_c_r]. rewrite (proj2 OB), (proj1 OB). repeat split; reflexivity.
  - cbn in T. exfalso. now apply (T u).
Qed.
Print Assumptions C36_short_mac_2_refuted.
(** With none of its bytes, it can be made by somebody without any key of the responder. *)
Theorem C36_forged_message_2_refuted :
  forall (cr : crypto) (cf : cfg) (pf : platform) (i : initiator) (creds : list other_party_cred) (st : suite) (si : bool)
    (id_i id_r : cred_id) (m1 h1 cred_r g_r g_y g_xy g_rx g_iy c_r : bytes) (e : env) (prk_len : N),
  crypto_ok cr -> small cf ->
  method_static (i_method i) si true -> msg1_gen cr cf i = Ok (m1, st, h1) ->
  i_id_cred i = rfc_id_cred id_i -> id_range id_i ->
  (* the responder that the initiator knows *)
  resolves cr pf true creds id_r (CRED_R_SIZE cf) cred_r g_r -> id_range id_r ->
  lenN (rfc_id_cred id_r) <= ID_CRED_R_SIZE cf -> cred_r <> [] -> lenN cred_r <= CRED_MAX_SIZE cf ->
  dh_secret cr (edhoc_ecdh st) (i_x i) g_r g_rx ->
  (* the attacker's ephemeral key and connection identifier *)
  lenN g_y = 32 -> dh_secret cr (edhoc_ecdh st) (i_x i) g_y g_xy ->
  (si = true -> dh_secret cr (edhoc_ecdh st) (i_i i) g_y g_iy) ->
  lenN c_r <= C_R_SIZE cf -> (forall b, c_r = [b] -> 23 < b) ->
  lenN (rfc_plaintext_2 c_r id_r [] []) < CIPHERTEXT2_SIZE cf -> lenN (rfc_plaintext_2 c_r id_r [] []) <= 8000 ->
  prk_len <= 8128 -> obliging e ->
  let m2 := forged_message_2 (cr_hmac cr) (cr_hash cr) m1 g_y g_xy c_r id_r in
  lenN m2 <= MSG_MAX_SIZE cf -> e_rx e 2 [m1] = Ok m2 ->
  let o := initiator_run cr cf pf i creds prk_len e in
  o_ret o = Ok tt /\ o_peer_c o = Some c_r /\ length (o_sent o) = 2%nat.
Proof.
  intros cr cf pf i creds st si id_i id_r m1 h1 cred_r g_r g_y g_xy g_rx g_iy c_r e prk_len K SM MS G1 EI HI RES HR LR CN CL
    DRX LY DXY DIY LC HC P1 P2 HP OB m2 LM RX.
  exact (C36_short_mac_2_refuted cr cf pf i creds st si id_i id_r m1 h1 cred_r g_r g_y g_xy g_rx g_iy c_r e prk_len 0 K SM MS G1 EI HI RES HR LR CN CL
    DRX LY DXY DIY LC HC P1 P2 HP OB LM RX).
Qed.
Print Assumptions C36_forged_message_2_refuted.

(** Method 3. An attacker with the ephemeral key 99 answers as the responder {4: -3};
    the genuine responder's static key is 22 and is not used. Then an attacker with
    the ephemeral key 11 and no other key finishes as the initiator {4: 5}. *)
Example C36_example :
  let i := toy_initiator 3 [2] [1; 2] [] in
  let r := toy_responder [2] [7; 8] in
  let dh a b := be_enc 32 (be_val (repeat a 32) + be_val (repeat b 32)) in
  match toy_m1 default_cfg i, get_suite 2 with
  | Ok m1, Ok st =>
      let m2 := forged_message_2 (cr_hmac toy_crypto) (cr_hash toy_crypto) m1 (repeat 99 32) (dh 11 99) [7; 7] (KidInt (-3)) in
      let o := initiator_run toy_crypto default_cfg toy_pf i toy_creds_r 32 (toy_env (Ok m2) (Err not_implemented)) in
      let y s2 := session i r st true true m1 (KidInt 5) (KidInt (-3)) (dh 11 21) (dh 11 22) [] s2 [] in
      let x := y (x_mac_2 (cr_hmac toy_crypto) (cr_hash toy_crypto) (y [])) in
      o_ret o = Ok tt /\ o_peer_c o = Some [7; 7] /\
      toy_m2 default_cfg i r = Ok (x_m2 (cr_hmac toy_crypto) (cr_hash toy_crypto) x) /\
      match forged_message_3 (cr_hmac toy_crypto) (cr_aead_enc toy_crypto) 8
              (x_prk_3e2m (cr_hmac toy_crypto) (cr_hash toy_crypto) x) (x_th3 (cr_hash toy_crypto) x) (KidInt 5) with
      | Some m3 => o_ret (responder_run toy_crypto default_cfg toy_pf r toy_creds_i 32 (toy_env (Ok m1) (Ok m3))) = Ok tt
      | None => False
      end
  | _, _ => False
  end.
Proof. vm_compute. repeat split; reflexivity. Qed.
