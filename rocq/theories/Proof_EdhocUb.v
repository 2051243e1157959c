(** Which received EDHOC messages lead to undefined behaviour. *)
From Verif Require Import Base Proof_Base Model_Common Model_Cbor Proof_Cbor Model_Crypto
  Spec_CborTree Proof_CborTree Spec_Hkdf Proof_Hkdf Spec_Edhoc Model_EdhocCfg Model_EdhocCbor Model_EdhocKeys
  Proof_EdhocBase Model_EdhocCert Model_EdhocMsg Model_EdhocRun Proof_EdhocMsg1 Proof_EdhocMsg Proof_EdhocRun
  Spec_EdhocRun Spec_EdhocView Proof_EdhocSound Proof_EdhocSafe Spec_EdhocUb.

Lemma ub_true {A} (r : res A) : is_ub r = true <-> exists u, r = UB u.
Proof. destruct r; cbn; split; try discriminate; try (intros (u & Q); discriminate); eauto. Qed.
Lemma ub_false {A} (r : res A) : is_ub r = false <-> no_ub r.
Proof. unfold no_ub. destruct r; cbn; split; try discriminate; try reflexivity. intros H. now destruct (H u). Qed.
Lemma bind_ub {A B} (r : res A) (k : A -> res B) u : bind r k = UB u -> r = UB u \/ exists a, r = Ok a /\ k a = UB u.
Proof. destruct r as [a|e|v]; cbn; [eauto|discriminate|intros [= ->]; auto]. Qed.

(* ---------- decoded values ---------- *)

Lemma dec_int_range l z r : dec_int l = Some (z, r) -> is_int32 z.
Proof.
  unfold dec_int, is_int32. destruct (dec_head l) as [[[mt v] q]|]; [|discriminate]. change (2 ^ 31)%Z with 2147483648%Z. change (2 ^ 31) with 2147483648.
  destruct mt as [|[p|p|]]; try discriminate.
  - destruct (N.ltb_spec v 2147483648); [|discriminate]. intros [= <- <-]. lia.
  - destruct (N.ltb_spec v 2147483648); [|discriminate]. intros Q. assert (EZ : z = (-1 - Z.of_N v)%Z) by congruence. lia.
Qed.
Lemma pair_range l a h r : dec_hash_pair l = Some ((UInt a, h), r) -> is_int32 a.
Proof.
  unfold dec_hash_pair. destruct (dec_list l) as [[[|[p|[p|p|]|]] q]|]; try discriminate.
  destruct (dec_int q) as [[z r1]|] eqn:E.
  - destruct (dec_bstr r1) as [[x r2]|]; [|discriminate]. intros [= <- _ _]. now apply dec_int_range in E.
  - destruct (dec_tstr q) as [[b r1]|]; [|discriminate]. destruct (dec_bstr r1) as [[x r2]|]; [|discriminate]. intros [=].
Qed.
Lemma entry_some {A} k (dec : bytes -> option (A * bytes)) s a s' : dec_entry k dec s = (Some a, s') -> exists l r, dec l = Some (a, r).
Proof.
  unfold dec_entry. destruct s as [n l]. destruct (n =? 0); [discriminate|]. destruct (dec_uint l) as [[x r]|]; [|discriminate].
  destruct (x =? k); [|discriminate]. destruct (dec r) as [[b r']|] eqn:E; [|discriminate]. intros [= <- _]. eauto.
Qed.
Lemma map_x5t_range l m r a h : dec_id_cred_map l = Some (m, r) -> ic_x5t m = Some (UInt a, h) -> is_int32 a.
Proof.
  unfold dec_id_cred_map. destruct (dec_map l) as [[n q]|]; [|discriminate].
  destruct (dec_entry 4 dec_int_or_bstr (n, q)) as [a1 s1]. destruct (dec_entry 32 dec_bstr s1) as [a2 s2].
  destruct (dec_entry 33 dec_bstr s2) as [a3 s3]. destruct (dec_entry 34 dec_hash_pair s3) as [a4 s4] eqn:E4.
  destruct (dec_entry 35 dec_bstr s4) as [a5 s5]. destruct (dec_entry 52 dec_bstr s5) as [a6 s6].
  destruct (dec_entry 53 dec_bstr s6) as [a7 s7]. destruct (dec_entry 54 dec_hash_pair s7) as [a8 s8].
  destruct (dec_entry 55 dec_bstr s8) as [a9 s9]. destruct (fst s9 =? 0); [|discriminate]. intros [= <- _] E.
  cbn [ic_x5t] in E. subst a4. apply entry_some in E4 as (l' & r' & E). now apply pair_range in E.
Qed.

(* ---------- ID_CRED_x ---------- *)

(** the identifiers that a decoder delivers *)
Definition id_decoded (i : id_cred_choice) : Prop :=
  match i with
  | IdInt z => is_int32 z
  | IdBstr _ => True
  | IdMap m => forall a h, ic_x5t m = Some (UInt a, h) -> is_int32 a
  end.
Lemma choice_decoded l i r : dec_id_cred_choice l = Some (i, r) -> id_decoded i.
Proof.
  unfold dec_id_cred_choice. destruct (dec_id_cred_map l) as [[m q]|] eqn:E.
  - intros [= <- _]. cbn. intros a h. now apply (map_x5t_range _ _ _ _ _ E).
  - destruct (dec_bstr l) as [[b q]|]; [intros [= <- _]; exact I|].
    destruct (dec_int l) as [[z q]|] eqn:E'; [|discriminate]. intros [= <- _]. now apply dec_int_range in E'.
Qed.
Lemma ptxt3_decoded l p : cbor_decode_ptxt3 l = Some p -> id_decoded (pt_id_cred p).
Proof.
  unfold cbor_decode_ptxt3. destruct (dec_id_cred_choice l) as [[i l1]|] eqn:E; [|discriminate].
  destruct (dec_bstr l1) as [[s l2]|]; [|discriminate]. intros [= <-]. now apply choice_decoded in E.
Qed.
Lemma ptxt2_decoded l p : cbor_decode_ptxt2 l = Some p -> id_decoded (pt_id_cred p) /\ exists c, pt_c_r p = Some c.
Proof.
  unfold cbor_decode_ptxt2. destruct (dec_int_or_bstr l) as [[c l1]|]; [|discriminate].
  destruct (cbor_decode_ptxt3 l1) as [q|] eqn:E; [|discriminate]. intros [= <-]. apply ptxt3_decoded in E. cbn. eauto.
Qed.

Lemma split_ub i cap u : id_cred_split i cap = UB u -> harmful_id i.
Proof.
  destruct i as [m|b|z]; cbn [id_cred_split harmful_id]; [|auto|].
  - intros H. apply bind_ub in H as [H|(o & _ & H)].
    + destruct (ic_x5chain m); [|discriminate]. apply bind_ub in H as [H|(o & _ & H)]; [|discriminate].
      now apply no_ub_put in H.
    + destruct (ic_x5t m) as [[[a|t] h]|]; [|exact I|discriminate].
      apply bind_ub in H as [H|(x & _ & H)]; [|discriminate]. now apply no_ub_put in H.
  - intros H. apply bind_ub in H as [H|(x & _ & H)]; [|discriminate]. now apply no_ub_put in H.
Qed.
Lemma split_none i cap : id_cred_split i cap = Ok None -> harmful_id i.
Proof.
  destruct i as [m|b|z]; cbn [id_cred_split harmful_id]; [|auto|].
  - intros H. apply bind_ok in H as (o & HO & H).
    destruct (ic_x5t m) as [[[a|t] h]|].
    + apply bind_ok in H as (x & _ & H). discriminate.
    + exact I.
    + injection H as ->. destruct (ic_x5chain m); [|reflexivity]. apply bind_ok in HO as (x & _ & HO). discriminate.
  - intros H. apply bind_ok in H as (x & _ & H). discriminate.
Qed.
(** [harmful_id] characterises the identifiers that do not give bytes. *)
Lemma split_some i cap id : id_cred_split i cap = Ok (Some id) -> id_decoded i -> cap < 2 ^ 64 ->
  (exists m cert, i = IdMap m /\ ic_x5chain m = Some cert /\ ic_x5t m = None /\ id = rfc_id_cred (X5chain cert) /\ cid_ok (X5chain cert)) \/
  (exists z, id = rfc_id_cred (KidInt z) /\ cid_ok (KidInt z)) \/
  (exists a h, id = rfc_id_cred (X5t a h) /\ cid_ok (X5t a h)).
Proof.
  assert (PI : forall cap b x, cbor_put cap b = Ok x -> x = b /\ lenN b <= cap).
  { intros c b x. unfold cbor_put. destruct (N.leb_spec (lenN b) c); [|discriminate]. intros [= ->]. auto. }
  intros H D L. destruct i as [m|b|z]; cbn [id_cred_split id_decoded] in *; [|discriminate|].
  - apply bind_ok in H as (o & HO & H). destruct (ic_x5t m) as [[[a|t] h]|] eqn:E5; [|discriminate|].
    + apply bind_ok in H as (x & HX & H). injection H as ->. unfold id_cred_x5t_encode in HX. apply PI in HX as [-> HL].
      right; right. exists a, h. change (enc_id_cred_map _) with (enc_id_cred_map (cid_map (X5t a h))) in *.
      rewrite enc_cid in *. split; [reflexivity|]. split; [now apply (D a h)|].
      assert (lenN (rfc_id_cred (X5t a h)) <= cap).
      { destruct o as [b|]; [|exact HL]. destruct (ic_x5chain m); [|discriminate]. apply bind_ok in HO as (y & HY & HO).
        injection HO as <-. unfold id_cred_x5chain_encode in HY. apply PI in HY as [-> HL']. lia. }
      assert (lenN h <= lenN (rfc_id_cred (X5t a h))).
      { cbn [rfc_id_cred]. rewrite pair_enc. unfold map1, enc_hash_pair, enc_bstr. cbn [fst snd]. rewrite !lenN_app. lia. }
      lia.
    + injection H as ->. destruct (ic_x5chain m) as [c|] eqn:EC; [|discriminate]. apply bind_ok in HO as (y & HY & HO).
      injection HO as <-. unfold id_cred_x5chain_encode in HY. apply PI in HY as [-> HL].
      change (enc_id_cred_map _) with (enc_id_cred_map (cid_map (X5chain c))) in *. rewrite enc_cid in *.
      left. exists m, c. do 4 (split; [first [assumption|reflexivity]|]). cbn [cid_ok].
      assert (lenN c <= lenN (rfc_id_cred (X5chain c))).
      { cbn [rfc_id_cred]. rewrite cbor_bytes. unfold map1, enc_bstr. rewrite !lenN_app. lia. }
      lia.
  - apply bind_ok in H as (x & HX & H). injection H as ->. unfold id_cred_kid_encode in HX. apply PI in HX as [-> _].
    right; left. exists z. change (enc_id_cred_map _) with (enc_id_cred_map (cid_map (KidInt z))). rewrite enc_cid. auto.
Qed.

(* ---------- the credentials ---------- *)

Lemma no_ub_slice l p n : p + n <= lenN l -> no_ub (slice l p n).
Proof. intros H. unfold slice. destruct (N.leb_spec (p + n) (lenN l)); [apply no_ub_ok|lia]. Qed.
Lemma no_ub_local sdh creds id cap : no_ub (get_local_cred sdh creds id cap).
Proof.
  induction creds as [|c r IH]; cbn [get_local_cred]; [apply no_ub_err|]. destruct (beqb _ _); [|exact IH].
  apply no_ub_bind; [safe|]. intros x _. destruct sdh; [|safe].
  destruct (N.eqb_spec (lenN (oc_g c)) 65) as [E|E]; [|safe].
  apply no_ub_bind; [apply no_ub_slice; lia|safe].
Qed.
Lemma retrieve_kid cr pf sdh creds i cap : cid_ok i -> (forall c, i <> X5chain c) ->
  no_ub (retrieve_cred cr pf sdh creds (Some (rfc_id_cred i)) cap).
Proof.
  intros HI NC. unfold retrieve_cred. rewrite <- (app_nil_r (rfc_id_cred i)), dec_cid by exact HI. cbn [ext bind].
  rewrite app_nil_r. destruct i as [z|c|a h]; cbn; [apply no_ub_local| |apply no_ub_local]. now destruct (NC c).
Qed.
Lemma retrieve_x5chain cr pf sdh creds c cap : cid_ok (X5chain c) ->
  retrieve_cred cr pf sdh creds (Some (rfc_id_cred (X5chain c))) cap = verify_cert2cred cr pf sdh creds X509 c cap.
Proof.
  intros HI. unfold retrieve_cred. rewrite <- (app_nil_r (rfc_id_cred _)), dec_cid by exact HI. cbn [ext bind]. reflexivity.
Qed.

(* ---------- the messages ---------- *)

Section Ub.
Variable cr : crypto.
Variable cf : cfg.
Variable pf : platform.
Hypothesis K : crypto_ok cr.

Lemma raw_int c : c_r_is_raw_int c = true -> harmful_c_r c.
Proof. unfold c_r_is_raw_int. destruct c as [|b [|b2 rr]]; try discriminate. intros H. apply N.leb_le in H. now exists b. Qed.
Lemma suite_mac_len l st (sdh : bool) : get_suite l = Ok st -> (if sdh then edhoc_mac_len_static_dh st else get_hash_len) <= 8128.
Proof. intros H. apply suite_lens in H. destruct sdh; [lia|]. vm_compute. discriminate. Qed.
Lemma verify_ub l st sdh pk prk c_r th id cred ead label rcv u : get_suite l = Ok st ->
  sig_or_mac_verify cr cf sdh st pk prk c_r th id cred ead label rcv = UB u ->
  harmful_c_r c_r \/ (sdh = false /\ edhoc_sign st = EdDSA /\ (lenN rcv < 64 \/ lenN pk < 32)) \/
  (sdh = true /\ 32 < lenN rcv) \/
  (sdh = true /\ exists more, more <> [] /\ rcv = expected_mac cr prk c_r th id cred ead label true st ++ more).
Proof.
  intros HL H. unfold sig_or_mac_verify in H. apply bind_ub in H as [H|(m & HM & H)].
  { left. apply raw_int. destruct (c_r_is_raw_int c_r) eqn:E; [reflexivity|]. exfalso.
    now apply (no_ub_mac cr cf K prk c_r th id cred ead label sdh l st HL E u). }
  right. destruct sdh.
  - right. change HASH_SIZE with 32 in H. destruct (N.ltb_spec 32 (lenN rcv)) as [Q32|_]; [left; auto|].
    right. split; [reflexivity|]. apply mac_ok in HM as [HM _]; [|exact (ok_hmac_len cr K)|exact (suite_mac_len l st true HL)].
    destruct (N.leb_spec (lenN rcv) (lenN m)) as [Q|Q]; [destruct (beqb _ _); discriminate|].
    destruct (beqb m (takeN (lenN m) rcv)) eqn:E; [|discriminate]. apply beqb_eq in E.
    exists (dropN (lenN m) rcv). split.
    + intros Q0. apply (f_equal (@lenN N)) in Q0. rewrite lenN_dropN in Q0. change (lenN (@nil N)) with 0 in Q0. lia.
    + change (expected_mac _ _ _ _ _ _ _ _ _ _) with (the_mac cr prk c_r th id cred ead label true st). rewrite <- HM.
      transitivity (takeN (lenN m) rcv ++ dropN (lenN m) rcv); [now rewrite takeN_dropN|now rewrite <- E].
  - left. apply bind_ub in H as [H|(t & HT & H)]; [now apply no_ub_tbs in H|]. apply bind_ub in H as [H|(v & HV & H)].
    + split; [reflexivity|]. unfold verify in H. destruct (edhoc_sign st); [now apply no_ub_ext in H|].
      split; [reflexivity|]. destruct (N.ltb_spec (lenN rcv) 64); [left; assumption|].
      destruct (N.ltb_spec (lenN pk) 32); [right; assumption|]. now apply no_ub_ext in H.
    + destruct v; discriminate.
Qed.
Lemma prk_ub sdh st label ctx prk pk sk u : 32 <= lenN sk -> prk_derive cr cf sdh st label ctx prk pk sk = UB u ->
  sdh = true /\ edhoc_ecdh st = X25519 /\ lenN pk < 32.
Proof.
  intros HK H. unfold prk_derive in H. destruct sdh; [|discriminate]. split; [reflexivity|].
  apply bind_ub in H as [H|(s & HS & H)].
  - unfold shared_secret_derive in H. destruct (edhoc_ecdh st); [now apply no_ub_ext in H|]. split; [reflexivity|].
    destruct (N.ltb_spec (lenN sk) 32); [lia|]. destruct (N.ltb_spec (lenN pk) 32); [assumption|]. now apply no_ub_ext in H.
  - apply bind_ub in H as [H|(x & HX & H)]; [|discriminate]. exfalso. revert H. apply no_ub_kdf; [exact K|]. vm_compute. discriminate.
Qed.
Lemma split3_ub pt a b u : plaintext3_split pt a b = UB u -> exists p, cbor_decode_ptxt3 pt = Some p /\ harmful_id (pt_id_cred p).
Proof.
  unfold plaintext3_split. intros H. apply bind_ub in H as [H|(p & HP & H)]; [now apply no_ub_ext in H|]. apply ext_ok in HP.
  exists p. split; [exact HP|]. apply bind_ub in H as [H|(x & HX & H)]; [now apply split_ub in H|]. exfalso.
  apply bind_ub in H as [H|(y & HY & H)]; [now apply no_ub_copy in H|].
  apply bind_ub in H as [H|(z & HZ & H)]; [|discriminate]. destruct (pt_ead p); [now apply no_ub_copy in H|discriminate].
Qed.
Lemma split2_ub pt c a b u : plaintext2_split pt c a b = UB u -> exists p, cbor_decode_ptxt2 pt = Some p /\ harmful_id (pt_id_cred p).
Proof.
  unfold plaintext2_split. intros H. apply bind_ub in H as [H|(p & HP & H)]; [now apply no_ub_ext in H|]. apply ext_ok in HP.
  exists p. split; [exact HP|]. apply bind_ub in H as [H|(w & HW & H)].
  { apply ptxt2_decoded in HP as [_ (d & Q)]. rewrite Q in H. destruct d; [now apply no_ub_put in H|now apply no_ub_copy in H]. }
  apply bind_ub in H as [H|(x & HX & H)]; [now apply split_ub in H|]. exfalso.
  apply bind_ub in H as [H|(y & HY & H)]; [now apply no_ub_copy in H|].
  apply bind_ub in H as [H|(z & HZ & H)]; [|discriminate]. destruct (pt_ead p); [now apply no_ub_copy in H|discriminate].
Qed.
Lemma split3_parts pt a b s : plaintext3_split pt a b = Ok s ->
  exists p, cbor_decode_ptxt3 pt = Some p /\ id_cred_split (pt_id_cred p) a = Ok (sp_id_cred s).
Proof.
  unfold plaintext3_split. intros H. apply bind_ok in H as (p & HP & H). apply ext_ok in HP. apply bind_ok in H as (x & HX & H).
  apply bind_ok in H as (y & HY & H). apply bind_ok in H as (z & HZ & H). injection H as <-. exists p. auto.
Qed.
Lemma split2_parts pt c a b s : plaintext2_split pt c a b = Ok s ->
  exists p, cbor_decode_ptxt2 pt = Some p /\ id_cred_split (pt_id_cred p) a = Ok (sp_id_cred s).
Proof.
  unfold plaintext2_split. intros H. apply bind_ok in H as (p & HP & H). apply ext_ok in HP. apply bind_ok in H as (w & HW & H).
  apply bind_ok in H as (x & HX & H).
  apply bind_ok in H as (y & HY & H). apply bind_ok in H as (z & HZ & H). injection H as <-. exists p. auto.
Qed.
(** looking up what was received *)
Lemma lookup_ub i a o sdh creds cap u : id_cred_split i a = Ok o -> id_decoded i -> a < 2 ^ 64 ->
  retrieve_cred cr pf sdh creds o cap = UB u -> harmful_id i \/ harmful_cert cr pf sdh creds cap i.
Proof.
  intros HS HD HA H. destruct o as [id|]; [|left; now apply split_none in HS].
  apply split_some in HS as [(m & c & -> & EC & E5 & -> & HC)|[(z & -> & HC)|(x & h & -> & HC)]]; [| | |exact HD|exact HA].
  - right. exists m, c. do 3 (split; [first [assumption|reflexivity]|]). rewrite retrieve_x5chain in H by exact HC.
    apply ub_true. eauto.
  - exfalso. revert H. apply retrieve_kid; [exact HC|discriminate].
  - exfalso. revert H. apply retrieve_kid; [exact HC|discriminate].
Qed.
Lemma copy_null_ub cap b u : copy_null cap b = UB u -> False. Proof. apply no_ub_copy. Qed.

(** message_3 *)
Lemma msg3_ub l r rc m3 creds n u : get_suite l = Ok (rr_suite rc) -> small cf -> n <= 8128 -> 32 <= lenN (r_y r) ->
  lenN (rr_th3 rc) = 32 -> msg3_process cr cf pf r rc m3 creds n = UB u ->
  exists ct rest pt, dec_bstr m3 = Some (ct, rest) /\
    cr_aead_dec cr (rfc_kdf (cr_hmac cr) (rr_prk_3e2m rc) L_K_3 (rr_th3 rc) 16) (rfc_kdf (cr_hmac cr) (rr_prk_3e2m rc) L_IV_3 (rr_th3 rc) 13)
      (rfc_aad (rr_th3 rc)) (edhoc_mac_len_static_dh (rr_suite rc)) ct = Some pt /\
    harmful_3 cr cf pf r creds (rr_suite rc) (rr_static_i rc) (rr_prk_3e2m rc) (rr_th3 rc) pt.
Proof.
  intros HL SM HN HY HT H. pose proof (suite_lens l _ HL) as (S1 & S2 & S3 & S4 & S5).
  unfold msg3_process in H. apply bind_ub in H as [H|([[[? ?] ?] ?] & _ & H)]; [|discriminate].
  unfold msg3_process_full in H. cbv zeta in H. apply bind_ub in H as [H|([] & _ & H)]; [now apply no_ub_new in H|].
  apply bind_ub in H as [H|(ct & E1 & H)].
  { unfold decode_bstr in H. apply bind_ub in H as [H|([b r'] & _ & H)]; [now apply no_ub_ext in H|].
    apply bind_ub in H as [H|(x & _ & H)]; [now apply no_ub_check in H|discriminate]. }
  unfold decode_bstr in E1. apply bind_ok in E1 as ([b' rest] & E1 & E3). apply bind_ok in E3 as ([] & _ & E3).
  injection E3 as ->. apply ext_ok in E1. apply bind_ub in H as [H|([] & _ & H)]; [now apply no_ub_new in H|].
  assert (DEC : forall pt, (let* (key, iv) := key_gen_3 cr cf (rr_suite rc) (rr_prk_3e2m rc) (rr_th3 rc) in
      let* aad := associated_data_encode (rr_th3 rc) in ext (cr_aead_dec cr key iv aad (get_aead_mac_len (edhoc_aead (rr_suite rc))) ct)) = Ok pt ->
      cr_aead_dec cr (rfc_kdf (cr_hmac cr) (rr_prk_3e2m rc) L_K_3 (rr_th3 rc) 16) (rfc_kdf (cr_hmac cr) (rr_prk_3e2m rc) L_IV_3 (rr_th3 rc) 13)
        (rfc_aad (rr_th3 rc)) (edhoc_mac_len_static_dh (rr_suite rc)) ct = Some pt).
  { intros pt Q. apply bind_ok in Q as ([key iv] & EG & Q). apply bind_ok in Q as (aad & EA & Q). apply aad_ok in EA as ->.
    unfold key_gen_3 in EG. apply bind_ok in EG as (k & EK3 & EG). apply bind_ok in EG as (iv' & EI3 & EG). injection EG as -> ->.
    rewrite S2 in EK3. rewrite S3 in EI3. apply kdf_ok in EK3 as [-> _]; [|exact (ok_hmac_len cr K)|lia].
    apply kdf_ok in EI3 as [-> _]; [|exact (ok_hmac_len cr K)|lia]. rewrite S4 in Q. now apply ext_ok in Q. }
  apply bind_ub in H as [H|([pt s] & ES & H)].
  - unfold ciphertext3_decrypt_split in H. apply bind_ub in H as [H|([] & _ & H)]; [now apply no_ub_new in H|].
    apply bind_ub in H as [H|([key iv] & EG & H)].
    { exfalso. revert H. unfold key_gen_3. apply no_ub_bind; [apply no_ub_kdf; [exact K|lia]|]. intros k _.
      apply no_ub_bind; [apply no_ub_kdf; [exact K|lia]|]. intros iv _. apply no_ub_ok. }
    apply bind_ub in H as [H|(aad & EA & H)]; [now apply no_ub_aad in H|]. cbv zeta in H.
    destruct (_ <? _) in H; [discriminate|]. apply bind_ub in H as [H|(pt & ED & H)]; [now apply no_ub_ext in H|].
    exists ct, rest, pt. split; [exact E1|]. split; [apply DEC; rewrite EG; cbn [bind]; rewrite EA; exact ED|].
    apply bind_ub in H as [H|(s & _ & H)]; [|discriminate]. apply split3_ub in H as (p & HP & HH). exists p. auto.
  - unfold ciphertext3_decrypt_split in ES. apply bind_ok in ES as ([] & _ & ES). apply bind_ok in ES as ([key iv] & EG & ES).
    apply bind_ok in ES as (aad & EA & ES). cbv zeta in ES. destruct (_ <? _) in ES; [discriminate|].
    apply bind_ok in ES as (pt' & ED & ES). apply bind_ok in ES as (s' & ES & EP). injection EP as -> ->.
    exists ct, rest, pt. split; [exact E1|]. split; [apply DEC; rewrite EG; cbn [bind]; rewrite EA; exact ED|].
    destruct (split3_parts _ _ _ _ ES) as (p & HP & HS). exists p. split; [exact HP|].
    assert (HA : ID_CRED_I_SIZE cf < 2 ^ 64) by (unfold small in SM; lia).
    apply bind_ub in H as [H|(f & EF & H)].
    { destruct (lookup_ub _ _ _ _ _ _ _ HS (ptxt3_decoded _ _ HP) HA H); auto. }
    destruct (sp_id_cred s) as [id|] eqn:EID; [|discriminate].
    right; right. eexists _, s, id, f. split; [exact ES|]. split; [exact EID|]. split; [exact EF|].
    apply bind_ub in H as [H|(p4 & EK & H)].
    { apply prk_ub in H; [|exact HY]. left. exact H. }
    apply bind_ub in H as [H|([] & EV & H)].
    + apply (verify_ub l) in H; [|exact HL]. destruct H as [(b & Q & _)|[H|[H|(EQ & more & MN & H)]]]; [discriminate Q|right; left; exact H|right; right; left; exact H|].
      right; right; right. split; [exact EQ|]. apply prk_inv in EK; [|exact K]. rewrite EQ in EK. exists p4. split; [exact EK|]. exists more. exact (conj MN H).
    + exfalso. apply bind_ub in H as [H|(th4 & ET & H)]; [now apply no_ub_th34 in H|].
      apply bind_ub in H as [H|(k & EO & H)]; [|discriminate]. revert H. now apply no_ub_kdf.
Qed.

(** message_1 and the answer *)
Lemma msg1_ub m cap u : 0 < SUITES_I_SIZE cf -> 0 < cap -> msg1_parse cf m cap = UB u -> False.
Proof.
  intros HS HC H. unfold msg1_parse in H. apply bind_ub in H as [H|(x & _ & H)]; [now apply no_ub_ext in H|].
  destruct (_ || _)%bool; [discriminate|]. apply bind_ub in H as [H|(a & _ & H)].
  { destruct (m1_suites x).
    - destruct (N.eqb_spec (SUITES_I_SIZE cf) 0); [lia|discriminate].
    - destruct (_ <? _); discriminate. }
  apply bind_ub in H as [H|(g & _ & H)]; [now apply no_ub_copy in H|].
  apply bind_ub in H as [H|(c & _ & H)].
  { destruct (m1_c_i x); [|now apply no_ub_copy in H]. destruct (N.eqb_spec cap 0); [lia|discriminate]. }
  apply bind_ub in H as [H|(d & _ & H)]; [|discriminate]. destruct (m1_ead_1 x); [|discriminate].
  apply bind_ub in H as [H|(y & _ & H)]; [now apply no_ub_copy in H|discriminate].
Qed.
Lemma suite_curve s st : get_suite s = Ok st -> edhoc_ecdh st = X25519 -> s <= 1.
Proof. unfold get_suite. destruct s as [|[[p|p|]|[p|p|]|]]; try discriminate; intros [= <-]; try discriminate; lia. Qed.
Lemma msg2_gen_ub r id m1 cap u : usable_cfg cf -> set_up_responder r id -> 0 < cap -> msg2_gen cr cf r m1 cap = UB u ->
  exists me su g_x c_i ead, msg1_parse cf m1 cap = Ok (me, su, g_x, c_i, ead) /\ last su 0 <= 1 /\ lenN g_x < 32.
Proof.
  intros (SM & P2 & HS) R HC H. destruct R as [(EI & HI) RC (KY & KR)].
  assert (HCI : cid_ok id) by (destruct id; exact HI).
  unfold msg2_gen in H. apply bind_ub in H as [H|([[[[me su] g_x] ci] ead] & EP & H)]; [now apply msg1_ub in H|].
  exists me, su, g_x, ci, ead. split; [exact EP|]. destruct (negb _); [discriminate|].
  apply bind_ub in H as [H|(st & ES & H)].
  { unfold get_suite in H. destruct (last su 0) as [|[[p|p|]|[p|p|]|]]; discriminate. }
  destruct (authentication_type_get me (false, false)) as [si sr].
  apply bind_ub in H as [H|(th2 & ET & H)]; [now apply no_ub_th2 in H|].
  pose proof (suite_curve _ _ ES) as SC.
  apply bind_ub in H as [H|(gxy & EX & H)].
  { unfold shared_secret_derive in H. destruct (edhoc_ecdh st); [now apply no_ub_ext in H|].
    destruct (N.ltb_spec (lenN (r_y r)) 32); [lia|]. destruct (N.ltb_spec (lenN g_x) 32); [auto|]. now apply no_ub_ext in H. }
  cbv zeta in H. apply bind_ub in H as [H|(p3 & EK & H)].
  { apply prk_ub in H as (_ & Q & L); [auto|exact KR]. }
  exfalso. apply bind_ub in H as [H|(sg & EG & H)].
  { revert H. apply (no_ub_generate cr cf K sr (last su 0)); [exact ES|]. unfold c_r_is_raw_int.
    destruct (r_c_r r) as [|b [|b2 q]]; try reflexivity. specialize (RC b eq_refl). apply N.leb_gt. exact RC. }
  apply bind_ub in H as [H|([] & EN & H)]; [now apply no_ub_new in H|]. apply new_ok in EN.
  apply bind_ub in H as [H|([pt ct] & EC & H)].
  { unfold ciphertext2_gen in H. rewrite EI in *. apply bind_ub in H as [H|(p & EPG & H)]; [revert H; now apply no_ub_plaintext|].
    apply plaintext_gen_le in EPG. apply bind_ub in H as [H|([] & EN2 & H)]; [now apply no_ub_new in H|]. apply new_ok in EN2.
    apply bind_ub in H as [H|(key & _ & H)]; [revert H; apply no_ub_kdf; [exact K|lia]|].
    destruct (N.ltb_spec (CIPHERTEXT2_SIZE cf) (lenN p)); [lia|discriminate]. }
  apply bind_ub in H as [H|(m2 & E2 & H)].
  { unfold msg2_encode in H. apply bind_ub in H as [H|([] & _ & H)]; [now apply no_ub_new in H|now apply no_ub_encode in H]. }
  apply bind_ub in H as [H|(th3 & E3 & H)]; [|discriminate]. revert H. apply no_ub_th34. apply th2_ok in ET as ->. apply (ok_hash_len cr K).
Qed.

(** message_2 *)
Lemma msg2_ub l c_cap i st h1 m2 creds si sr u : usable_cfg cf -> get_suite l = Ok st -> 32 <= lenN (i_x i) -> 32 <= lenN (i_i i) ->
  msg2_process cr cf pf i st h1 m2 creds c_cap si sr = UB u ->
  exists g_y ct rest g_xy, dec_bstr m2 = Some (g_y ++ ct, rest) /\ lenN g_y = 32 /\
    cr_dh cr (ecdh_id (edhoc_ecdh st)) (key_bytes (edhoc_ecdh st) (i_x i)) g_y = Some g_xy /\
    let th2 := cr_hash cr (rfc_th2_input g_y h1) in
    let prk := rfc_prk_2e (cr_hmac cr) th2 g_xy in
    harmful_2 c_cap cr cf pf i creds st sr prk th2 (rfc_xor ct (rfc_kdf (cr_hmac cr) prk L_KEYSTREAM_2 th2 (lenN ct))).
Proof.
  intros (SM & P2 & _) HL KX KI H. unfold msg2_process in H. cbv zeta in H.
  assert (E32 : get_ecdh_pk_len (edhoc_ecdh st) = 32) by (destruct (edhoc_ecdh st); reflexivity). rewrite E32 in H.
  apply bind_ub in H as [H|([] & _ & H)]; [now apply no_ub_new in H|].
  apply bind_ub in H as [H|([] & _ & H)]; [now apply no_ub_new in H|].
  apply bind_ub in H as [H|([g_y ct] & EP & H)].
  { exfalso. unfold msg2_parse in H. apply bind_ub in H as [H|(b & _ & H)].
    - unfold decode_bstr in H. apply bind_ub in H as [H|([b r'] & _ & H)]; [now apply no_ub_ext in H|].
      apply bind_ub in H as [H|(x & _ & H)]; [now apply no_ub_check in H|discriminate].
    - destruct (_ <? _) in H; [destruct (_ =? _) in H; discriminate|]. apply bind_ub in H as [H|(x & _ & H)]; [now apply no_ub_copy in H|discriminate]. }
  assert (PARSE : exists rest, dec_bstr m2 = Some (g_y ++ ct, rest) /\ lenN g_y = 32).
  { unfold msg2_parse in EP. apply bind_ok in EP as (b & EB & EP). unfold decode_bstr in EB. apply bind_ok in EB as ([b' rest] & E1 & EB).
    apply ext_ok in E1. apply bind_ok in EB as ([] & _ & EB). injection EB as ->.
    destruct (N.ltb_spec (lenN b) 32) as [Q|Q]; [destruct (_ =? _) in EP; discriminate|]. apply bind_ok in EP as (c & EC & EP).
    injection EP as <- <-. apply copy_null_inv in EC as [-> _]. exists rest. rewrite takeN_dropN. split; [exact E1|].
    rewrite lenN_takeN. lia. }
  destruct PARSE as (rest & DB & LG).
  apply bind_ub in H as [H|(g_xy & EX & H)].
  { exfalso. revert H. apply no_ub_ssd32. intros _. split; [exact KX|lia]. }
  apply ssd_inv in EX. replace (key_bytes (edhoc_ecdh st) g_y) with g_y in EX.
  2:{ unfold key_bytes. destruct (edhoc_ecdh st); [reflexivity|]. symmetry. apply takeN_all. lia. }
  exists g_y, ct, rest, g_xy. split; [exact DB|]. split; [exact LG|]. split; [exact EX|].
  apply bind_ub in H as [H|(th2 & ET & H)]; [now apply no_ub_th2 in H|]. apply th2_ok in ET. cbv zeta. rewrite <- ET.
  assert (TL : lenN th2 = 32) by (rewrite ET; apply (ok_hash_len cr K)).
  assert (TN : th2 <> []) by (intros Q; rewrite Q in TL; discriminate).
  rewrite extract_rfc in H by exact TN. change (cr_hmac cr th2 g_xy) with (rfc_prk_2e (cr_hmac cr) th2 g_xy) in H.
  set (prk := rfc_prk_2e (cr_hmac cr) th2 g_xy) in *.
  apply bind_ub in H as [H|([] & ECK & H)]; [now apply no_ub_check in H|]. apply check_ok in ECK.
  set (pt := rfc_xor ct (rfc_kdf (cr_hmac cr) prk L_KEYSTREAM_2 th2 (lenN ct))).
  assert (XOR : forall key, key_gen_2 cr cf prk th2 (lenN ct) = Ok key -> xor_bytes ct key = pt).
  { intros key Q. unfold key_gen_2 in Q. apply kdf_ok in Q as [-> _]; [|exact (ok_hmac_len cr K)|lia]. unfold pt. now rewrite rfc_xor_eq. }
  apply bind_ub in H as [H|([pt' s] & ES & H)].
  - unfold ciphertext2_decrypt_split in H. apply bind_ub in H as [H|([] & _ & H)]; [now apply no_ub_new in H|].
    apply bind_ub in H as [H|(key & EK & H)]; [exfalso; revert H; apply no_ub_kdf; [exact K|lia]|].
    apply bind_ub in H as [H|(aad & EA & H)]; [now apply no_ub_aad in H|]. rewrite (XOR key EK) in H.
    apply bind_ub in H as [H|(s & _ & H)]; [|discriminate]. apply split2_ub in H as (p & HP & HH). exists p. auto.
  - unfold ciphertext2_decrypt_split in ES. apply bind_ok in ES as ([] & _ & ES). apply bind_ok in ES as (key & EK & ES).
    apply bind_ok in ES as (aad & _ & ES). rewrite (XOR key EK) in ES. apply bind_ok in ES as (s' & ES & Q). injection Q as <- ->.
    destruct (split2_parts _ _ _ _ _ ES) as (p & HP & HS). exists p. split; [exact HP|].
    assert (HA : ID_CRED_R_SIZE cf < 2 ^ 64) by lia.
    apply bind_ub in H as [H|(f & EF & H)].
    { destruct (lookup_ub _ _ _ _ _ _ _ HS (proj1 (ptxt2_decoded _ _ HP)) HA H); auto. }
    destruct (sp_id_cred s) as [id|] eqn:EID; [|discriminate].
    right; right. exists s, id, f. split; [exact ES|]. split; [exact EID|]. split; [exact EF|].
    apply bind_ub in H as [H|(p3 & EK3 & H)].
    { apply prk_ub in H; [|exact KX]. right. left. exact H. }
    apply bind_ub in H as [H|([] & EV & H)].
    + apply (verify_ub l) in H; [|exact HL]. destruct H as [H|[H|[H|(EQ & more & MN & H)]]]; [left; exact H|right; right; left; exact H|right; right; right; left; exact H|].
      right; right; right; right. split; [exact EQ|]. apply prk_inv in EK3; [|exact K]. rewrite EQ in EK3. exists p3. split; [exact EK3|].
      exists more. exact (conj MN H).
    + exfalso. apply bind_ub in H as [H|(th3 & ET3 & H)]; [now apply no_ub_th34 in H|].
      apply bind_ub in H as [H|(p4 & EP4 & H)]; [|discriminate]. apply prk_ub in H as (_ & _ & Q); [lia|exact KI].
Qed.

(** messages that are processed up to the splitting of the plaintext *)
Lemma msg2_split_ub i st h1 creds si sr g_y g_xy pt u :
  lenN h1 = 32 -> lenN g_y = 32 -> shared_secret_derive cr (edhoc_ecdh st) (i_x i) g_y = Ok g_xy -> ct2_accepted cf (lenN pt) ->
  plaintext2_split pt (C_R_SIZE cf) (ID_CRED_R_SIZE cf) (EAD_SIZE cf) = UB u ->
  let th2 := cr_hash cr (rfc_th2_input g_y h1) in
  let ks := rfc_kdf (cr_hmac cr) (rfc_prk_2e (cr_hmac cr) th2 g_xy) L_KEYSTREAM_2 th2 (lenN pt) in
  msg2_process cr cf pf i st h1 (cbor (CBytes (g_y ++ rfc_xor pt ks))) creds (C_R_SIZE cf) si sr = UB u.
Proof.
  intros HH HG HX HCT HU th2 ks. pose proof HCT as [HN HA]. pose proof (ct2_accepted_le cf _ HCT) as HLE.
  assert (LK : lenN ks = lenN pt) by (apply kdf_len, (ok_hmac_len cr K)).
  set (ct := rfc_xor pt ks). assert (LC : lenN ct = lenN pt) by (unfold ct; rewrite rfc_xor_eq; apply xor_len; lia).
  set (n := lenN pt) in *. unfold msg2_process.
  assert (E32 : get_ecdh_pk_len (edhoc_ecdh st) = 32) by (destruct (edhoc_ecdh st); reflexivity). rewrite E32.
  rewrite new_fits by (apply N.leb_le; reflexivity). cbn [bind].
  assert (LM : lenN (cbor (CBytes (g_y ++ ct))) = head_len (32 + n) + (32 + n)).
  { rewrite cbor_bytes, enc_bstr_len, lenN_app, HG, LC. reflexivity. }
  rewrite LM. fold (ct2_array n). rewrite new_fits by exact HA. cbn [bind].
  assert (EP : msg2_parse cf (cbor (CBytes (g_y ++ ct))) 32 (ct2_array n) = Ok (g_y, ct)).
  { unfold msg2_parse, decode_bstr. rewrite cbor_bytes, <- (app_nil_r (enc_bstr _)), dec_enc_bstr.
    - cbn [ext bind]. rewrite check_fits; [cbn [bind]|].
      + rewrite lenN_app, HG, LC. destruct (N.ltb_spec (32 + n) 32); [lia|].
        rewrite <- HG, dropN_app, takeN_app. rewrite copy_null_ok; [reflexivity|]. rewrite LC. apply ct2_array_ge, HN.
      + rewrite lenN_app, HG, LC. unfold G_Y_CIPHERTEXT_2. change G_Y_SIZE with 32. lia.
    - rewrite lenN_app, HG, LC. lia. }
  rewrite EP. cbn [bind]. rewrite HX. cbn [bind]. rewrite th2_rfc by assumption. cbn [bind]. fold th2.
  assert (T32 : lenN th2 = 32) by apply (ok_hash_len cr K).
  assert (T2 : th2 <> []) by (intros Q; rewrite Q in T32; discriminate).
  rewrite extract_rfc by exact T2. change (cr_hmac cr th2 g_xy) with (rfc_prk_2e (cr_hmac cr) th2 g_xy).
  rewrite LC. rewrite check_fits by exact HLE. cbn [bind].
  unfold ciphertext2_decrypt_split. rewrite LC. rewrite new_fits by exact HLE. cbn [bind]. unfold key_gen_2.
  rewrite (kdf32 cr cf K); [cbn [bind]|reflexivity|exact HN|exact T32]. rewrite aad_rfc by exact T32. cbn [bind].
  change KEYSTREAM_2 with L_KEYSTREAM_2. change (rfc_kdf (cr_hmac cr) (rfc_prk_2e (cr_hmac cr) th2 g_xy) L_KEYSTREAM_2 th2 n) with ks.
  assert (EX : xor_bytes ct ks = pt) by (unfold ct; rewrite rfc_xor_eq; apply xor_xor; exact LK).
  rewrite EX, HU. reflexivity.
Qed.
Lemma msg3_split_ub l r rc creds n ct pt u :
  get_suite l = Ok (rr_suite rc) -> lenN (rr_th3 rc) = 32 -> 16 <= CIPHERTEXT2_SIZE cf ->
  lenN (cbor (CBytes ct)) <= CIPHERTEXT3_SIZE cf -> lenN ct <= PLAINTEXT3_SIZE cf + edhoc_mac_len_static_dh (rr_suite rc) -> lenN ct < 2 ^ 64 ->
  cr_aead_dec cr (rfc_kdf (cr_hmac cr) (rr_prk_3e2m rc) L_K_3 (rr_th3 rc) 16) (rfc_kdf (cr_hmac cr) (rr_prk_3e2m rc) L_IV_3 (rr_th3 rc) 13)
      (rfc_aad (rr_th3 rc)) (edhoc_mac_len_static_dh (rr_suite rc)) ct = Some pt ->
  plaintext3_split pt (ID_CRED_I_SIZE cf) (if EAD_SIZE cf =? 0 then 0 else lenN (rr_ead rc)) = UB u ->
  msg3_process cr cf pf r rc (cbor (CBytes ct)) creds n = UB u.
Proof.
  intros HL HT H16 HC HP HC64 HD HU. pose proof (suite_lens l _ HL) as (S1 & S2 & S3 & S4 & S5).
  unfold msg3_process, msg3_process_full. cbv zeta. rewrite new_fits by exact HC. cbn [bind].
  unfold decode_bstr. rewrite cbor_bytes, <- (app_nil_r (enc_bstr _)), dec_enc_bstr by exact HC64. cbn [ext bind].
  rewrite check_fits by (rewrite app_nil_r; unfold enc_bstr; rewrite lenN_app; lia). cbn [bind].
  rewrite S4, new_fits by exact HP. cbn [bind]. unfold ciphertext3_decrypt_split. rewrite S2, new_fits by exact H16. cbn [bind].
  unfold key_gen_3. rewrite S2, S3. rewrite !(kdf32 cr cf K) by (first [reflexivity|exact HT|lia]). cbn [bind].
  rewrite aad_rfc by exact HT. cbn [bind]. rewrite S4. pose proof (ok_aead_dec_len cr K _ _ _ _ _ _ HD) as LD.
  destruct (N.ltb_spec (lenN ct) (edhoc_mac_len_static_dh (rr_suite rc))); [lia|].
  change K_3 with L_K_3. change IV_3 with L_IV_3. rewrite HD. cbn [ext bind]. rewrite HU. reflexivity.
Qed.
End Ub.

Lemma bstr_not b r : lenN b < 2 ^ 64 -> dec_id_cred_map (enc_bstr b ++ r) = None /\ dec_int (enc_bstr b ++ r) = None.
Proof.
  intros H. unfold dec_id_cred_map, dec_map, dec_int, enc_bstr. rewrite <- app_assoc, dec_enc_head by exact H. split; reflexivity.
Qed.
Lemma ptxt3_string kid sig r : lenN kid < 2 ^ 64 -> lenN sig < 2 ^ 64 ->
  cbor_decode_ptxt3 (cbor (CBytes kid) ++ cbor (CBytes sig) ++ r) =
  Some {| pt_c_r := None; pt_id_cred := IdBstr kid; pt_sgn_or_mac := sig; pt_ead := dec_opt_bstr r |}.
Proof.
  intros H1 H2. unfold cbor_decode_ptxt3, dec_id_cred_choice. rewrite !cbor_bytes.
  rewrite (proj1 (bstr_not kid _ H1)), dec_enc_bstr by exact H1. rewrite dec_enc_bstr by exact H2. reflexivity.
Qed.
Lemma split3_string kid sig r a b : lenN kid < 2 ^ 64 -> lenN sig < 2 ^ 64 ->
  plaintext3_split (cbor (CBytes kid) ++ cbor (CBytes sig) ++ r) a b = UB Uninit.
Proof. intros H1 H2. unfold plaintext3_split. now rewrite ptxt3_string. Qed.
Lemma split2_string c kid sig r n a b : lenN c < 2 ^ 64 -> lenN c <= n -> lenN kid < 2 ^ 64 -> lenN sig < 2 ^ 64 ->
  plaintext2_split (cbor (CBytes c) ++ cbor (CBytes kid) ++ cbor (CBytes sig) ++ r) n a b = UB Uninit.
Proof.
  intros H0 HN H1 H2. unfold plaintext2_split, cbor_decode_ptxt2, dec_int_or_bstr. rewrite (cbor_bytes c), (proj2 (bstr_not c _ H0)).
  rewrite dec_enc_bstr by exact H0. rewrite ptxt3_string by assumption. cbn [ext bind pt_c_r]. rewrite copy_null_ok by exact HN. reflexivity.
Qed.
