(** message_4 *)
From Verif Require Import Base Proof_Base Model_Common Model_Cbor Proof_Cbor Model_Crypto
  Spec_CborTree Proof_CborTree Spec_Hkdf Proof_Hkdf Spec_Edhoc Model_EdhocCfg Model_EdhocCbor Model_EdhocKeys
  Proof_EdhocBase Model_EdhocCert Model_EdhocMsg Model_EdhocRun Model_EdhocMsg4 Proof_EdhocMsg Proof_EdhocRun.

Section Msg4.
Variable cr : crypto.
Variable cf : cfg.
Variable pf : platform.
Hypothesis K : crypto_ok cr.
Hypothesis HS : small cf.
Local Notation hmac := (cr_hmac cr).

(** the AEAD of message_4 *)
Definition k4 (prk th : bytes) := rfc_kdf hmac prk L_K_4 th 16.
Definition iv4 (prk th : bytes) := rfc_kdf hmac prk L_IV_4 th 13.

Lemma key_gen_4_fits l st prk th : get_suite l = Ok st -> lenN th = 32 ->
  key_gen_4 cr cf st prk th = Ok (k4 prk th, iv4 prk th).
Proof.
  intros HL HT. destruct (suite_lens l st HL) as (_ & S2 & S3 & _). unfold key_gen_4. rewrite S2, S3.
  rewrite (kdf32 cr cf K _ K_4); [cbn [bind]|reflexivity|lia|exact HT].
  rewrite (kdf32 cr cf K _ IV_4); [cbn [bind]|reflexivity|lia|exact HT]. reflexivity.
Qed.
Lemma ct4_gen_fits l st ead prk th : get_suite l = Ok st -> lenN th = 32 -> lenN ead <= PLAINTEXT4_SIZE cf ->
  ciphertext4_gen cr cf st ead prk th (PLAINTEXT4_SIZE cf) (CIPHERTEXT4_SIZE cf) =
  if EAD_SIZE cf + 8 <? lenN ead + edhoc_mac_len_static_dh st then UB OobWrite
  else ext (cr_aead_enc cr (k4 prk th) (iv4 prk th) (rfc_aad th) (edhoc_mac_len_static_dh st) ead).
Proof.
  intros HL HT HE. destruct (suite_lens l st HL) as (_ & S2 & S3 & S4 & _). unfold ciphertext4_gen.
  rewrite new_fits by (apply N.leb_le; reflexivity). cbn [bind].
  change (encode_bstr [] (as_bstr_size 0)) with (Ok [64] : res bytes). cbn [bind].
  assert (EP : (if 0 <? lenN ead then append (PLAINTEXT4_SIZE cf) [] ead else Ok []) = Ok ead).
  { destruct ead as [|b ead]; [reflexivity|]. destruct (N.ltb_spec 0 (lenN (b :: ead))) as [Q|Q]; [|rewrite lenN_cons in Q; lia].
    unfold append. change (lenN (@nil N)) with 0. rewrite N.add_0_r.
    destruct (N.ltb_spec (PLAINTEXT4_SIZE cf) (lenN (b :: ead))); [lia|reflexivity]. }
  rewrite EP. cbn [bind]. rewrite S2. pose proof (ct2_size_ge cf) as CG. rewrite new_fits by lia. cbn [bind].
  rewrite (key_gen_4_fits l) by assumption. cbn [bind]. rewrite aad_rfc by exact HT. cbn [bind]. rewrite S4. reflexivity.
Qed.
Lemma msg4_process_fits l st ead2 prk th ead ct : get_suite l = Ok st -> lenN th = 32 ->
  cr_aead_enc cr (k4 prk th) (iv4 prk th) (rfc_aad th) (edhoc_mac_len_static_dh st) ead = Some ct ->
  lenN ead + edhoc_mac_len_static_dh st <= EAD_SIZE cf + 8 ->
  msg4_process cr cf st ead2 prk th (cbor (CBytes ct)) = ead4_get cf ead (lenN ead2).
Proof.
  intros HL HT HC HE. destruct (suite_lens l st HL) as (_ & S2 & S3 & S4 & _).
  pose proof (ok_aead_enc_len cr K _ _ _ _ _ _ HC) as LC.
  assert (SM : EAD_SIZE cf < 2 ^ 30) by (unfold small in HS; lia).
  unfold msg4_process, decode_bstr. rewrite cbor_bytes. rewrite <- (app_nil_r (enc_bstr ct)), dec_enc_bstr by lia.
  cbn [ext bind]. unfold CIPHERTEXT4_SIZE, PLAINTEXT4_SIZE. change COSE_ENC0_STR_LEN with 8. rewrite S4.
  rewrite check_fits by lia. cbn [bind]. rewrite new_fits by lia. cbn [bind].
  unfold ciphertext4_decrypt. rewrite S2, S4. pose proof (ct2_size_ge cf) as CG. rewrite new_fits by lia. cbn [bind].
  rewrite (key_gen_4_fits l) by assumption. cbn [bind]. rewrite aad_rfc by exact HT. cbn [bind].
  destruct (N.ltb_spec (lenN ct) (edhoc_mac_len_static_dh st)); [lia|].
  rewrite (ok_aead cr K _ _ _ _ _ _ HC). reflexivity.
Qed.
Lemma msg4_gen_sound l st ead prk th cap m : get_suite l = Ok st ->
  msg4_gen cr cf st ead prk th cap = Ok m ->
  exists ct, cr_aead_enc cr (k4 prk th) (iv4 prk th) (rfc_aad th) (edhoc_mac_len_static_dh st) ead = Some ct /\ m = cbor (CBytes ct).
Proof.
  intros HL E. destruct (suite_lens l st HL) as (_ & S2 & S3 & S4 & _).
  unfold msg4_gen in E. apply bind_ok in E as (ct & E & EM). exists ct. apply encode_bstr_ok in EM as [-> _]. split; [|symmetry; apply cbor_bytes].
  unfold ciphertext4_gen in E. apply bind_ok in E as ([] & _ & E). apply bind_ok in E as (? & _ & E).
  apply bind_ok in E as (p & EP & E). apply bind_ok in E as ([] & _ & E). apply bind_ok in E as ([key iv] & EG & E).
  apply bind_ok in E as (aad & EA & E). apply aad_ok in EA as ->. cbv zeta in E. destruct (_ <? _) in E; [discriminate|].
  apply ext_ok in E. unfold key_gen_4 in EG. apply bind_ok in EG as (k & EK & EG). apply bind_ok in EG as (iv' & EI & EG). injection EG as -> ->.
  rewrite S2 in EK. rewrite S3 in EI. apply kdf_ok in EK as [-> _]; [|exact (ok_hmac_len cr K)|lia].
  apply kdf_ok in EI as [-> _]; [|exact (ok_hmac_len cr K)|lia]. rewrite S4 in E.
  assert (p = ead) as ->; [|exact E].
  destruct (N.ltb_spec 0 (lenN ead)) as [Q|Q].
  - unfold append in EP. destruct (_ <? _) in EP; [discriminate|]. now injection EP as <-.
  - injection EP as <-. destruct ead; [reflexivity|rewrite lenN_cons in Q; lia].
Qed.
Lemma msg4_sound l st ead2 prk th m ead : get_suite l = Ok st ->
  msg4_process cr cf st ead2 prk th m = Ok ead ->
  exists ct rest pt, dec_bstr m = Some (ct, rest) /\
    cr_aead_dec cr (k4 prk th) (iv4 prk th) (rfc_aad th) (edhoc_mac_len_static_dh st) ct = Some pt /\
    ((pt = [] /\ ead = []) \/ exists rest', dec_bstr pt = Some (ead, rest')).
Proof.
  intros HL E. destruct (suite_lens l st HL) as (_ & S2 & S3 & S4 & _).
  unfold msg4_process in E. apply bind_ok in E as (ct & E1 & E). apply bind_ok in E as ([] & _ & E).
  unfold decode_bstr in E1. apply bind_ok in E1 as ([b rest] & E1 & E2). apply bind_ok in E2 as ([] & _ & E2). injection E2 as ->.
  apply ext_ok in E1. unfold ciphertext4_decrypt in E. apply bind_ok in E as ([] & _ & E). apply bind_ok in E as ([key iv] & EG & E).
  apply bind_ok in E as (aad & EA & E). apply aad_ok in EA as ->. cbv zeta in E. destruct (_ <? _) in E; [discriminate|].
  apply bind_ok in E as (pt & ED & E). apply ext_ok in ED.
  unfold key_gen_4 in EG. apply bind_ok in EG as (k & EK & EG). apply bind_ok in EG as (iv' & EI & EG). injection EG as -> ->.
  rewrite S2 in EK. rewrite S3 in EI. apply kdf_ok in EK as [-> _]; [|exact (ok_hmac_len cr K)|lia].
  apply kdf_ok in EI as [-> _]; [|exact (ok_hmac_len cr K)|lia]. rewrite S4 in ED.
  exists ct, rest, pt. split; [exact E1|]. split; [exact ED|].
  unfold ead4_get in E. destruct (N.eqb_spec (lenN pt) 0) as [Q|Q].
  - left. injection E as <-. split; [|reflexivity]. destruct pt; [reflexivity|rewrite lenN_cons in Q; lia].
  - right. apply bind_ok in E as ([b' rest'] & EB & E). apply ext_ok in EB. exists rest'. rewrite EB. f_equal. f_equal.
    destruct (N.eqb_spec (lenN b') 0) as [Q'|Q'].
    + injection E as <-. destruct b'; [reflexivity|rewrite lenN_cons in Q'; lia].
    + destruct (EAD_SIZE cf =? 0) in E; [discriminate|]. apply bind_ok in E as ([] & _ & E). now injection E as <-.
Qed.
End Msg4.

(** the messages sent in both builds *)
Lemma sent4_i cr cf pf i creds cap prk_len e :
  o_sent (initiator_run4_extended cr cf pf i creds cap prk_len e) = o_sent (initiator_run_extended cr cf pf i creds cap prk_len e).
Proof.
  unfold initiator_run4_extended, initiator_run_extended.
  destruct (msg1_gen cr cf i) as [[[m1 st] h1]|?|?]; try reflexivity.
  destruct (e_tx e 1 m1) as [?|?|?]; try reflexivity. destruct (receive cf e 2 [m1]) as [m2|?|?]; try reflexivity.
  destruct (msg3_gen cr cf pf i st h1 m2 creds cap prk_len) as [[[aa m3] prk]|?|?]; try reflexivity.
  destruct (e_ead e 2 (a2_ead aa)) as [?|?|?]; try reflexivity. destruct (e_tx e 3 m3) as [?|?|?]; try reflexivity.
  destruct (receive cf e 4 [m1; m3]) as [m4|?|?]; try reflexivity.
  destruct (msg4_process _ _ _ _ _ _ _) as [?|?|?]; reflexivity.
Qed.
Lemma sent4_r cr cf pf r ead_4 creds cap pk prk_len e :
  nth_error (o_sent (responder_run4_extended cr cf pf r ead_4 creds cap pk prk_len e)) 0 =
  nth_error (o_sent (responder_run_extended cr cf pf r creds cap pk prk_len e)) 0.
Proof.
  unfold responder_run4_extended, responder_run_extended.
  destruct (receive cf e 1 []) as [m1|?|?]; try reflexivity. destruct (msg2_gen cr cf r m1 cap) as [[c_i rc]|?|?]; try reflexivity.
  destruct (e_ead e 1 (rr_ead rc)) as [?|?|?]; try reflexivity. destruct (e_tx e 2 (rr_msg rc)) as [?|?|?]; try reflexivity.
  destruct (receive cf e 3 [rr_msg rc]) as [m3|?|?]; try reflexivity. unfold msg3_process.
  destruct (msg3_process_full _ _ _ _ _ _ _ _) as [[[[e3 k] prk] [p4 t4]]|?|?]; try reflexivity. cbn [bind].
  destruct (e_ead e 3 e3) as [?|?|?]; try reflexivity. destruct (msg4_gen _ _ _ _ _ _ _) as [?|?|?]; reflexivity.
Qed.
Lemma receive_fits cf e n s m : e_rx e n s = Ok m -> lenN m <= MSG_MAX_SIZE cf -> receive cf e n s = Ok m.
Proof. intros E L. unfold receive. rewrite E. cbn [bind]. destruct (N.ltb_spec (MSG_MAX_SIZE cf) (lenN m)); [lia|reflexivity]. Qed.
