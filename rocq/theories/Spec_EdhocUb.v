(** What an EDHOC message must contain to make its receiver misbehave, and which
    parties and callbacks are considered. *)
From Verif Require Import Base Model_Cbor Model_Crypto Model_EdhocCfg Model_EdhocCbor Model_EdhocCert Model_EdhocMsg
  Model_EdhocRun Spec_CborTree Spec_Hkdf Spec_Edhoc Spec_EdhocRun Spec_EdhocView.

(** The callbacks are those of a correct application: they do not misbehave and
    deliver messages that fit the buffer. *)
Definition correct_callbacks (cf : cfg) (e : env) : Prop :=
  (forall n m, is_ub (e_tx e n m) = false) /\ (forall n m, is_ub (e_ead e n m) = false) /\
  (forall n s, is_ub (e_rx e n s) = false) /\ (forall n s m, e_rx e n s = Ok m -> lenN m <= MSG_MAX_SIZE cf).
(** Buffers as in every configuration that can be built: sums do not exceed 2^30, a
    plaintext_2 is not longer than HKDF can produce. *)
Definition usable_cfg (cf : cfg) : Prop :=
  ID_CRED_I_SIZE cf + ID_CRED_R_SIZE cf + CRED_I_SIZE cf + CRED_R_SIZE cf + C_R_SIZE cf + C_I_SIZE cf + EAD_SIZE cf < 2 ^ 30 /\
  PLAINTEXT2_SIZE cf <= 8128 /\ 0 < SUITES_I_SIZE cf.
(** Own values of a responder, of an initiator. *)
Record set_up_responder (r : responder) (id_r : cred_id) : Prop := {
  su_r_id : r_id_cred r = rfc_id_cred id_r /\ id_range id_r;
  su_r_c : forall b, r_c_r r = [b] -> 23 < b;
  su_r_keys : 32 <= lenN (r_y r) /\ 32 <= lenN (r_r r)
}.
Record set_up_initiator (i : initiator) (id_i : cred_id) : Prop := {
  su_i_id : i_id_cred i = rfc_id_cred id_i /\ id_range id_i;
  su_i_suites : 1 <= lenN (i_suites i) <= 10;
  su_i_keys : 32 <= lenN (i_x i) /\ 32 <= lenN (i_i i)
}.

(** After message_2 = [m2] to message_1 = [m1], with the method [me], the suites [su] and G_X =
    [g_x], somebody sends the PLAINTEXT_3 [pt], which may depend on what the two sides
    share, encrypted with the keys of the session. *)
Definition sends_message_3 (cr : crypto) (cf : cfg) (r : responder) (e : env) (m1 m2 : bytes) (me : N) (su g_x : bytes)
    (pt : view -> bytes) : Prop :=
  forall st si sr v, get_suite (last su 0) = Ok st -> method_static me si sr -> made_message_2 cr r st sr g_x m1 m2 v ->
    lenN (v_pt2 v) <= 8128 ->
    exists ct, e_rx e 3 [m2] = Ok (cbor (CBytes ct)) /\ lenN (cbor (CBytes ct)) <= MSG_MAX_SIZE cf /\
      lenN (cbor (CBytes ct)) <= CIPHERTEXT3_SIZE cf /\
      let th3 := cr_hash cr (v_th3_input cr v) in
      cr_aead_enc cr (rfc_kdf (cr_hmac cr) (v_prk_3e2m v) L_K_3 th3 16) (rfc_kdf (cr_hmac cr) (v_prk_3e2m v) L_IV_3 th3 13)
        (rfc_aad th3) (edhoc_mac_len_static_dh st) (pt v) = Some ct.

(** ID_CRED_x that makes the receiver read what was never written: a kid that is a
    byte string, an x5t whose algorithm is a text string, a map with neither x5chain
    nor x5t. *)
Definition harmful_id (i : id_cred_choice) : Prop :=
  match i with
  | IdInt _ => False
  | IdBstr _ => True
  | IdMap m => match ic_x5t m with
               | Some (UInt _, _) => False
               | Some (UStr _, _) => True
               | None => ic_x5chain m = None
               end
  end.
(** A certificate that the certificate verification does not survive. *)
Definition harmful_cert (cr : crypto) (pf : platform) (static_dh : bool) (creds : list other_party_cred) (cap : N)
    (i : id_cred_choice) : Prop :=
  exists m cert, i = IdMap m /\ ic_x5chain m = Some cert /\ ic_x5t m = None /\
    is_ub (verify_cert2cred cr pf static_dh creds X509 cert cap) = true.
(** With the credential [f]: a static DH key of less than 32 bytes, an EdDSA
    signature of less than 64 bytes or a key for it of less than 32, a MAC of more than 32 bytes, or a field that
    continues the correct MAC. *)
Definition harmful_field (cr : crypto) (static_dh : bool) (st : suite) (f : found) (prk : bytes) (salt : N)
    (th sk c_r id ead : bytes) (label : N) (field : bytes) : Prop :=
  (static_dh = true /\ edhoc_ecdh st = X25519 /\ lenN (f_g f) < 32) \/
  (static_dh = false /\ edhoc_sign st = EdDSA /\ (lenN field < 64 \/ lenN (f_pk f) < 32)) \/
  (static_dh = true /\ 32 < lenN field) \/
  (static_dh = true /\ exists next, prk_after cr true st prk salt th sk (f_g f) next /\
     exists more, more <> [] /\ field = expected_mac cr next c_r th id (f_cred f) ead label true st ++ more).
(** C_R that is a single byte or an integer from 0 to 23 *)
Definition harmful_c_r (c : bytes) : Prop := exists b, c = [b] /\ b <= 23.

(** PLAINTEXT_3 that makes the responder misbehave; [prk], [th] are PRK_3e2m and TH_3. *)
Definition harmful_3 (cr : crypto) (cf : cfg) (pf : platform) (r : responder) (creds : list other_party_cred) (st : suite)
    (si : bool) (prk th pt : bytes) : Prop :=
  exists p, cbor_decode_ptxt3 pt = Some p /\
    (harmful_id (pt_id_cred p) \/ harmful_cert cr pf si creds (CRED_I_SIZE cf) (pt_id_cred p) \/
     exists cap s id f, plaintext3_split pt (ID_CRED_I_SIZE cf) cap = Ok s /\ sp_id_cred s = Some id /\
       retrieve_cred cr pf si creds (Some id) (CRED_I_SIZE cf) = Ok f /\
       harmful_field cr si st f prk L_SALT_4e3m th (r_y r) [] id (sp_ead s) L_MAC_3 (sp_sig s)).
(** PLAINTEXT_2 that makes the initiator misbehave; [prk], [th] are PRK_2e and TH_2,
    [c_cap] is the capacity of its array for C_R. *)
Definition harmful_2 (c_cap : N) (cr : crypto) (cf : cfg) (pf : platform) (i : initiator) (creds : list other_party_cred) (st : suite)
    (sr : bool) (prk th pt : bytes) : Prop :=
  exists p, cbor_decode_ptxt2 pt = Some p /\
    (harmful_id (pt_id_cred p) \/ harmful_cert cr pf sr creds (CRED_R_SIZE cf) (pt_id_cred p) \/
     exists s id f, plaintext2_split pt c_cap (ID_CRED_R_SIZE cf) (EAD_SIZE cf) = Ok s /\ sp_id_cred s = Some id /\
       retrieve_cred cr pf sr creds (Some id) (CRED_R_SIZE cf) = Ok f /\
       (harmful_c_r (sp_c_r s) \/
        harmful_field cr sr st f prk L_SALT_3e2m th (i_x i) (sp_c_r s) id (sp_ead s) L_MAC_2 (sp_sig s))).
