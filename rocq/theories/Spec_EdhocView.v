(** What one party of EDHOC believes the session to be, what it means that two such
    views have the same key, and what an attacker must have found otherwise. *)
From Verif Require Import Base Model_Cbor Model_Crypto Model_EdhocCfg Model_EdhocCert Model_EdhocMsg Model_EdhocRun
  Spec_CborTree Spec_Hkdf Spec_Edhoc Spec_EdhocRun.

Record view := {
  v_m1 : bytes;          (* message_1 *)
  v_g_y : bytes;
  v_pt2 : bytes;         (* PLAINTEXT_2 *)
  v_cred_r : bytes;
  v_prk_3e2m : bytes;
  v_pt3 : bytes;
  v_cred_i : bytes;
  v_prk_4e3m : bytes
}.
Section View.
Variable cr : crypto.
Variable v : view.
Definition v_th2_input : bytes := rfc_th2_input (v_g_y v) (cr_hash cr (v_m1 v)).
Definition v_th3_input : bytes := rfc_th34_input (cr_hash cr v_th2_input) (v_pt2 v) (v_cred_r v).
Definition v_th4_input : bytes := rfc_th34_input (cr_hash cr v_th3_input) (v_pt3 v) (v_cred_i v).
Definition v_prk_out (len : N) : bytes := rfc_kdf (cr_hmac cr) (v_prk_4e3m v) L_PRK_out (cr_hash cr v_th4_input) len.
(** the first block of HKDF-Expand *)
Definition v_block (len : N) : bytes := rfc_edhoc_info L_PRK_out (cr_hash cr v_th4_input) len ++ [1].
End View.

(** message_2 was verified by the initiator [i] that uses the suite [st] and the
    methods [si], [sr]: the view up to PRK_4e3m follows from the keys, the received
    message and the credential [f] that was looked up; [s] are the parts of
    PLAINTEXT_2, and the Signature_or_MAC field among them vouches for the rest.
    [c_cap] is the length of the array for C_R. *)
Definition verified_message_2_into (c_cap : N) (cr : crypto) (cf : cfg) (pf : platform) (i : initiator)
    (creds : list other_party_cred) (st : suite) (si sr : bool) (m2 : bytes) (s : split) (f : found) (v : view) : Prop :=
  v_m1 v = rfc_message_1 (i_method i) (i_suites i) (i_g_x i) (i_c_i i) (i_ead_1 i) /\ v_cred_r v = f_cred f /\
  exists ct rest g_xy id,
    dec_bstr m2 = Some (v_g_y v ++ ct, rest) /\ lenN (v_g_y v) = 32 /\
    cr_dh cr (ecdh_id (edhoc_ecdh st)) (key_bytes (edhoc_ecdh st) (i_x i)) (v_g_y v) = Some g_xy /\
    let th2 := cr_hash cr (v_th2_input cr v) in
    let th3 := cr_hash cr (v_th3_input cr v) in
    let prk_2 := rfc_prk_2e (cr_hmac cr) th2 g_xy in
    (lenN ct <= 8128 -> v_pt2 v = rfc_xor ct (rfc_kdf (cr_hmac cr) prk_2 L_KEYSTREAM_2 th2 (lenN ct))) /\
    plaintext2_split (v_pt2 v) c_cap (ID_CRED_R_SIZE cf) (EAD_SIZE cf) = Ok s /\ sp_id_cred s = Some id /\
    retrieve_cred cr pf sr creds (Some id) (CRED_R_SIZE cf) = Ok f /\
    prk_after cr sr st prk_2 L_SALT_3e2m th2 (i_x i) (f_g f) (v_prk_3e2m v) /\
    vouches cr sr st (f_pk f) (v_prk_3e2m v) (sp_c_r s) th2 id (f_cred f) (sp_ead s) L_MAC_2 (sp_sig s) /\
    prk_after cr si st (v_prk_3e2m v) L_SALT_4e3m th3 (i_i i) (v_g_y v) (v_prk_4e3m v).
(** with the array of edhoc_initiator_run *)
Definition verified_message_2 (cr : crypto) (cf : cfg) := verified_message_2_into (C_R_SIZE cf) cr cf.
(** message_3 is PLAINTEXT_3 under the keys of the session. *)
Definition sealed_message_3 (cr : crypto) (i : initiator) (st : suite) (m3 : bytes) (v : view) : Prop :=
  v_cred_i v = i_cred i /\
  let th3 := cr_hash cr (v_th3_input cr v) in
  exists ct3,
    cr_aead_enc cr (rfc_kdf (cr_hmac cr) (v_prk_3e2m v) L_K_3 th3 16) (rfc_kdf (cr_hmac cr) (v_prk_3e2m v) L_IV_3 th3 13)
      (rfc_aad th3) (edhoc_mac_len_static_dh st) (v_pt3 v) = Some ct3 /\ m3 = cbor (CBytes ct3).
(** The responder [r] received [m1] with [g_x] in it and made [m2]. *)
Definition made_message_2 (cr : crypto) (r : responder) (st : suite) (sr : bool) (g_x m1 m2 : bytes) (v : view) : Prop :=
  v_m1 v = m1 /\ v_g_y v = r_g_y r /\ v_cred_r v = r_cred r /\
  exists g_xy,
    cr_dh cr (ecdh_id (edhoc_ecdh st)) (key_bytes (edhoc_ecdh st) (r_y r)) (key_bytes (edhoc_ecdh st) g_x) = Some g_xy /\
    let th2 := cr_hash cr (v_th2_input cr v) in
    let prk_2 := rfc_prk_2e (cr_hmac cr) th2 g_xy in
    (exists ct2, m2 = cbor (CBytes (r_g_y r ++ ct2)) /\
       (lenN (v_pt2 v) <= 8128 -> ct2 = rfc_xor (v_pt2 v) (rfc_kdf (cr_hmac cr) prk_2 L_KEYSTREAM_2 th2 (lenN (v_pt2 v))))) /\
    prk_after cr sr st prk_2 L_SALT_3e2m th2 (r_r r) g_x (v_prk_3e2m v).
(** It verified message_3: [s] are the parts of PLAINTEXT_3. *)
Definition verified_message_3 (cr : crypto) (cf : cfg) (pf : platform) (r : responder) (creds : list other_party_cred)
    (st : suite) (si : bool) (m3 : bytes) (s : split) (f : found) (v : view) : Prop :=
  v_cred_i v = f_cred f /\
  let th3 := cr_hash cr (v_th3_input cr v) in
  exists ct rest id cap,
    dec_bstr m3 = Some (ct, rest) /\
    cr_aead_dec cr (rfc_kdf (cr_hmac cr) (v_prk_3e2m v) L_K_3 th3 16) (rfc_kdf (cr_hmac cr) (v_prk_3e2m v) L_IV_3 th3 13)
      (rfc_aad th3) (edhoc_mac_len_static_dh st) ct = Some (v_pt3 v) /\
    plaintext3_split (v_pt3 v) (ID_CRED_I_SIZE cf) cap = Ok s /\ sp_id_cred s = Some id /\
    retrieve_cred cr pf si creds (Some id) (CRED_I_SIZE cf) = Ok f /\
    prk_after cr si st (v_prk_3e2m v) L_SALT_4e3m th3 (r_y r) (f_g f) (v_prk_4e3m v) /\
    vouches cr si st (f_pk f) (v_prk_4e3m v) [] th3 id (f_cred f) (sp_ead s) L_MAC_3 (sp_sig s).

Definition hash_collision (cr : crypto) (a b : bytes) : Prop := a <> b /\ cr_hash cr a = cr_hash cr b.
(** The strings that the two parties hashed contain a collision. *)
Definition views_collide (cr : crypto) (v w : view) (n n' : N) : Prop :=
  hash_collision cr (v_m1 v) (v_m1 w) \/
  hash_collision cr (v_th2_input cr v) (v_th2_input cr w) \/
  hash_collision cr (v_th3_input cr v) (v_th3_input cr w) \/
  hash_collision cr (v_th4_input cr v) (v_th4_input cr w) \/
  (lenN (v_prk_4e3m v) = 32 /\ lenN (v_prk_4e3m w) = 32 /\
   (v_prk_4e3m v, v_block cr v n) <> (v_prk_4e3m w, v_block cr w n') /\
   cr_hmac cr (v_prk_4e3m v) (v_block cr v n) = cr_hmac cr (v_prk_4e3m w) (v_block cr w n')).

(** [b] is the end of [a]. *)
Definition ends_with (a b : bytes) : Prop := exists x, a = x ++ b.

(** What the owner of a credential signs in message_2 or message_3: the MAC depends
    on PRK_3e2m or PRK_4e3m. *)
Definition to_sign (cr : crypto) (prk c_r th id cred ead : bytes) (label : N) : bytes :=
  rfc_tbs id th cred ead (rfc_mac (cr_hmac cr) prk label (rfc_context (context_c c_r) id th cred ead) 32).
(** The Signature_or_MAC field of an honest party. *)
Definition made_field (cr : crypto) (static_dh : bool) (st : suite) (sk pk prk c_r th id cred ead : bytes) (label : N)
    (sg : bytes) : Prop :=
  if static_dh then sg = expected_mac cr prk c_r th id cred ead label true st
  else cr_sign cr (sign_sel (edhoc_sign st)) sk pk (to_sign cr prk c_r th id cred ead label) = Some sg.

(** Runs that ended with a key. *)
Definition initiator_ran (cr : crypto) (cf : cfg) (pf : platform) (i : initiator) (creds : list other_party_cred)
    (n : N) (e : env) (o : outcome) (s : split) (f : found) (v : view) : Prop :=
  exists st si sr m2 m3,
    get_suite (last (i_suites i) 0) = Ok st /\ (i_method i <= 3 -> method_static (i_method i) si sr) /\
    e_rx e 2 [v_m1 v] = Ok m2 /\ o_sent o = [v_m1 v; m3] /\ o_peer_c o = Some (sp_c_r s) /\ o_eads o = [sp_ead s] /\
    verified_message_2 cr cf pf i creds st si sr m2 s f v /\ sealed_message_3 cr i st m3 v /\
    o_prk o = Some (v_prk_out cr v n).
Definition responder_ran (cr : crypto) (cf : cfg) (pf : platform) (r : responder) (creds : list other_party_cred)
    (ci_cap n : N) (e : env) (o : outcome) (s : split) (f : found) (v : view) : Prop :=
  exists m2 m3 me su g_x c_i ead_1 si sr st e1,
    e_rx e 1 [] = Ok (v_m1 v) /\ e_rx e 3 [m2] = Ok m3 /\ o_sent o = [m2] /\ o_peer_c o = Some c_i /\ o_eads o = [e1; sp_ead s] /\
    msg1_parse cf (v_m1 v) ci_cap = Ok (me, su, g_x, c_i, ead_1) /\ method_static me si sr /\ get_suite (last su 0) = Ok st /\
    made_message_2 cr r st sr g_x (v_m1 v) m2 v /\ verified_message_3 cr cf pf r creds st si m3 s f v /\
    o_prk o = Some (v_prk_out cr v n) /\ (forall k, o_peer_pk o = Some k -> k = f_pk f).

(** The occasions on which a party signs when it runs this code. *)
Inductive signing :=
| AsResponder (r : responder) (m1 prk_3e2m : bytes)
| AsInitiator (i : initiator) (m1 g_y pt2 cred_r prk_4e3m : bytes).
Definition s_th_input (cr : crypto) (x : signing) : bytes :=
  match x with
  | AsResponder r m1 _ => rfc_th2_input (r_g_y r) (cr_hash cr m1)
  | AsInitiator _ m1 g_y pt2 cred_r _ => rfc_th34_input (rfc_th2 (cr_hash cr) g_y m1) pt2 cred_r
  end.
Definition s_prk (x : signing) : bytes := match x with AsResponder _ _ p => p | AsInitiator _ _ _ _ _ p => p end.
Definition s_id (x : signing) : bytes := match x with AsResponder r _ _ => r_id_cred r | AsInitiator i _ _ _ _ _ => i_id_cred i end.
Definition s_cred (x : signing) : bytes := match x with AsResponder r _ _ => r_cred r | AsInitiator i _ _ _ _ _ => i_cred i end.
Definition s_ead (x : signing) : bytes := match x with AsResponder r _ _ => r_ead_2 r | AsInitiator i _ _ _ _ _ => i_ead_3 i end.
Definition s_c (x : signing) : bytes := match x with AsResponder r _ _ => r_c_r r | AsInitiator _ _ _ _ _ _ => [] end.
Definition s_label (x : signing) : N := match x with AsResponder _ _ _ => L_MAC_2 | AsInitiator _ _ _ _ _ _ => L_MAC_3 end.
Definition s_text (cr : crypto) (x : signing) : bytes :=
  to_sign cr (s_prk x) (s_c x) (cr_hash cr (s_th_input cr x)) (s_id x) (s_cred x) (s_ead x) (s_label x).
(** The MAC that is signed, as one HMAC *)
Definition mac_block (context : bytes) (label : N) : bytes := rfc_edhoc_info label context 32 ++ [1].
Definition s_block (cr : crypto) (x : signing) : bytes :=
  mac_block (rfc_context (context_c (s_c x)) (s_id x) (cr_hash cr (s_th_input cr x)) (s_cred x) (s_ead x)) (s_label x).
(** Sizes of real signings. *)
Definition possible (cr : crypto) (x : signing) : Prop :=
  lenN (s_text cr x) < 2 ^ 64 /\ lenN (s_block cr x) < 2 ^ 64 /\ lenN (s_prk x) = 32 /\
  match x with AsResponder r _ _ => lenN (r_g_y r) < 2 ^ 64 | AsInitiator _ _ g_y _ _ _ => lenN g_y < 2 ^ 64 end.

Definition hmac_collision (cr : crypto) (k m k' m' : bytes) : Prop :=
  lenN k = 32 /\ lenN k' = 32 /\ (k, m) <> (k', m') /\ cr_hmac cr k m = cr_hmac cr k' m'.
(** A session and a signing contain a collision: [label] is that of the message that
    the session verified. *)
Definition signing_collides (cr : crypto) (v : view) (th_input prk c_r id cred ead : bytes) (label : N) (x : signing) : Prop :=
  hash_collision cr th_input (s_th_input cr x) \/
  hmac_collision cr prk (mac_block (rfc_context (context_c c_r) id (cr_hash cr th_input) cred ead) label) (s_prk x) (s_block cr x) \/
  match x with
  | AsResponder _ m1 _ => hash_collision cr (v_m1 v) m1
  | AsInitiator _ m1 g_y _ _ _ =>
      hash_collision cr (v_th2_input cr v) (rfc_th2_input g_y (cr_hash cr m1)) \/ hash_collision cr (v_m1 v) m1
  end.
