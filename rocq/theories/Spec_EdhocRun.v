(** What it takes for an initiator and a responder to fit together, and what is
    forged against them. *)
From Verif Require Import Base Model_Crypto Model_EdhocCfg Model_EdhocCert Model_EdhocRun Spec_CborTree Spec_Hkdf Spec_Edhoc.

(** A signature made with [sk] verifies under [pk]; keys for EdDSA (8) have 32 bytes. *)
Definition sign_pair (cr : crypto) (g : N) (sk pk : bytes) : Prop :=
  (g = 8 -> 32 <= lenN pk) /\
  forall m s, cr_sign cr g sk pk m = Some s -> cr_verify cr g pk m s = Some true.
(** The secret [s] of a private and a public key; X25519 keys have 32 bytes. *)
Definition dh_secret (cr : crypto) (alg : ecdh_alg) (sk pk s : bytes) : Prop :=
  cr_dh cr (ecdh_id alg) sk pk = Some s /\ (alg = X25519 -> lenN sk = 32 /\ lenN pk = 32).
(** AES-CCM encrypts every byte string of moderate size. *)
Definition aead_total (cr : crypto) : Prop :=
  forall k n a t p, lenN k = 16 -> lenN n = 13 -> t = 8 \/ t = 16 -> lenN p < 65536 -> is_bytes p ->
  cr_aead_enc cr k n a t p <> None.

(** [creds] contains a credential with this identifier; it is the first one. *)
Definition knows (creds : list other_party_cred) (id cred pk g : bytes) : Prop :=
  exists before o after, creds = before ++ o :: after /\ Forall (fun c => oc_id_cred c <> id) before /\
    oc_id_cred o = id /\ oc_cred o = cred /\ oc_pk o = pk /\ oc_g o = g.

(** RFC 9528 section 3.2: which party authenticates with a static DH key *)
Definition method_static (m : N) (si sr : bool) : Prop :=
  m = (if si then 2 else 0) + (if sr then 1 else 0).

(** lengths of the Signature_or_MAC fields, PLAINTEXT_2, PLAINTEXT_3 *)
Definition sig_len (static_dh : bool) (mac_len : N) : N := if static_dh then mac_len else 64.
Definition bstr_len (n : N) : N := (if n <? 24 then 1 else if n <? 256 then 2 else 3) + n.
Definition pt2_size (c_r : bytes) (id_r : cred_id) (sig : N) : N :=
  lenN (rfc_conn_id c_r) + lenN (rfc_id_cred_compact id_r) + bstr_len sig.
Definition pt3_size (id_i : cred_id) (sig : N) : N := lenN (rfc_id_cred_compact id_i) + bstr_len sig.

(** The callbacks of a run succeed. *)
Definition obliging (e : env) : Prop :=
  (forall n m, e_tx e n m = Ok tt) /\ (forall n m, e_ead e n m = Ok tt).
(** Both runs are connected: what one sends is what the other one receives. *)
Definition connected (ei er : env) (oi or : outcome) : Prop :=
  (forall m, nth_error (o_sent oi) 0 = Some m -> e_rx er 1 [] = Ok m) /\
  (forall m s, nth_error (o_sent or) 0 = Some m -> e_rx ei 2 s = Ok m) /\
  (forall m s, nth_error (o_sent oi) 1 = Some m -> e_rx er 3 s = Ok m).

(** The same with message_4, which the responder sends after message_2. *)
Definition connected4 (ei er : env) (oi or : outcome) : Prop :=
  connected ei er oi or /\ (forall m s, nth_error (o_sent or) 1 = Some m -> e_rx ei 4 s = Ok m).

(** message_2 of somebody who made G_Y and knows G_XY, but no key of the responder:
    the Signature_or_MAC_2 field is empty. *)
Definition forged_message_2 (hmac : bytes -> bytes -> bytes) (H : bytes -> bytes) (m1 g_y g_xy c_r : bytes)
    (id_r : cred_id) : bytes :=
  let th2 := rfc_th2 H g_y m1 in
  let pt := rfc_plaintext_2 c_r id_r [] [] in
  cbor (CBytes (g_y ++ rfc_xor pt (rfc_kdf hmac (rfc_prk_2e hmac th2 g_xy) L_KEYSTREAM_2 th2 (lenN pt)))).
(** message_3 of somebody who knows PRK_3e2m and TH_3 (every party that made G_X
    does), but no key of the initiator: the Signature_or_MAC_3 field is empty. *)
Definition forged_message_3 (hmac : bytes -> bytes -> bytes) (aead : bytes -> bytes -> bytes -> N -> bytes -> option bytes)
    (tag_len : N) (prk_3e2m th3 : bytes) (id_i : cred_id) : option bytes :=
  match aead (rfc_kdf hmac prk_3e2m L_K_3 th3 16) (rfc_kdf hmac prk_3e2m L_IV_3 th3 13) (rfc_aad th3) tag_len
          (rfc_plaintext_3 id_i [] []) with
  | Some ct => Some (cbor (CBytes ct))
  | None => None
  end.

(** Everything RFC 9528 needs to know about a session of these two parties. *)
Definition session (i : initiator) (r : responder) (st : suite) (si sr : bool) (m1 : bytes) (id_i id_r : cred_id)
    (g_xy g_rx g_iy s2 s3 : bytes) : rfc_run := {|
  x_m1 := m1; x_g_y := r_g_y r; x_g_xy := g_xy; x_static_r := sr; x_g_rx := g_rx; x_static_i := si; x_g_iy := g_iy;
  x_c_r := r_c_r r; x_ctx_c := match r_c_r r with [] => [] | _ => cbor (CBytes (r_c_r r)) end;
  x_id_r := id_r; x_cred_r := r_cred r; x_sig_2 := s2; x_id_i := id_i; x_cred_i := i_cred i; x_sig_3 := s3;
  x_mac2_len := if sr then edhoc_mac_len_static_dh st else 32;
  x_mac3_len := if si then edhoc_mac_len_static_dh st else 32;
  x_key_len := 16; x_iv_len := 13; x_tag_len := edhoc_mac_len_static_dh st |}.

(** identifiers that the code can represent *)
Definition id_range (i : cred_id) : Prop :=
  match i with
  | KidInt z => (- 2 ^ 31 <= z < 2 ^ 31)%Z
  | X5chain c => lenN c < 2 ^ 64
  | X5t a h => (- 2 ^ 31 <= a < 2 ^ 31)%Z /\ lenN h < 2 ^ 64
  end.

(** Looking up the identifier gives the credential and the key that is used. *)
Definition resolves (cr : crypto) (pf : platform) (static_dh : bool) (creds : list other_party_cred) (id : cred_id)
    (cap : N) (cred key : bytes) : Prop :=
  exists f, retrieve_cred cr pf static_dh creds (Some (rfc_id_cred id)) cap = Ok f /\ f_cred f = cred /\
    (if static_dh then f_g f else f_pk f) = key.

(** The two parties fit together: [key_r], [key_i] are the keys that the other one
    finds for them, [g_xy], [g_rx], [g_iy] the secrets. *)
Record fit (cr : crypto) (cf : cfg) (pf : platform) (i : initiator) (r : responder)
    (creds_i creds_r : list other_party_cred) (st : suite) (si sr : bool) (id_i id_r : cred_id)
    (key_i key_r g_xy g_rx g_iy : bytes) : Prop := {
  (* method and cipher suite *)
  fit_method : method_static (i_method i) si sr;
  fit_suites : is_bytes (i_suites i) /\ 1 <= lenN (i_suites i) <= 10 /\ lenN (i_suites i) <= SUITES_I_SIZE cf;
  fit_suite : get_suite (last (i_suites i) 0) = Ok st;
  fit_suites_r : r_suites r <> [];
  (* ephemeral keys *)
  fit_g_x : lenN (i_g_x i) = 32;
  fit_g_y : lenN (r_g_y r) = 32;
  fit_xy : dh_secret cr (edhoc_ecdh st) (i_x i) (r_g_y r) g_xy;
  fit_yx : dh_secret cr (edhoc_ecdh st) (r_y r) (i_g_x i) g_xy;
  (* authentication keys *)
  fit_key_r : if sr then dh_secret cr (edhoc_ecdh st) (r_r r) (i_g_x i) g_rx /\
                         dh_secret cr (edhoc_ecdh st) (i_x i) key_r g_rx
              else key_r = r_pk r /\ sign_pair cr (sign_sel (edhoc_sign st)) (r_sk r) (r_pk r) /\
                   forall m, cr_sign cr (sign_sel (edhoc_sign st)) (r_sk r) (r_pk r) m <> None;
  fit_key_i : if si then dh_secret cr (edhoc_ecdh st) (i_i i) (r_g_y r) g_iy /\
                         dh_secret cr (edhoc_ecdh st) (r_y r) key_i g_iy
              else key_i = i_pk i /\ sign_pair cr (sign_sel (edhoc_sign st)) (i_sk i) (i_pk i) /\
                   forall m, cr_sign cr (sign_sel (edhoc_sign st)) (i_sk i) (i_pk i) m <> None;
  (* credentials *)
  fit_id_r : r_id_cred r = rfc_id_cred id_r /\ id_range id_r;
  fit_id_i : i_id_cred i = rfc_id_cred id_i /\ id_range id_i;
  fit_id_i_bytes : is_bytes (i_id_cred i);
  fit_found_r : resolves cr pf sr creds_r id_r (CRED_R_SIZE cf) (r_cred r) key_r;
  fit_found_i : resolves cr pf si creds_i id_i (CRED_I_SIZE cf) (i_cred i) key_i;
  (* no EAD in message_2 and message_3 *)
  fit_ead_2 : r_ead_2 r = [];
  fit_ead_3 : i_ead_3 i = [];
  (* sizes *)
  fit_ead_1_size : lenN (i_ead_1 i) <= EAD_SIZE cf;
  fit_m1_size : lenN (rfc_message_1 (i_method i) (i_suites i) (i_g_x i) (i_c_i i) (i_ead_1 i)) <= MSG_MAX_SIZE cf;
  fit_c_i : lenN (i_c_i i) <= C_I_SIZE cf /\ (forall b, i_c_i i = [b] -> ~ (0x20 <= b <= 0x37));
  fit_c_r : lenN (r_c_r r) <= C_R_SIZE cf /\ lenN (r_c_r r) <= C_I_SIZE cf /\ (forall b, r_c_r r = [b] -> 23 < b);
  fit_id_r_size : lenN (r_id_cred r) <= ID_CRED_I_SIZE cf /\ lenN (r_id_cred r) <= ID_CRED_R_SIZE cf;
  fit_id_i_size : lenN (i_id_cred i) <= ID_CRED_I_SIZE cf /\
                  as_bstr_size (lenN (i_id_cred i) + 66) + edhoc_mac_len_static_dh st <= CIPHERTEXT3_SIZE cf;
  fit_cred_r_size : r_cred r <> [] /\ lenN (r_cred r) <= CRED_MAX_SIZE cf;
  fit_cred_i_size : i_cred i <> [] /\ lenN (i_cred i) <= CRED_MAX_SIZE cf;
  fit_cfg : ID_CRED_I_SIZE cf + ID_CRED_R_SIZE cf + CRED_I_SIZE cf + CRED_R_SIZE cf + C_R_SIZE cf + C_I_SIZE cf
            + EAD_SIZE cf < 2 ^ 30;
  fit_pt2_size : let n := pt2_size (r_c_r r) id_r (sig_len sr (edhoc_mac_len_static_dh st)) in
                 n <= 8128 /\ (if (224 <=? n) && (n <=? 252) then n + 1 else n) <= CIPHERTEXT2_SIZE cf;
  fit_m2_size : bstr_len (32 + pt2_size (r_c_r r) id_r (sig_len sr (edhoc_mac_len_static_dh st))) <= MSG_MAX_SIZE cf;
  (* message_3 as transmitted fits the responder's ciphertext buffer *)
  fit_pt3_size : pt3_size id_i (sig_len si (edhoc_mac_len_static_dh st)) <= 65000;
  fit_m3_size : bstr_len (pt3_size id_i (sig_len si (edhoc_mac_len_static_dh st)) + edhoc_mac_len_static_dh st)
                <= CIPHERTEXT3_SIZE cf
}.
(** message_3 is not longer than message_2 *)
Definition m3_fits_m2 (r : responder) (st : suite) (si sr : bool) (id_i id_r : cred_id) : Prop :=
  bstr_len (pt3_size id_i (sig_len si (edhoc_mac_len_static_dh st)) + edhoc_mac_len_static_dh st) <=
  bstr_len (32 + pt2_size (r_c_r r) id_r (sig_len sr (edhoc_mac_len_static_dh st))).

(** Two parties with key identifiers and the default sizes of the buffers that know
    each other and the keys that belong to their method. *)
Record kid_parties (cr : crypto) (i : initiator) (r : responder) (creds_i creds_r : list other_party_cred) (st : suite)
    (si sr : bool) (kid_i kid_r : Z) (g_xy g_rx g_iy : bytes) : Prop := {
  kp_method : method_static (i_method i) si sr;
  kp_suites : is_bytes (i_suites i) /\ 1 <= lenN (i_suites i) <= 6;
  kp_suite : get_suite (last (i_suites i) 0) = Ok st;
  kp_suites_r : r_suites r <> [];
  kp_g_x : lenN (i_g_x i) = 32;
  kp_g_y : lenN (r_g_y r) = 32;
  kp_xy : dh_secret cr (edhoc_ecdh st) (i_x i) (r_g_y r) g_xy /\ dh_secret cr (edhoc_ecdh st) (r_y r) (i_g_x i) g_xy;
  kp_key_r : if sr then dh_secret cr (edhoc_ecdh st) (r_r r) (i_g_x i) g_rx /\
                        dh_secret cr (edhoc_ecdh st) (i_x i) (r_g_r r) g_rx
             else sign_pair cr (sign_sel (edhoc_sign st)) (r_sk r) (r_pk r) /\
                  forall m, cr_sign cr (sign_sel (edhoc_sign st)) (r_sk r) (r_pk r) m <> None;
  kp_key_i : if si then dh_secret cr (edhoc_ecdh st) (i_i i) (r_g_y r) g_iy /\
                        dh_secret cr (edhoc_ecdh st) (r_y r) (i_g_i i) g_iy
             else sign_pair cr (sign_sel (edhoc_sign st)) (i_sk i) (i_pk i) /\
                  forall m, cr_sign cr (sign_sel (edhoc_sign st)) (i_sk i) (i_pk i) m <> None;
  kp_id_r : r_id_cred r = rfc_id_cred (KidInt kid_r) /\ (- 2 ^ 31 <= kid_r < 2 ^ 31)%Z;
  kp_id_i : i_id_cred i = rfc_id_cred (KidInt kid_i) /\ (- 2 ^ 31 <= kid_i < 2 ^ 31)%Z;
  kp_knows_r : knows creds_r (r_id_cred r) (r_cred r) (r_pk r) (r_g_r r);
  kp_knows_i : knows creds_i (i_id_cred i) (i_cred i) (i_pk i) (i_g_i i);
  kp_keys : lenN (r_pk r) <= 65 /\ lenN (r_g_r r) <= 64 /\ lenN (i_pk i) <= 65 /\ lenN (i_g_i i) <= 64;
  kp_creds : 1 <= lenN (r_cred r) <= 400 /\ 1 <= lenN (i_cred i) <= 400;
  kp_c_i : lenN (i_c_i i) <= 10 /\ (forall b, i_c_i i = [b] -> ~ (0x20 <= b <= 0x37));
  kp_c_r : lenN (r_c_r r) <= 10 /\ (forall b, r_c_r r = [b] -> 23 < b);
  kp_eads : i_ead_1 i = [] /\ r_ead_2 r = [] /\ i_ead_3 i = []
}.

(** context_2 or context_3, whose MAC is meant *)
Definition context_c (c_r : bytes) : bytes := match c_r with [] => [] | _ => cbor (CBytes c_r) end.
Definition expected_mac (cr : crypto) (prk c_r th id_cred cred ead : bytes) (label : N) (static_dh : bool) (st : suite) : bytes :=
  rfc_mac (cr_hmac cr) prk label (rfc_context (context_c c_r) id_cred th cred ead)
    (if static_dh then edhoc_mac_len_static_dh st else 32).
(** The Signature_or_MAC field of a message vouches for it: a valid signature of the
    holder of [pk], or a beginning of the MAC that its static DH key gives. *)
Definition vouches (cr : crypto) (static_dh : bool) (st : suite) (pk prk c_r th id_cred cred ead : bytes) (label : N)
    (field : bytes) : Prop :=
  let m := expected_mac cr prk c_r th id_cred cred ead label static_dh st in
  if static_dh then field = takeN (lenN field) m
  else cr_verify cr (sign_sel (edhoc_sign st)) pk (rfc_tbs id_cred th cred ead m) field = Some true.
(** X25519 keys are the first 32 bytes of the arrays *)
Definition key_bytes (alg : ecdh_alg) (k : bytes) : bytes := match alg with X25519 => takeN 32 k | P256 => k end.
(** the next PRK, when the owner of [pk] uses static DH or not *)
Definition prk_after (cr : crypto) (static_dh : bool) (st : suite) (prk : bytes) (label : N) (th sk pk : bytes) (next : bytes) : Prop :=
  exists dh, next = rfc_prk_next (cr_hmac cr) static_dh prk label th dh /\
    (static_dh = true -> cr_dh cr (ecdh_id (edhoc_ecdh st)) (key_bytes (edhoc_ecdh st) sk) (key_bytes (edhoc_ecdh st) pk) = Some dh).
