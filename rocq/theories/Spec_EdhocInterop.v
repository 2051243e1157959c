(** An EDHOC session as RFC 9528 describes it, with the identifiers, connection
    identifiers and EAD items that the RFC allows, and what it takes for one of the
    two parties of this code to meet a peer of which nothing but the RFC is known. *)
From Verif Require Import Base Model_Crypto Model_EdhocCfg Model_EdhocCert Model_EdhocRun Spec_CborTree Spec_Hkdf Spec_Edhoc
  Spec_EdhocRun.

(** RFC 9528 section 3.5.3: ID_CRED_x is a COSE header map. A kid (4) is a byte string;
    x5chain (33) with one certificate and x5t (34) are those of RFC 9360. [Params] is
    any map of parameters. *)
Inductive peer_id :=
| Kid (kid : bytes)
| Chain (cert : bytes)
| Hash (alg : Z) (hash : bytes)
| Params (l : list (item * item)).
Definition id_map (i : peer_id) : bytes :=
  match i with
  | Kid b => map1 4 (cbor (CBytes b))
  | Chain c => map1 33 (cbor (CBytes c))
  | Hash a h => map1 34 (cbor (CArr [CInt a; CBytes h]))
  | Params l => cbor (CMap l)
  end.
(** the maps that are none of [Chain] and [Hash] *)
Definition other_params (l : list (item * item)) : Prop :=
  (forall c, l <> [(CInt 33, CBytes c)]) /\ (forall a h, l <> [(CInt 34, CArr [CInt a; CBytes h])]).
(** the entries that this implementation can have in an own ID_CRED: a kid that is an integer,
    x5bag, x5chain, x5u, c5b, c5c, c5u with a single byte string, x5t, c5t *)
Definition own_param (p : item * item) : Prop :=
  (exists z, p = (CInt 4, CInt z)) \/
  (exists k b, In k [32; 33; 35; 52; 53; 55]%Z /\ p = (CInt k, CBytes b)) \/
  (exists k a h, In k [34; 54]%Z /\ p = (CInt k, CArr [a; CBytes h])).
(** RFC 9528 section 3.5.3.2: inside a plaintext a map with a single kid is replaced by
    the kid, encoded like a connection identifier. *)
Definition id_short (i : peer_id) : bytes := match i with Kid b => rfc_conn_id b | _ => id_map i end.

(** RFC 9528 section 3.8: EAD = 1* ( ead_label : int, ? ead_value : bstr ). Here it is
    enough that a sequence of items begins with an integer; a negative one is critical. *)
Definition ead_items (e : bytes) : Prop :=
  e = [] \/ exists label rest, (- 2 ^ 31 <= label < 2 ^ 31)%Z /\ e = cbor (CInt label) ++ rest.

(** The values that the parties of a session contribute. *)
Record talk := {
  t_m1 : bytes;          (* message_1 *)
  t_g_y : bytes;
  t_g_xy : bytes;
  t_static_r : bool;
  t_g_rx : bytes;
  t_static_i : bool;
  t_g_iy : bytes;
  t_c_r : bytes;
  t_id_r : peer_id;
  t_cred_r : bytes;
  t_ead_2 : bytes;       (* the encoded EAD items *)
  t_id_i : peer_id;
  t_cred_i : bytes;
  t_ead_3 : bytes;
  t_mac_len : N          (* EDHOC MAC length of the suite, also its AEAD tag length *)
}.
(** RFC 9528 sections 4 and 5. [s2] and [s3] are the Signature_or_MAC fields. *)
Section Talk.
Variable hmac : bytes -> bytes -> bytes.
Variable H : bytes -> bytes.
Variable aead : bytes -> bytes -> bytes -> N -> bytes -> option bytes.
Variable t : talk.
Definition t_th2 : bytes := rfc_th2 H (t_g_y t) (t_m1 t).
Definition t_prk_2e : bytes := rfc_prk_2e hmac t_th2 (t_g_xy t).
Definition t_prk_3e2m : bytes := rfc_prk_next hmac (t_static_r t) t_prk_2e L_SALT_3e2m t_th2 (t_g_rx t).
Definition t_context_2 : bytes :=
  rfc_context (rfc_conn_id (t_c_r t)) (id_map (t_id_r t)) t_th2 (t_cred_r t) (t_ead_2 t).
Definition t_mac_2 : bytes := rfc_mac hmac t_prk_3e2m L_MAC_2 t_context_2 (if t_static_r t then t_mac_len t else 32).
Definition t_tbs_2 : bytes := rfc_tbs (id_map (t_id_r t)) t_th2 (t_cred_r t) (t_ead_2 t) t_mac_2.
Definition t_pt2 (s2 : bytes) : bytes :=
  rfc_conn_id (t_c_r t) ++ id_short (t_id_r t) ++ cbor (CBytes s2) ++ t_ead_2 t.
Definition t_m2 (s2 : bytes) : bytes :=
  cbor (CBytes (t_g_y t ++ rfc_xor (t_pt2 s2) (rfc_kdf hmac t_prk_2e L_KEYSTREAM_2 t_th2 (lenN (t_pt2 s2))))).
Definition t_th3 (s2 : bytes) : bytes := rfc_th34 H t_th2 (t_pt2 s2) (t_cred_r t).
Definition t_prk_4e3m (s2 : bytes) : bytes :=
  rfc_prk_next hmac (t_static_i t) t_prk_3e2m L_SALT_4e3m (t_th3 s2) (t_g_iy t).
Definition t_context_3 (s2 : bytes) : bytes := rfc_context [] (id_map (t_id_i t)) (t_th3 s2) (t_cred_i t) (t_ead_3 t).
Definition t_mac_3 (s2 : bytes) : bytes :=
  rfc_mac hmac (t_prk_4e3m s2) L_MAC_3 (t_context_3 s2) (if t_static_i t then t_mac_len t else 32).
Definition t_tbs_3 (s2 : bytes) : bytes := rfc_tbs (id_map (t_id_i t)) (t_th3 s2) (t_cred_i t) (t_ead_3 t) (t_mac_3 s2).
Definition t_pt3 (s3 : bytes) : bytes := id_short (t_id_i t) ++ cbor (CBytes s3) ++ t_ead_3 t.
Definition t_m3 (s2 s3 : bytes) : option bytes :=
  match aead (rfc_kdf hmac t_prk_3e2m L_K_3 (t_th3 s2) 16) (rfc_kdf hmac t_prk_3e2m L_IV_3 (t_th3 s2) 13)
          (rfc_aad (t_th3 s2)) (t_mac_len t) (t_pt3 s3) with
  | Some ct => Some (cbor (CBytes ct))
  | None => None
  end.
Definition t_th4 (s2 s3 : bytes) : bytes := rfc_th34 H (t_th3 s2) (t_pt3 s3) (t_cred_i t).
Definition t_prk_out (s2 s3 : bytes) (len : N) : bytes := rfc_kdf hmac (t_prk_4e3m s2) L_PRK_out (t_th4 s2 s3) len.
End Talk.

(** The Signature_or_MAC field of the peer whose authentication key is [key]: its MAC,
    or a valid signature (64 bytes, for both algorithms). *)
Definition right_field (cr : crypto) (static_dh : bool) (st : suite) (key tbs mac s : bytes) : Prop :=
  if static_dh then s = mac
  else lenN s = 64 /\ cr_verify cr (sign_sel (edhoc_sign st)) key tbs s = Some true.
(** What this code makes of its own private key. *)
Definition own_field (cr : crypto) (static_dh : bool) (st : suite) (sk pk tbs mac s : bytes) : Prop :=
  if static_dh then s = mac else cr_sign cr (sign_sel (edhoc_sign st)) sk pk tbs = Some s.

(** identifiers of certificates, of the sizes that exist *)
Definition certified (i : peer_id) : Prop :=
  match i with
  | Kid _ | Params _ => False
  | Chain c => lenN c < 2 ^ 64
  | Hash a h => (- 2 ^ 31 <= a < 2 ^ 31)%Z /\ lenN h < 2 ^ 64
  end.
(** connection identifiers that are sent as byte strings and are not empty *)
Definition plain (c : bytes) : Prop := c <> [] /\ one_byte_int c = false.
(** looking up the identifier gives this credential and key *)
Definition finds (cr : crypto) (pf : platform) (static_dh : bool) (creds : list other_party_cred) (id : bytes)
    (cap : N) (cred key : bytes) : Prop :=
  exists f, retrieve_cred cr pf static_dh creds (Some id) cap = Ok f /\ f_cred f = cred /\
    (if static_dh then f_g f else f_pk f) = key.
(** sizes of the arrays, without overflow of their sums *)
Definition moderate (cf : cfg) : Prop :=
  ID_CRED_I_SIZE cf + ID_CRED_R_SIZE cf + CRED_I_SIZE cf + CRED_R_SIZE cf + C_R_SIZE cf + C_I_SIZE cf + EAD_SIZE cf < 2 ^ 30.

(** The initiator [i] takes part in the session [t]. Its peer is any implementation of
    RFC 9528 that authenticates with the key [key] and sent the field [s2]. *)
Record as_initiator (cr : crypto) (cf : cfg) (i : initiator) (st : suite) (t : talk) (key s2 : bytes) : Prop := {
  ai_method : method_static (i_method i) (t_static_i t) (t_static_r t);
  ai_suites : 1 <= lenN (i_suites i) <= 10;
  ai_suite : get_suite (last (i_suites i) 0) = Ok st;
  ai_mac_len : t_mac_len t = edhoc_mac_len_static_dh st;
  ai_m1 : t_m1 t = rfc_message_1 (i_method i) (i_suites i) (i_g_x i) (i_c_i i) (i_ead_1 i);
  ai_g_y : lenN (t_g_y t) = 32;
  ai_xy : dh_secret cr (edhoc_ecdh st) (i_x i) (t_g_y t) (t_g_xy t);
  ai_rx : t_static_r t = true -> dh_secret cr (edhoc_ecdh st) (i_x i) key (t_g_rx t);
  ai_iy : if t_static_i t then dh_secret cr (edhoc_ecdh st) (i_i i) (t_g_y t) (t_g_iy t)
          else forall m, cr_sign cr (sign_sel (edhoc_sign st)) (i_sk i) (i_pk i) m <> None;
  ai_field : right_field cr (t_static_r t) st key (t_tbs_2 (cr_hmac cr) (cr_hash cr) t) (t_mac_2 (cr_hmac cr) (cr_hash cr) t) s2;
  ai_key : t_static_r t = false -> edhoc_sign st = EdDSA -> 32 <= lenN key;
  ai_own : i_id_cred i = id_map (t_id_i t) /\ i_cred i = t_cred_i t /\ i_ead_3 i = [] /\ t_ead_3 t = [] /\
           is_bytes (id_map (t_id_i t));
  (* sizes *)
  ai_cfg : moderate cf;
  ai_m1_size : lenN (t_m1 t) <= MSG_MAX_SIZE cf;
  ai_c_r_size : lenN (t_c_r t) <= C_R_SIZE cf;
  ai_id_r_size : lenN (id_map (t_id_r t)) <= ID_CRED_R_SIZE cf;
  ai_id_i_size : lenN (id_map (t_id_i t)) <= ID_CRED_I_SIZE cf /\ lenN (id_map (t_id_i t)) <= 64000 /\
                 as_bstr_size (lenN (id_map (t_id_i t)) + 66) + edhoc_mac_len_static_dh st <= CIPHERTEXT3_SIZE cf;
  ai_cred_r_size : t_cred_r t <> [] /\ lenN (t_cred_r t) <= CRED_MAX_SIZE cf;
  ai_cred_i_size : t_cred_i t <> [] /\ lenN (t_cred_i t) <= CRED_MAX_SIZE cf;
  ai_m2_size : lenN (t_m2 (cr_hmac cr) (cr_hash cr) t s2) <= MSG_MAX_SIZE cf;
  ai_pt2_size : let n := lenN (t_pt2 t s2) in
                n <= 8128 /\ (if (224 <=? n) && (n <=? 252) then n + 1 else n) <= CIPHERTEXT2_SIZE cf
}.

(** The responder [r] takes part in the session [t] that the peer began with a
    message_1 with these values and the EAD items [e1]. *)
Record as_responder (cr : crypto) (cf : cfg) (r : responder) (st : suite) (t : talk) (key : bytes) (me : N) (su g_x c_i e1 : bytes) : Prop := {
  ar_m1 : t_m1 t = rfc_message_1 me su g_x c_i [] ++ e1;
  ar_e1 : ead_items e1;
  ar_method : method_static me (t_static_i t) (t_static_r t);
  ar_suites : is_bytes su /\ 1 <= lenN su <= 10 /\ lenN su <= SUITES_I_SIZE cf;
  ar_suite : get_suite (last su 0) = Ok st;
  ar_suites_r : r_suites r <> [];
  ar_mac_len : t_mac_len t = edhoc_mac_len_static_dh st;
  ar_g_x : lenN g_x = 32;
  ar_g_y : t_g_y t = r_g_y r /\ lenN (r_g_y r) = 32;
  ar_xy : dh_secret cr (edhoc_ecdh st) (r_y r) g_x (t_g_xy t);
  ar_rx : if t_static_r t then dh_secret cr (edhoc_ecdh st) (r_r r) g_x (t_g_rx t)
          else forall m, cr_sign cr (sign_sel (edhoc_sign st)) (r_sk r) (r_pk r) m <> None;
  ar_iy : t_static_i t = true -> dh_secret cr (edhoc_ecdh st) (r_y r) key (t_g_iy t);
  ar_key : t_static_i t = false -> edhoc_sign st = EdDSA -> 32 <= lenN key;
  ar_own : r_c_r r = t_c_r t /\ r_id_cred r = id_map (t_id_r t) /\ r_cred r = t_cred_r t /\ r_ead_2 r = [] /\ t_ead_2 t = [];
  (* sizes *)
  ar_cfg : moderate cf;
  ar_m1_size : lenN (t_m1 t) <= MSG_MAX_SIZE cf;
  ar_c_i_size : lenN c_i <= C_I_SIZE cf;
  ar_c_r_size : lenN (t_c_r t) <= C_R_SIZE cf /\ lenN (t_c_r t) <= C_I_SIZE cf;
  ar_id_r_size : lenN (id_map (t_id_r t)) <= ID_CRED_I_SIZE cf;
  ar_id_i_size : lenN (id_map (t_id_i t)) <= ID_CRED_I_SIZE cf;
  ar_cred_r_size : t_cred_r t <> [] /\ lenN (t_cred_r t) <= CRED_MAX_SIZE cf;
  ar_cred_i_size : t_cred_i t <> [] /\ lenN (t_cred_i t) <= CRED_MAX_SIZE cf;
  ar_m2_size : forall s2, lenN s2 <= 64 ->
    lenN (t_pt2 t s2) <= 8128 /\ lenN (t_m2 (cr_hmac cr) (cr_hash cr) t s2) <= MSG_MAX_SIZE cf
}.

(** A field [s] that is right for one text is taken for another one: the MACs of the
    two different contexts are equal, or a signature is valid for two texts. *)
Definition mixed_up (cr : crypto) (static_dh : bool) (st : suite) (label : N) (key prk ctx : bytes) (tbs : bytes -> bytes)
    (key' prk' ctx' : bytes) (tbs' : bytes -> bytes) (s : bytes) : Prop :=
  let len := if static_dh then edhoc_mac_len_static_dh st else 32 in
  let m := rfc_mac (cr_hmac cr) prk label ctx len in
  let m' := rfc_mac (cr_hmac cr) prk' label ctx' len in
  ctx <> ctx' /\
  (m = m' \/
   (static_dh = false /\ tbs m <> tbs' m' /\
    cr_verify cr (sign_sel (edhoc_sign st)) key (tbs m) s = Some true /\
    cr_verify cr (sign_sel (edhoc_sign st)) key' (tbs' m') s = Some true)).
