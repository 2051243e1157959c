(** EDHOC (RFC 9528), as far as the theorems refer to it: transcript hashes, key
    schedule, message contents. Written with the CBOR items of Spec_CborTree and
    HKDF of Spec_Hkdf, independently of the model. *)
From Verif Require Import Base Spec_CborTree Spec_Hkdf.

(** RFC 9528 section 10.2, registered cipher suites 0 to 3: EDHOC AEAD, MAC length,
    ECDH curve, signature algorithm, application AEAD. *)
Definition rfc_suites : list (N * (Z * N * N * Z * Z)) := [
  (0, (10%Z, 8, 4, (-8)%Z, 10%Z));
  (1, (30%Z, 16, 4, (-8)%Z, 10%Z));
  (2, (10%Z, 8, 1, (-7)%Z, 10%Z));
  (3, (30%Z, 16, 1, (-7)%Z, 10%Z))].
(** COSE registry: tag, key and nonce length of AES-CCM-16-64-128 and
    AES-CCM-16-128-128 *)
Definition cose_aead_lens (alg : Z) : option (N * N * N) :=
  if (alg =? 10)%Z then Some (8, 16, 13) else if (alg =? 30)%Z then Some (16, 16, 13) else None.

(** RFC 9528 section 3.3.2: a connection identifier that is a one-byte CBOR encoding
    of an integer (0x00-0x17, 0x20-0x37) is sent as this integer, any other one as
    a byte string. *)
Definition one_byte_int (c : bytes) : bool :=
  match c with
  | [b] => (b <=? 0x17) || ((0x20 <=? b) && (b <=? 0x37))
  | _ => false
  end.
Definition rfc_conn_id (c : bytes) : bytes := if one_byte_int c then c else cbor (CBytes c).

(** RFC 9528 section 5.2.1 message_1. EAD_1 is one byte string here. *)
Definition rfc_suites_i (l : list N) : item :=
  match l with [s] => CInt (Z.of_N s) | _ => CArr (map (fun s => CInt (Z.of_N s)) l) end.
Definition rfc_message_1 (method : N) (suites : list N) (g_x c_i ead_1 : bytes) : bytes :=
  cbor (CInt (Z.of_N method)) ++ cbor (rfc_suites_i suites) ++ cbor (CBytes g_x) ++ rfc_conn_id c_i
  ++ match ead_1 with [] => [] | _ => cbor (CBytes ead_1) end.

Section Spec.
Variable hmac : bytes -> bytes -> bytes.
Variable H : bytes -> bytes.

(** RFC 9528 section 4.1.2: info = (label, context, length) and EDHOC_KDF *)
Definition rfc_edhoc_info (label : N) (context : bytes) (len : N) : bytes :=
  cbor_seq [CInt (Z.of_N label); CBytes context; CInt (Z.of_N len)].
Definition rfc_kdf (prk : bytes) (label : N) (context : bytes) (len : N) : bytes :=
  hkdf_okm hmac prk (rfc_edhoc_info label context len) len.

(** RFC 9528 sections 5.3.2, 5.4.2: TH_2 = H(G_Y, H(message_1)),
    TH_3 = H(TH_2, PLAINTEXT_2, CRED_R), TH_4 = H(TH_3, PLAINTEXT_3, CRED_I) *)
Definition rfc_th2_input (g_y hash_msg1 : bytes) : bytes := cbor_seq [CBytes g_y; CBytes hash_msg1].
Definition rfc_th2 (g_y msg1 : bytes) : bytes := H (rfc_th2_input g_y (H msg1)).
Definition rfc_th34_input (th plaintext cred : bytes) : bytes := cbor (CBytes th) ++ plaintext ++ cred.
Definition rfc_th34 (th plaintext cred : bytes) : bytes := H (rfc_th34_input th plaintext cred).

(** RFC 9528 section 4.1.1: PRK_2e, PRK_3e2m, PRK_4e3m; [dh] is the static-ephemeral
    secret, used if the party in question authenticates with a static DH key. *)
Definition rfc_prk_2e (th2 g_xy : bytes) : bytes := hmac th2 g_xy.
Definition rfc_prk_next (static_dh : bool) (prk : bytes) (label : N) (th dh : bytes) : bytes :=
  if static_dh then hmac (rfc_kdf prk label th 32) dh else prk.

(** RFC 9528 sections 5.3.2, 5.4.2: context_2 and context_3, [c] being the encoded
    C_R, respectively nothing *)
Definition rfc_context (c id_cred th cred ead : bytes) : bytes :=
  c ++ id_cred ++ cbor (CBytes th) ++ cred ++ ead.
Definition rfc_mac (prk : bytes) (label : N) (context : bytes) (len : N) : bytes :=
  rfc_kdf prk label context len.
(** "Signature1", COSE_Sign1: [ "Signature1", << ID_CRED_x >>, << TH, CRED, ? EAD >>, MAC ] *)
Definition rfc_tbs (id_cred th cred ead mac : bytes) : bytes :=
  cbor (CArr [CText [0x53; 0x69; 0x67; 0x6E; 0x61; 0x74; 0x75; 0x72; 0x65; 0x31];
              CBytes id_cred; CBytes (cbor (CBytes th) ++ cred ++ ead); CBytes mac]).
(** additional data of AEAD in message_3: [ "Encrypt0", h'', TH_3 ] *)
Definition rfc_aad (th : bytes) : bytes :=
  cbor (CArr [CText [0x45; 0x6E; 0x63; 0x72; 0x79; 0x70; 0x74; 0x30]; CBytes []; CBytes th]).
End Spec.

(** The byte strings that may identify a credential: CBOR maps with the single entry
    kid (4) as integer, x5chain (33) or x5t (34). The kid form is abbreviated to the
    integer inside a plaintext. *)
Inductive cred_id :=
| KidInt (z : Z)
| X5chain (cert : bytes)
| X5t (alg : Z) (hash : bytes).
Definition map1 (key : Z) (val : bytes) : bytes := rfc_head 5 1 ++ cbor (CInt key) ++ val.
Definition rfc_id_cred (i : cred_id) : bytes :=
  match i with
  | KidInt z => map1 4 (cbor (CInt z))
  | X5chain c => map1 33 (cbor (CBytes c))
  | X5t a h => map1 34 (cbor (CArr [CInt a; CBytes h]))
  end.
Definition rfc_id_cred_compact (i : cred_id) : bytes :=
  match i with KidInt z => cbor (CInt z) | _ => rfc_id_cred i end.

(** labels of RFC 9528 section 4.1.2 and 4.2 *)
Definition L_KEYSTREAM_2 : N := 0.
Definition L_SALT_3e2m : N := 1.
Definition L_MAC_2 : N := 2.
Definition L_K_3 : N := 3.
Definition L_IV_3 : N := 4.
Definition L_SALT_4e3m : N := 5.
Definition L_MAC_3 : N := 6.
Definition L_PRK_out : N := 7.
Definition L_K_4 : N := 8.
Definition L_IV_4 : N := 9.
Definition L_PRK_exporter : N := 10.
Definition L_PRK_out_update : N := 11.

(** RFC 9528 sections 5.3.2 and 5.4.2: PLAINTEXT_2 and PLAINTEXT_3 *)
Definition rfc_plaintext_2 (c_r : bytes) (i : cred_id) (sig ead : bytes) : bytes :=
  rfc_conn_id c_r ++ rfc_id_cred_compact i ++ cbor (CBytes sig) ++ ead.
Definition rfc_plaintext_3 (i : cred_id) (sig ead : bytes) : bytes :=
  rfc_id_cred_compact i ++ cbor (CBytes sig) ++ ead.
Definition rfc_xor (a b : bytes) : bytes := map (fun p => N.lxor (fst p) (snd p)) (combine a b).

(** One EDHOC session without EADs in message_2 and message_3: the values both
    parties contribute, and everything RFC 9528 derives from them. *)
Record rfc_run := {
  x_m1 : bytes;
  x_g_y : bytes;
  x_g_xy : bytes;        (* ephemeral-ephemeral secret *)
  x_static_r : bool;     (* the responder authenticates with a static DH key *)
  x_g_rx : bytes;        (* its static-ephemeral secret, if so *)
  x_static_i : bool;
  x_g_iy : bytes;
  x_c_r : bytes;
  x_ctx_c : bytes;       (* C_R as it enters context_2 *)
  x_id_r : cred_id;
  x_cred_r : bytes;
  x_sig_2 : bytes;       (* Signature_or_MAC_2 *)
  x_id_i : cred_id;
  x_cred_i : bytes;
  x_sig_3 : bytes;
  x_mac2_len : N;
  x_mac3_len : N;
  x_key_len : N;
  x_iv_len : N;
  x_tag_len : N
}.
Section Run.
Variable hmac : bytes -> bytes -> bytes.
Variable H : bytes -> bytes.
Variable aead : bytes -> bytes -> bytes -> N -> bytes -> option bytes.
Variable x : rfc_run.
Definition x_th2 : bytes := rfc_th2 H (x_g_y x) (x_m1 x).
Definition x_prk_2e : bytes := rfc_prk_2e hmac x_th2 (x_g_xy x).
Definition x_prk_3e2m : bytes := rfc_prk_next hmac (x_static_r x) x_prk_2e L_SALT_3e2m x_th2 (x_g_rx x).
Definition x_mac_2 : bytes :=
  rfc_mac hmac x_prk_3e2m L_MAC_2
    (rfc_context (x_ctx_c x) (rfc_id_cred (x_id_r x)) x_th2 (x_cred_r x) []) (x_mac2_len x).
Definition x_tbs_2 : bytes := rfc_tbs (rfc_id_cred (x_id_r x)) x_th2 (x_cred_r x) [] x_mac_2.
Definition x_pt2 : bytes := rfc_plaintext_2 (x_c_r x) (x_id_r x) (x_sig_2 x) [].
Definition x_ct2 : bytes := rfc_xor x_pt2 (rfc_kdf hmac x_prk_2e L_KEYSTREAM_2 x_th2 (lenN x_pt2)).
Definition x_m2 : bytes := cbor (CBytes (x_g_y x ++ x_ct2)).
Definition x_th3 : bytes := rfc_th34 H x_th2 x_pt2 (x_cred_r x).
Definition x_prk_4e3m : bytes := rfc_prk_next hmac (x_static_i x) x_prk_3e2m L_SALT_4e3m x_th3 (x_g_iy x).
Definition x_mac_3 : bytes :=
  rfc_mac hmac x_prk_4e3m L_MAC_3
    (rfc_context [] (rfc_id_cred (x_id_i x)) x_th3 (x_cred_i x) []) (x_mac3_len x).
Definition x_tbs_3 : bytes := rfc_tbs (rfc_id_cred (x_id_i x)) x_th3 (x_cred_i x) [] x_mac_3.
Definition x_pt3 : bytes := rfc_plaintext_3 (x_id_i x) (x_sig_3 x) [].
Definition x_ct3 : option bytes :=
  aead (rfc_kdf hmac x_prk_3e2m L_K_3 x_th3 (x_key_len x)) (rfc_kdf hmac x_prk_3e2m L_IV_3 x_th3 (x_iv_len x))
    (rfc_aad x_th3) (x_tag_len x) x_pt3.
Definition x_th4 : bytes := rfc_th34 H x_th3 x_pt3 (x_cred_i x).
Definition x_prk_out (len : N) : bytes := rfc_kdf hmac x_prk_4e3m L_PRK_out x_th4 len.
(** RFC 9528 section 5.5.2: CIPHERTEXT_4, the plaintext being EAD_4 *)
Definition x_ct4 (ead_4 : bytes) : option bytes :=
  aead (rfc_kdf hmac x_prk_4e3m L_K_4 x_th4 (x_key_len x)) (rfc_kdf hmac x_prk_4e3m L_IV_4 x_th4 (x_iv_len x))
    (rfc_aad x_th4) (x_tag_len x) ead_4.
End Run.
