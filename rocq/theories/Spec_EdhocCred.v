(** What it means that a credential of the peer is trusted; certificates in DER form. *)
From Verif Require Import Base Model_Crypto Model_EdhocCert Spec_CborTree.

(** [a] is a part of [l] *)
Definition infix (a l : bytes) : Prop := exists p q, l = p ++ a ++ q.

(** [c] is the first entry of the array with this identifier *)
Definition first_with (creds : list other_party_cred) (id : bytes) (c : other_party_cred) : Prop :=
  exists before after, creds = before ++ c :: after /\ oc_id_cred c = id /\
    forall d, In d before -> oc_id_cred d <> id.

(** The static DH key of an entry, as it is used: a P-256 key stored in the
    uncompressed form 0x04, x, y stands for its x coordinate. *)
Definition dh_key_of (g : bytes) : bytes := if lenN g =? 65 then 2 :: takeN 32 (dropN 1 g) else g.

(** The CA key of an entry of the array verifies [sgn] as a signature of [msg]. *)
Definition ca_signed (cr : crypto) (creds : list other_party_cred) (msg sgn : bytes) : Prop :=
  exists c g, In c creds /\ cr_verify cr g (oc_ca_pk c) msg sgn = Some true.

(** content of a BIT STRING without the count of unused bits *)
Definition subject_key (x : x509_cert) : bytes :=
  match x_pk_bits x with Some (0 :: b) => b | Some b => b | None => [] end.

(** [key] belongs to a certificate with a signed part that a configured CA signed. *)
Definition certified (cr : crypto) (pf : platform) (creds : list other_party_cred) (k : cert_kind) (cert key : bytes) : Prop :=
  match k with
  | X509 =>
      if pf_mbedtls pf
      then exists x sgn, pf_x509_parse pf cert = Some x /\ key = subject_key x /\ ca_signed cr creds (x_tbs x) sgn
      else exists tbs sgn, infix tbs cert /\ infix key cert /\ lenN sgn = 64 /\ ca_signed cr creds tbs sgn
  | C509 =>
      exists tbs rest sgn used, cert = tbs ++ rest /\ infix sgn cert /\
        (used = sgn \/ used = takeN 64 sgn /\ 64 <= lenN sgn) /\ ca_signed cr creds tbs used /\
        infix key cert /\ (24 <= lenN sgn -> infix key tbs)
  end.

(** DER: length octets (ITU-T X.690 8.1.3) of contents below 2^32 bytes, and one element *)
Definition der_len (n : N) : bytes :=
  if n <? 128 then [n] else if n <? 256 then [129; n] else if n <? 2 ^ 16 then [130; n / 256; n mod 256]
  else if n <? 2 ^ 24 then [131; n / 65536; n / 256 mod 256; n mod 256]
  else [132; n / 16777216; n / 65536 mod 256; n / 256 mod 256; n mod 256].
Definition der (tag : N) (content : bytes) : bytes := tag :: der_len (lenN content) ++ content.
(** a signature of ECDSA: SEQUENCE of two INTEGERs *)
Definition der_ecdsa (r s : bytes) : bytes := der 48 (der 2 (0 :: r) ++ der 2 (0 :: s)).
(** A certificate (RFC 5280 4.1): the signed part, an algorithm identifier, the signature. *)
Definition x509 (tbs alg r s : bytes) : bytes := der 48 (tbs ++ alg ++ der 3 (0 :: der_ecdsa r s)).
(** the public key info of a certificate *)
Definition spki (alg key : bytes) : bytes := der 48 (der 48 alg ++ der 3 (0 :: key)).
(** a sequence of elements, each given by tag and content *)
Definition elems (l : list (N * bytes)) : bytes := flat_map (fun e => der (fst e) (snd e)) l.

(** [b] begins with [a] *)
Definition begins (b a : bytes) : Prop := exists t, b = a ++ t.
(** The entry whose CA key is used for a certificate in which [issuer] stands from the
    issuer's name on: the only entry, if it has no CA certificate (or the build cannot
    read it), or the first one whose CA certificate has a subject with which [issuer]
    begins. *)
Definition ca_entry (pf : platform) (creds : list other_party_cred) (issuer : bytes) (c : other_party_cred) : Prop :=
  (creds = [c] /\ oc_ca_pk c <> [] /\ (pf_mbedtls pf = true -> oc_ca c = [])) \/
  (pf_mbedtls pf = true /\ exists before after x s, creds = before ++ c :: after /\ oc_ca c <> [] /\
     pf_x509_parse pf (oc_ca c) = Some x /\ x_subject_cn x = Some s /\
     begins issuer s /\
     forall d xd sd, In d before -> oc_ca d <> [] -> pf_x509_parse pf (oc_ca d) = Some xd -> x_subject_cn xd = Some sd ->
       ~ begins issuer sd).

(** A C509 certificate of the natively signed kind, as a CBOR sequence: the signed
    part, then the signature. *)
Definition c509_tbs (ty serial : Z) (issuer : bytes) (nb na : Z) (subject : bytes) (ka : Z) (pk : bytes) (ext sa : Z) : bytes :=
  cbor_seq [CInt ty; CInt serial; CText issuer; CInt nb; CInt na; CBytes subject; CInt ka; CBytes pk; CInt ext; CInt sa].
(** what follows the issuer in it *)
Definition c509_rest (nb na : Z) (subject : bytes) (ka : Z) (pk : bytes) (ext sa : Z) (sgn : bytes) : bytes :=
  cbor_seq [CInt nb; CInt na; CBytes subject; CInt ka; CBytes pk; CInt ext; CInt sa; CBytes sgn].
Definition c509_of (tbs sgn : bytes) : bytes := tbs ++ cbor (CBytes sgn).
