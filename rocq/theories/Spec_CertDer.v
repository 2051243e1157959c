(** Certificates as a CA issues them (RFC 5280 4.1, ITU-T X.690), and which CA of a
    list signed one. *)
From Verif Require Import Base Model_Crypto Model_EdhocCert Spec_CborTree Spec_EdhocCred.

(** A number without its leading zeros. *)
Fixpoint significant (b : bytes) : bytes :=
  match b with 0 :: r => significant r | _ => b end.
(** INTEGER (X.690 8.3): as few bytes as possible, the first bit is the sign. *)
Definition der_uint (b : bytes) : bytes :=
  der 2 (match significant b with
         | [] => [0]
         | x :: r => if x <? 128 then x :: r else 0 :: x :: r
         end).
(** Ecdsa-Sig-Value (RFC 3279 2.2.3) *)
Definition ecdsa_value (r s : bytes) : bytes := der 48 (der_uint r ++ der_uint s).
(** TBSCertificate: version, serial number, algorithm, issuer, validity and subject
    are six elements; then the key, then the rest, for example extensions. *)
Definition tbs_of (els : list (N * bytes)) (key_alg key rest : bytes) : bytes :=
  der 48 (elems els ++ spki key_alg key ++ rest).
(** Certificate *)
Definition certificate (tbs alg r s : bytes) : bytes := der 48 (tbs ++ der 48 alg ++ der 3 (0 :: ecdsa_value r s)).

(** [c] is the CA with this name, and no CA before it in the list has a name that
    begins like what follows the start of the issuer's name in the certificate. *)
Definition issued_by (pf : platform) (creds : list other_party_cred) (c : other_party_cred) (issuer rest : bytes) : Prop :=
  exists before after xc, creds = before ++ c :: after /\
    oc_ca c <> [] /\ pf_x509_parse pf (oc_ca c) = Some xc /\ x_subject_cn xc = Some issuer /\
    forall d, In d before -> oc_ca d = [] \/
      exists xd s, pf_x509_parse pf (oc_ca d) = Some xd /\ x_subject_cn xd = Some s /\
        lenN s <= lenN (issuer ++ rest) /\ forall t, issuer ++ rest <> s ++ t.
