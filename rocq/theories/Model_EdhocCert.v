(** Model of src/edhoc/cert.c and src/edhoc/retrieve_cred.c. *)
From Verif Require Import Base Model_Common Model_Cbor Model_Crypto Model_EdhocCfg Model_EdhocCbor
  Model_EdhocKeys.

(** inc/edhoc.h:32-39 struct other_party_cred. A NULL pointer is the empty array. *)
Record other_party_cred := {
  oc_id_cred : bytes;
  oc_cred : bytes;
  oc_pk : bytes;
  oc_g : bytes;
  oc_ca : bytes;
  oc_ca_pk : bytes
}.

(** What Mbed TLS delivers for a parsed X.509 certificate (src/edhoc/cert.c:298-304,
    312-332, 336-353, 361-371, 374-375, 381-392): the last common name of issuer and
    subject, what follows the issuer's name in the certificate, whether the signature is ECDSA, the size of the signature's hash (None
    if unknown), the signed part, the INTEGERs of the signature and the content of
    the last BIT STRING of the public key up to the end of the key structure. Mbed
    TLS itself is not modelled. *)
Record x509_cert := {
  x_issuer_cn : option bytes;
  x_issuer_rest : bytes;
  x_subject_cn : option bytes;
  x_ecdsa : bool;
  x_md_len : option N;
  x_tbs : bytes;
  x_sig_ints : list (bytes * bytes);
  x_pk_bits : option bytes
}.
(** The build: with or without Mbed TLS, and its certificate parser. *)
(** the #ifdef MBEDTLS of src/edhoc/cert.c *)
Record platform := {
  pf_mbedtls : bool;
  pf_x509_parse : bytes -> option x509_cert
}.

(** src/edhoc/cert.c:114-168 mbedtls_asn1_get_len (build without Mbed TLS): new
    cursor and *len; the caller ignores the error code, so on error the cursor
    stays and *len keeps its old value ([None] if never written). The last check
    (164-165) only affects the error code. *)
Definition asn1_get_len (l : bytes) (p : N) (old : option N) : res (N * option N) :=
  if lenN l <=? p then Ok (p, old)
  else
    let* b := rd l p in
    if b <? 128 then Ok (p + 1, Some b)
    else match b - 128 with
    | 1 => if lenN l - p <? 2 then Ok (p, old)
           else let* a := rd l (p + 1) in Ok (p + 2, Some a)
    | 2 => if lenN l - p <? 3 then Ok (p, old)
           else let* a := rd l (p + 1) in let* b := rd l (p + 2) in Ok (p + 3, Some (a * 256 + b))
    | 3 => if lenN l - p <? 4 then Ok (p, old)
           else let* a := rd l (p + 1) in let* b := rd l (p + 2) in let* c := rd l (p + 3) in
                Ok (p + 4, Some (a * 65536 + b * 256 + c))
    | 4 => if lenN l - p <? 5 then Ok (p, old)
           else let* a := rd l (p + 1) in let* b := rd l (p + 2) in let* c := rd l (p + 3) in
                let* d := rd l (p + 4) in
                Ok (p + 5, Some (a * 16777216 + b * 65536 + c * 256 + d))
    | _ => Ok (p, old)
    end.
(** use of the variable [len] *)
(** src/edhoc/cert.c:410-480, reads of the variable len *)
Definition used (o : option N) : res N := match o with Some n => Ok n | None => UB Uninit end.
(** src/edhoc/cert.c:87-101 EXPECTO_TAG: a wrong tag ends the parsing with
    wrong_parameter *)
Definition expecto_tag (l : bytes) (tag p : N) (old : option N) : res (N * option N) :=
  let* b := rd l p in
  if negb (b =? tag) then Err wrong_parameter
  else
    let* (p', len) := asn1_get_len l (p + 1) old in
    let* z := rd l p' in
    if z =? 0 then let* n := used len in Ok (p' + 1, Some (sub32 n 1))
    else Ok (p', len).
(** src/edhoc/cert.c:425-432, the loop over the six elements before the key *)
Fixpoint skip_elems (n : nat) (l : bytes) (p : N) (old : option N) : res (N * option N) :=
  match n with
  | O => Ok (p, old)
  | S n' =>
      let* (p', len) := asn1_get_len l (p + 1) old in
      let* k := used len in
      skip_elems n' l (p' + k) len
  end.
Definition ASN1_INTEGER : N := 2.   (* src/edhoc/cert.c:104 *)
Definition ASN1_BIT_STRING : N := 3.   (* src/edhoc/cert.c:105 *)
Definition ASN1_SEQUENCE : N := 48.   (* src/edhoc/cert.c:106 *)

(** src/edhoc/cert.c:405-483, the parser of the build without Mbed TLS, on a
    certificate [l]; [pk_cap] is the capacity of the key buffer. Result: signed
    part, key, signature. The results of _memcpy_s are ignored by the code: a key
    longer than the buffer is not copied although its length is taken over
    ([None]); the second signature part is written behind the first one with a
    capacity [64 - sig.len] that wraps when the first part is longer than the
    buffer. A signature whose two parts are not 64 bytes together leaves (part of)
    the signature buffer unwritten ([None]). *)
Definition x509_crude_parse (l : bytes) (pk_cap : N) : res (bytes * option bytes * option bytes) :=
  let* (c, len) := expecto_tag l ASN1_SEQUENCE 0 None in
  let tbs_start := c in
  let* (c, len) := expecto_tag l ASN1_SEQUENCE c len in
  let* n := used len in
  let tbs_end := c + n in
  let* (c, len) := skip_elems 6 l c len in
  let* (c, len) := expecto_tag l ASN1_SEQUENCE c len in
  let* (c, len) := expecto_tag l ASN1_SEQUENCE c len in
  let* n := used len in
  let* (c, len) := expecto_tag l ASN1_BIT_STRING (c + n) len in
  let* n := used len in
  let* pk := (if n =? 0 then Ok (Some []) else if pk_cap <? n then Ok None
              else let* b := slice l c n in Ok (Some b)) in
  let* (c, len) := expecto_tag l ASN1_SEQUENCE tbs_end len in
  let* n := used len in
  let* (c, len) := expecto_tag l ASN1_BIT_STRING (c + n) len in
  let* (c, len) := expecto_tag l ASN1_SEQUENCE c len in
  let* (c, len) := expecto_tag l ASN1_INTEGER c len in
  let* n1 := used len in
  if lenN l <? c + n1 then Err unexpected_result_from_ext_lib else
  let* r := (if n1 =? 0 then Ok [] else if SIGNATURE_SIZE <? n1 then Ok [] else slice l c n1) in
  let* (c, len) := expecto_tag l ASN1_INTEGER (c + n1) len in
  let* n2 := used len in
  if lenN l <? c + n2 then Err unexpected_result_from_ext_lib else
  let* s := (if n2 =? 0 then Ok []
             else if sub32 SIGNATURE_SIZE n1 <? n2 then Ok []
             else if SIGNATURE_SIZE <? n1 + n2 then UB OobWrite
             else slice l c n2) in
  let* tbs := slice l tbs_start (tbs_end - tbs_start) in
  let sg := r ++ s in
  Ok (tbs, pk, if (lenN sg =? n1 + n2) && (lenN sg =? SIGNATURE_SIZE) then Some sg else None).

Section Cert.
Variable cr : crypto.
Variable cf : cfg.
Variable pf : platform.

(** src/edhoc/cert.c:231, memcmp(subject_id->p, issuer, subject_id->len) == 0 where
    [issuer] is what the pointer to the name points to: the name and the rest of the
    certificate. (Behind the certificate the buffer of ID_CRED_x is not written.) *)
Definition issuer_matches (subject issuer : bytes) : res bool :=
  if lenN issuer <? lenN subject then UB OobRead
  else Ok (beqb subject (takeN (lenN subject) issuer)).
(** src/edhoc/cert.c:203-242, the search with Mbed TLS *)
Fixpoint ca_search (creds : list other_party_cred) (issuer : bytes) : res bytes :=
  match creds with
  | [] => Err no_such_ca
  | c :: r =>
      match oc_ca c with
      | [] => ca_search r issuer
      | ca =>
          let* x := ext (pf_x509_parse pf ca) in
          match x_subject_cn x with
          | None => UB NullDeref
          | Some s =>
              let* b := issuer_matches s issuer in
              if b then Ok (oc_ca_pk c) else ca_search r issuer
          end
      end
  end.
(** src/edhoc/cert.c:181-245 ca_pk_get *)
Definition ca_pk_get (creds : list other_party_cred) (issuer : bytes) : res bytes :=
  let single := match creds with
                | [c] => if negb (pf_mbedtls pf) || (lenN (oc_ca c) =? 0) then Some c else None
                | _ => None
                end in
  match single with
  | Some c => match oc_ca_pk c with [] => Err no_such_ca | k => Ok k end
  | None => if pf_mbedtls pf then ca_search creds issuer else Err no_such_ca
  end.

(** (enum sign_alg) conversion of the algorithm number of a C509 certificate *)
(** src/edhoc/cert.c:247-288, the conversion to enum sign_alg (inc/edhoc/suites.h:39-42) *)
Definition sign_alg_of (z : Z) : option sign_alg :=
  if (z =? -7)%Z then Some ES256 else if (z =? -8)%Z then Some EdDSA else None.

(** src/edhoc/cert.c:247-288 cert_c509_verify; [cap] is pk->len. Result: the public
    key and [*verified]. *)
Definition cert_c509_verify (cert : bytes) (creds : list other_party_cred) (cap : N)
    : res (option bytes * bool) :=
  let* c := ext (cbor_decode_cert cert) in
  let* root_pk := ca_pk_get creds (c5_issuer c ++ c5_issuer_rest c) in
  let* m := slice cert 0 (sub32 (sub32 (lenN cert) 2) (lenN (c5_signature c))) in
  let* v := match sign_alg_of (c5_sig_alg c) with
            | Some a => verify cr a root_pk m (c5_signature c)
            | None => Err crypto_operation_not_implemented
            end in
  let* _ := (if lenN (c5_pk c) =? 0 then Ok tt else check_buffer_size cap (lenN (c5_pk c))) in
  Ok (Some (c5_pk c), v).

(** src/edhoc/cert.c:51-64 deser_sign_cb applied to the INTEGERs of a signature,
    each given by the bytes of the certificate before its content and its content:
    the last [unit] bytes up to the end of each, as long as they fit the 64-byte
    buffer. For a shorter INTEGER the copy starts before its content. *)
Fixpoint deser_sign (ints : list (bytes * bytes)) (unit : N) (acc : bytes) : res bytes :=
  match ints with
  | [] => Ok acc
  | (b, i) :: r =>
      if lenN acc + unit <=? SIGNATURE_SIZE
      then if lenN b + lenN i <? unit then UB OobRead
           else deser_sign r unit (acc ++ dropN (lenN b + lenN i - unit) (b ++ i))
      else deser_sign r unit acc
  end.

(** src/edhoc/cert.c:294-401 cert_x509_verify with Mbed TLS *)
Definition cert_x509_verify_mbedtls (cert : bytes) (creds : list other_party_cred) (cap : N)
    : res (option bytes * bool) :=
  let* x := ext (pf_x509_parse pf cert) in
  if negb (x_ecdsa x) then Err unsupported_signature_algorithm
  else match x_md_len x with
  | None => Err unsupported_signature_algorithm
  | Some unit =>
      match x_issuer_cn x with
      | None => UB NullDeref
      | Some issuer =>
          let* root_pk := ca_pk_get creds (issuer ++ x_issuer_rest x) in
          let* sg := deser_sign (x_sig_ints x) unit [] in
          if lenN sg <? SIGNATURE_SIZE then UB Uninit
          else
            let* v := verify cr ES256 root_pk (x_tbs x) sg in
            let pk := match x_pk_bits x with
                      | Some (0 :: b) => b
                      | Some b => b
                      | None => []
                      end in
            let* _ := (if lenN pk =? 0 then Ok tt else check_buffer_size cap (lenN pk)) in
            Ok (Some pk, v)
      end
  end.

(** src/edhoc/cert.c:403-500 cert_x509_verify without Mbed TLS. The loop over
    [&cred_array[iter]] is left in its first iteration: with one credential it is
    the last one, with several ca_pk_get fails. *)
Definition cert_x509_verify_crude (cert : bytes) (creds : list other_party_cred) (cap : N)
    : res (option bytes * bool) :=
  let* (tbs, pk, sg) := x509_crude_parse cert cap in
  match creds with
  | [] => Ok (pk, false)
  | _ =>
      let* root_pk := ca_pk_get creds [] in
      match sg with
      | None => UB Uninit
      | Some s => let* v := verify cr ES256 root_pk tbs s in Ok (pk, v)
      end
  end.

(** src/edhoc/cert.c:290-503 cert_x509_verify *)
Definition cert_x509_verify (cert : bytes) (creds : list other_party_cred) (cap : N)
    : res (option bytes * bool) :=
  if pf_mbedtls pf then cert_x509_verify_mbedtls cert creds cap
  else cert_x509_verify_crude cert creds cap.

(** CRED_x, signature key and static DH key found for a peer; the one that is not
    used has length 0. *)
Record found := { f_cred : bytes; f_pk : bytes; f_g : bytes }.   (* the output arrays of src/edhoc/retrieve_cred.c:147 *)

(** kinds of certificates in ID_CRED_x, inc/edhoc/retrieve_cred.h:22-45 *)
Inductive cert_kind := X509 | C509.

(** src/edhoc/retrieve_cred.c:40-85 verify_cert2cred. A key that was not copied
    because it is too long is used by every caller. *)
Definition verify_cert2cred (static_dh : bool) (creds : list other_party_cred) (k : cert_kind)
    (cert : bytes) (cred_cap : N) : res found :=
  let* cred := encode_bstr cert cred_cap in
  let* (key, v) := match k with
                   | X509 => cert_x509_verify cert creds PK_SIZE
                   | C509 => cert_c509_verify cert creds PK_SIZE
                   end in
  if v then
    match key with
    | None => UB Uninit
    | Some key => Ok (if static_dh then {| f_cred := cred; f_pk := []; f_g := key |}
                      else {| f_cred := cred; f_pk := key; f_g := [] |})
    end
  else Err certificate_authentication_failed.

(** _memcpy_s into a buffer of [cap] bytes, as seen by the reader of the copy *)
(** src/common/memcpy_s.c *)
Definition copy_to (cap : N) (b : bytes) : res bytes :=
  if lenN b =? 0 then Ok [] else let* _ := check_buffer_size cap (lenN b) in Ok b.

(** src/edhoc/retrieve_cred.c:98-145 get_local_cred *)
Fixpoint get_local_cred (static_dh : bool) (creds : list other_party_cred) (id_cred : bytes)
    (cred_cap : N) : res found :=
  match creds with
  | [] => Err credential_not_found
  | c :: r =>
      if beqb (oc_id_cred c) id_cred then
        let* cred := copy_to cred_cap (oc_cred c) in
        if static_dh then
          if lenN (oc_g c) =? 65 then
            let* x := slice (oc_g c) 1 32 in
            Ok {| f_cred := cred; f_pk := []; f_g := 2 :: x |}
          else
            let* g := copy_to G_R_SIZE (oc_g c) in
            Ok {| f_cred := cred; f_pk := []; f_g := g |}
        else
          let* pk := copy_to PK_SIZE (oc_pk c) in
          Ok {| f_cred := cred; f_pk := pk; f_g := [] |}
      else get_local_cred static_dh r id_cred cred_cap
  end.

(** src/edhoc/retrieve_cred.c:147-207 retrieve_cred. [id_cred = None]: the buffer
    was never written (see Model_EdhocMsg.v). *)
Definition retrieve_cred (static_dh : bool) (creds : list other_party_cred) (id_cred : option bytes)
    (cred_cap : N) : res found :=
  match id_cred with
  | None => UB Uninit
  | Some id =>
      let* (m, _) := ext (dec_id_cred_map id) in
      match ic_kid m, ic_x5u m, ic_x5t m, ic_c5u m, ic_c5t m with
      | None, None, None, None, None =>
          match ic_x5chain m with
          | Some c => verify_cert2cred static_dh creds X509 c cred_cap
          | None =>
          match ic_x5bag m with
          | Some c => verify_cert2cred static_dh creds X509 c cred_cap
          | None =>
          match ic_c5c m with
          | Some c => verify_cert2cred static_dh creds C509 c cred_cap
          | None =>
          match ic_c5b m with
          | Some c => verify_cert2cred static_dh creds C509 c cred_cap
          | None => Err credential_not_found
          end end end end
      | _, _, _, _, _ => get_local_cred static_dh creds id cred_cap
      end
  end.
End Cert.
