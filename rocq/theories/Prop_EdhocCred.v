(** Properties C39 (lookup of the peer's credential) and C46 (choice of the CA key). *)
From Verif Require Import Base Proof_Base Model_Common Model_Cbor Proof_Cbor Model_Crypto
  Spec_CborTree Proof_CborTree Spec_Edhoc Spec_EdhocRun Model_EdhocCfg Model_EdhocCbor Model_EdhocKeys
  Proof_EdhocBase Model_EdhocCert Proof_EdhocMsg Proof_EdhocDefault Spec_EdhocCred Proof_EdhocCred
  Model_Toy Model_EdhocMsg Model_EdhocRun Model_ToyEdhoc.

(* ---------- C39 ---------- *)

(** Whatever identifier is received: if the lookup succeeds, then CRED_x and the key
    are those of the first stored entry with exactly this identifier, or the
    identifier contains a certificate of which a configured CA signed the signed
    part, CRED_x is that certificate and the key belongs to it. Missing: without
    Mbed TLS the key of an X.509 certificate need not lie in the signed part
    (refuted below). *)
Theorem C39_sound_partial :
  forall (cr : crypto) (pf : platform) (static_dh : bool) (creds : list other_party_cred) (id : bytes) (cap : N) (f : found),
  lenN id < 2 ^ 32 -> retrieve_cred cr pf static_dh creds (Some id) cap = Ok f ->
  (exists c, first_with creds id c /\ f_cred f = oc_cred c /\
     (if static_dh then f_pk f = [] /\ f_g f = dh_key_of (oc_g c) else f_pk f = oc_pk c /\ f_g f = [])) \/
  (exists k cert key, infix cert id /\ f_cred f = cbor (CBytes cert) /\ certified cr pf creds k cert key /\
     (if static_dh then f_pk f = [] /\ f_g f = key else f_pk f = key /\ f_g f = [])).
Proof. exact retrieve_inv. Qed.
Print Assumptions C39_sound_partial.

(** With an identifier kid or x5t only stored entries are used; with x5chain only the
    certificate inside. *)
Theorem C39_by_kind :
  forall (cr : crypto) (pf : platform) (static_dh : bool) (creds : list other_party_cred) (i : cred_id) (cap : N) (f : found),
  id_range i -> lenN (rfc_id_cred i) < 2 ^ 32 -> retrieve_cred cr pf static_dh creds (Some (rfc_id_cred i)) cap = Ok f ->
  match i with
  | X5chain cert => f_cred f = cbor (CBytes cert) /\ exists key, certified cr pf creds X509 cert key /\
     (if static_dh then f_pk f = [] /\ f_g f = key else f_pk f = key /\ f_g f = [])
  | _ => exists c, first_with creds (rfc_id_cred i) c /\ f_cred f = oc_cred c /\
     (if static_dh then f_pk f = [] /\ f_g f = dh_key_of (oc_g c) else f_pk f = oc_pk c /\ f_g f = [])
  end.
Proof.
  intros cr pf sd creds i cap f HI HL HO. unfold retrieve_cred in HO.
  rewrite <- (app_nil_r (rfc_id_cred i)) in HO at 1. rewrite dec_cid in HO by (destruct i; exact HI). cbn [ext bind] in HO.
  destruct i as [z|c|a h]; cbn [cid_map ic_kid ic_x5u ic_x5t ic_c5u ic_c5t ic_x5chain] in HO.
  - now apply get_local_inv with cap.
  - apply (cert2cred_inv cr pf sd creds X509 c cap f); [|exact HO]. cbn [rfc_id_cred] in HL. unfold map1 in HL.
    rewrite cbor_bytes, !lenN_app, enc_bstr_len in HL. lia.
  - now apply get_local_inv with cap.
Qed.
Print Assumptions C39_by_kind.

(** A stored entry is found by its identifier, and an identifier of which there is no
    entry is refused. *)
Theorem C39_stored :
  forall (cr : crypto) (pf : platform) (static_dh : bool) (creds : list other_party_cred) (i : cred_id) (cap : N),
  id_range i -> (forall cert, i <> X5chain cert) ->
  (forall cred pk g, knows creds (rfc_id_cred i) cred pk g -> lenN cred <= cap -> lenN pk <= 65 -> lenN g <= 64 ->
     retrieve_cred cr pf static_dh creds (Some (rfc_id_cred i)) cap =
       Ok (if static_dh then {| f_cred := cred; f_pk := []; f_g := g |} else {| f_cred := cred; f_pk := pk; f_g := [] |})) /\
  ((forall c, In c creds -> oc_id_cred c <> rfc_id_cred i) ->
     retrieve_cred cr pf static_dh creds (Some (rfc_id_cred i)) cap = Err credential_not_found).
Proof.
  intros cr pf sd creds i cap HI NX.
  assert (RC : retrieve_cred cr pf sd creds (Some (rfc_id_cred i)) cap = get_local_cred sd creds (rfc_id_cred i) cap).
  { unfold retrieve_cred. rewrite <- (app_nil_r (rfc_id_cred i)) at 1. rewrite dec_cid by (destruct i; exact HI). cbn [ext bind].
    destruct i as [z|c|a h]; cbn [cid_map ic_kid ic_x5u ic_x5t ic_c5u ic_c5t]; [reflexivity|exfalso; now apply (NX c)|reflexivity]. }
  rewrite RC. split.
  - intros cred pk g K L1 L2 L3. exact (proj1 (local_found cr pf sd creds (rfc_id_cred i) cap cred pk g K L1 L2 L3)).
  - intros N. now apply get_local_none.
Qed.
Print Assumptions C39_stored.

(** In the build without Mbed TLS the key need not be signed. Take any certificate of
    version 1 (its signed part has six elements) that the CA signed, and put a key of
    your choice where the signature algorithm, which is not signed, stands: the
    lookup returns that key. *)
Theorem C39_unsigned_key_refuted :
  forall (cr : crypto) (pf : platform) (static_dh : bool) (c : other_party_cred) (els : list (N * bytes)) (r s key : bytes) (cap : N),
  pf_mbedtls pf = false -> oc_ca_pk c <> [] ->
  length els = 6%nat -> Forall (fun e => fst e <> 0) els -> lenN (elems els) < 2 ^ 31 ->
  lenN r = 32 -> lenN s = 32 ->
  let tbs := der 48 (elems els) in
  cr_verify cr 7 (oc_ca_pk c) tbs (r ++ s) = Some true ->
  1 <= lenN key <= 65 ->
  let cert := x509 tbs (spki [] key) r s in
  lenN (cbor (CBytes cert)) <= cap ->
  retrieve_cred cr pf static_dh [c] (Some (rfc_id_cred (X5chain cert))) cap =
    Ok (if static_dh then {| f_cred := cbor (CBytes cert); f_pk := []; f_g := key |}
        else {| f_cred := cbor (CBytes cert); f_pk := key; f_g := [] |}).
Proof.
  intros cr pf sd c els r s key cap HM HK L6 FE LE LR LS tbs HV LK cert LC.
  assert (FL : Forall (fun e => lenN (snd e) < 2 ^ 32) els) by (apply elems_bound; exact LE).
  assert (LB : lenN cert < 2 ^ 64).
  { assert (DB : forall n, lenN (der_len n) <= 5) by apply der_len_len.
    assert (DD : forall t b, lenN (der t b) <= 6 + lenN b)
      by (intros t b; unfold der; rewrite lenN_cons, lenN_app; specialize (DB (lenN b)); lia).
    unfold cert, x509. etransitivity. { apply N.lt_succ_r, DD. }
    rewrite !lenN_app. unfold tbs, spki, der_ecdsa.
    pose proof (DD 48 (elems els)). pose proof (DD 48 (der 48 [] ++ der 3 (0 :: key))) as D1. rewrite lenN_app in D1.
    pose proof (DD 48 []) as D2. change (lenN (@nil N)) with 0 in D2. pose proof (DD 3 (0 :: key)) as D3. rewrite lenN_cons in D3.
    pose proof (DD 3 (0 :: der 48 (der 2 (0 :: r) ++ der 2 (0 :: s)))) as D4. rewrite lenN_cons in D4.
    pose proof (DD 48 (der 2 (0 :: r) ++ der 2 (0 :: s))) as D5. rewrite lenN_app in D5.
    pose proof (DD 2 (0 :: r)) as D6. pose proof (DD 2 (0 :: s)) as D7. rewrite lenN_cons in D6, D7. lia. }
  unfold retrieve_cred. rewrite <- (app_nil_r (rfc_id_cred _)), dec_cid by exact LB. cbn [ext bind].
  cbn [cid_map ic_kid ic_x5u ic_x5t ic_c5u ic_c5t ic_x5chain]. unfold verify_cert2cred.
  rewrite cbor_bytes in LC |- *. rewrite (proj2 (encode_bstr_ok cert cap (enc_bstr cert))) by auto. cbn [bind].
  unfold cert_x509_verify. rewrite HM. unfold cert_x509_verify_crude.
  destruct els as [|[t0 c0] rest] eqn:EE; [discriminate|]. inversion FE as [|? ? T0 _]; subst. cbn [fst] in T0.
  unfold cert, tbs. erewrite crude_forged; [|reflexivity|exact T0|exact L6|exact FL|exact LE|exact LK|change PK_SIZE with 65; lia|exact LR|exact LS].
  cbn [bind]. unfold ca_pk_get. rewrite HM. cbn [negb orb]. fold tbs. destruct (oc_ca_pk c) as [|b0 bl]; [contradiction|].
  cbn [bind]. unfold verify. change (sign_sel ES256) with 7. rewrite HV. reflexivity.
Qed.
Print Assumptions C39_unsigned_key_refuted.

(** Non-trivial instances: the second of two entries is found by its kid; an unknown
    kid is refused; a certificate of version 1 with the key [repeat 7 65], signed by
    the CA, serves to present the key [repeat 66 65]. *)
Definition ex_els : list (N * bytes) :=
  [(2, [1]); (48, [6; 1; 42]); (48, [49; 65]); (48, [23; 1; 9]); (48, [49; 66]); (48, [48; 0; 3; 66; 0] ++ repeat 7 65)].
Definition ex_ca : other_party_cred :=
  {| oc_id_cred := []; oc_cred := []; oc_pk := []; oc_g := []; oc_ca := []; oc_ca_pk := repeat 9 65 |}.
Definition ex_sig : bytes := toy_sig 7 (repeat 9 65) (der 48 (elems ex_els)).
Example C39_example :
  (exists f, retrieve_cred toy_crypto toy_pf false toy_creds_r (Some (rfc_id_cred (KidInt (-3)))) 400 = Ok f /\
     f_pk f = repeat 23 32) /\
  retrieve_cred toy_crypto toy_pf false toy_creds_r (Some (rfc_id_cred (KidInt 99))) 400 = Err credential_not_found /\
  (exists f, retrieve_cred toy_crypto toy_pf false [ex_ca]
     (Some (rfc_id_cred (X5chain (x509 (der 48 (elems ex_els)) (spki [] (repeat 66 65)) (takeN 32 ex_sig) (dropN 32 ex_sig))))) 400 = Ok f /\
     f_pk f = repeat 66 65).
Proof.
  split; [|split].
  - eexists. split; vm_compute; reflexivity.
  - vm_compute. reflexivity.
  - eexists. split; vm_compute; reflexivity.
Qed.

(* ---------- C46 ---------- *)

(** The CA key that verifies an X.509 certificate is that of an entry whose CA
    certificate has the certificate's issuer as subject, if that entry is not the
    only one without CA certificate. Missing: the subject may also be a proper prefix
    of the issuer, or continue it like the certificate does. *)
Theorem C46_x509_partial :
  forall (cr : crypto) (pf : platform) (static_dh : bool) (creds : list other_party_cred) (cert : bytes) (cap : N) (f : found),
  pf_mbedtls pf = true -> lenN cert < 2 ^ 31 ->
  retrieve_cred cr pf static_dh creds (Some (rfc_id_cred (X5chain cert))) cap = Ok f ->
  exists x issuer c sgn, pf_x509_parse pf cert = Some x /\ x_issuer_cn x = Some issuer /\
    In c creds /\ cr_verify cr 7 (oc_ca_pk c) (x_tbs x) sgn = Some true /\ ca_entry pf creds (issuer ++ x_issuer_rest x) c.
Proof.
  intros cr pf sd creds cert cap f HM LC HO. unfold retrieve_cred in HO.
  rewrite <- (app_nil_r (rfc_id_cred (X5chain cert))) in HO at 1. rewrite dec_cid in HO by (cbn; lia). cbn [ext bind] in HO.
  cbn [cid_map ic_kid ic_x5u ic_x5t ic_c5u ic_c5t ic_x5chain] in HO. unfold verify_cert2cred in HO.
  destruct (proj1 (bind_ok _ _ _) HO) as (cred & _ & HR). clear HO.
  destruct (proj1 (bind_ok _ _ _) HR) as ((key & v) & HK & HQ). clear HR. destruct v; [|discriminate].
  unfold cert_x509_verify in HK. rewrite HM in HK. unfold cert_x509_verify_mbedtls in HK.
  destruct (proj1 (bind_ok _ _ _) HK) as (x & HX & HR). apply ext_ok in HX. clear HK.
  destruct (x_ecdsa x); [|discriminate]. cbn [negb] in HR. destruct (x_md_len x) as [un|]; [|discriminate].
  destruct (x_issuer_cn x) as [iss|] eqn:EI; [|discriminate].
  destruct (proj1 (bind_ok _ _ _) HR) as (root & HP & HS). clear HR. destruct (ca_pk_inv _ _ _ _ HP) as (c & IC & EK & CE).
  destruct (proj1 (bind_ok _ _ _) HS) as (sg & _ & HV). clear HS. destruct (lenN sg <? SIGNATURE_SIZE); [discriminate|].
  destruct (proj1 (bind_ok _ _ _) HV) as (v & HVV & HE). clear HV.
  destruct (proj1 (bind_ok _ _ _) HE) as (u & _ & HF). injection HF as _ ->. apply ext_ok in HVV.
  exists x, iss, c, sg. split; [exact HX|]. split; [exact EI|]. split; [exact IC|]. split; [now rewrite EK|exact CE].
Qed.
Print Assumptions C46_x509_partial.

(** For a C509 certificate the signed part is everything before the signature. *)
Theorem C46_c509_partial :
  forall (cr : crypto) (pf : platform) (static_dh : bool) (creds : list other_party_cred) (cap : N) (f : found)
         (ty sn nb na ka ex sa : Z) (issuer subject pk sgn : bytes),
  Forall (fun z => (- 2 ^ 31 <= z < 2 ^ 31)%Z) [ty; sn; nb; na; ka; ex; sa] ->
  let tbs := c509_tbs ty sn issuer nb na subject ka pk ex sa in
  lenN tbs < 2 ^ 31 -> lenN sgn = 64 ->
  retrieve_cred cr pf static_dh creds (Some (map1 53 (cbor (CBytes (c509_of tbs sgn))))) cap = Ok f ->
  exists c g, In c creds /\ (g = 7 /\ sa = (-7)%Z \/ g = 8 /\ sa = (-8)%Z) /\
    cr_verify cr g (oc_ca_pk c) tbs sgn = Some true /\
    ca_entry pf creds (issuer ++ c509_rest nb na subject ka pk ex sa sgn) c /\
    (if static_dh then f_g f else f_pk f) = pk.
Proof.
  intros cr pf sd creds cap f ty sn nb na ka ex sa iss sub pk sgn FI tbs LT LS HO.
  assert (LP : lenN iss < 2 ^ 64 /\ lenN sub < 2 ^ 64 /\ lenN pk < 2 ^ 64).
  { unfold tbs, c509_tbs in LT. rewrite !cbor_seq_cons, !lenN_app, cbor_text, !cbor_bytes, !enc_bstr_len in LT. unfold enc_tstr in LT.
    rewrite lenN_app in LT. lia. }
  assert (EB : lenN (cbor (CBytes sgn)) = 66).
  { rewrite cbor_bytes, enc_bstr_len, LS. reflexivity. }
  assert (LC : lenN (c509_of tbs sgn) = lenN tbs + 66) by (unfold c509_of; rewrite lenN_app, EB; lia).
  unfold retrieve_cred in HO. destruct (dec_c5c (c509_of tbs sgn)) as (m & EM & E1 & E2 & E3 & E4 & E5 & E6 & E7 & E8); [lia|].
  rewrite EM in HO. cbn [ext bind] in HO. rewrite E1, E2, E3, E4, E5, E6, E7, E8 in HO. unfold verify_cert2cred in HO.
  destruct (proj1 (bind_ok _ _ _) HO) as (cred & _ & HR). clear HO.
  destruct (proj1 (bind_ok _ _ _) HR) as ((key & v) & HK & HQ). clear HR. destruct v; [|discriminate].
  unfold cert_c509_verify in HK. unfold tbs in HK. rewrite decode_c509 in HK by (try apply LP; try exact FI; lia). fold tbs in HK.
  cbn [ext bind c5_issuer c5_issuer_rest c5_signature c5_sig_alg c5_pk] in HK.
  destruct (proj1 (bind_ok _ _ _) HK) as (root & HP & HR). clear HK. destruct (ca_pk_inv _ _ _ _ HP) as (c & IC & EK & CE).
  destruct (proj1 (bind_ok _ _ _) HR) as (msg & HM & HS). clear HR.
  rewrite LC, LS in HM. rewrite (sub32_exact (lenN tbs + 66)), sub32_exact in HM by lia.
  rewrite (slice_at (c509_of tbs sgn) [] tbs (cbor (CBytes sgn))) in HM; [|reflexivity|reflexivity|lia]. injection HM as <-.
  destruct (proj1 (bind_ok _ _ _) HS) as (v & HV & HE). clear HS.
  destruct (proj1 (bind_ok _ _ _) HE) as (u & _ & HF). clear HE. injection HF as <- ->.
  exists c. unfold sign_alg_of in HV. destruct (Z.eqb_spec sa (-7)) as [A|A].
  - apply ext_ok in HV. exists 7. split; [exact IC|]. split; [auto|]. split; [now rewrite EK|]. split; [exact CE|].
    injection HQ as <-. now destruct sd.
  - destruct (Z.eqb_spec sa (-8)) as [B|B]; [|discriminate]. cbn [verify] in HV. rewrite LS in HV. change (64 <? 64) with false in HV.
    destruct (lenN root <? 32); [discriminate|]. cbn [orb] in HV.
    apply ext_ok in HV. rewrite takeN_all in HV by lia. exists 8. split; [exact IC|]. split; [auto|]. split; [now rewrite EK|]. split; [exact CE|].
    injection HQ as <-. now destruct sd.
Qed.
Print Assumptions C46_c509_partial.

(** The subject is exactly the issuer when no other configured subject stands where the
    issuer's name begins in the certificate, and the array is not a single entry without CA certificate. *)
Theorem C46_exact_partial :
  forall (cr : crypto) (pf : platform) (static_dh : bool) (creds : list other_party_cred) (cert : bytes) (cap : N) (f : found)
         (x : x509_cert) (issuer : bytes),
  pf_mbedtls pf = true -> lenN cert < 2 ^ 31 -> pf_x509_parse pf cert = Some x -> x_issuer_cn x = Some issuer ->
  (forall c, creds = [c] -> oc_ca c <> []) ->
  (forall c xc s, In c creds -> pf_x509_parse pf (oc_ca c) = Some xc -> x_subject_cn xc = Some s ->
     begins (issuer ++ x_issuer_rest x) s -> s = issuer) ->
  retrieve_cred cr pf static_dh creds (Some (rfc_id_cred (X5chain cert))) cap = Ok f ->
  exists c xc sgn, In c creds /\ pf_x509_parse pf (oc_ca c) = Some xc /\ x_subject_cn xc = Some issuer /\
    cr_verify cr 7 (oc_ca_pk c) (x_tbs x) sgn = Some true.
Proof.
  intros cr pf sd creds cert cap f x issuer HM LC HX HI N1 NP HO.
  destruct (C46_x509_partial cr pf sd creds cert cap f HM LC HO) as (x' & i' & c & sgn & HX' & HI' & IC & HV & CE).
  rewrite HX in HX'. injection HX' as <-. rewrite HI in HI'. injection HI' as <-.
  destruct CE as [(E & _ & NC)|(_ & b & a & xc & s & E & NC & PX & PS & PM & _)].
  - exfalso. now apply (N1 c E), NC.
  - exists c, xc, sgn. split; [exact IC|]. split; [exact PX|]. split; [|exact HV].
    now rewrite <- (NP c xc s IC PX PS PM).
Qed.
Print Assumptions C46_exact_partial.

(** A CA vouches for every issuer that begins with its own name, and for those whose
    name begins its own if the certificate goes on like it: a certificate is accepted
    when the CA called [s], standing first in the array, signed it, if from the name of
    the issuer on its bytes begin with [s] - whether or not a CA with the name of the
    issuer is configured. *)
Theorem C46_prefix_refuted :
  forall (cr : crypto) (pf : platform) (c : other_party_cred) (rest : list other_party_cred) (cert : bytes) (cap : N)
         (x xc : x509_cert) (issuer s b1 r1 b2 r2 : bytes),
  pf_mbedtls pf = true -> lenN cert < 2 ^ 31 -> lenN (cbor (CBytes cert)) <= cap ->
  oc_ca c <> [] -> pf_x509_parse pf (oc_ca c) = Some xc -> x_subject_cn xc = Some s ->
  pf_x509_parse pf cert = Some x -> x_issuer_cn x = Some issuer -> begins (issuer ++ x_issuer_rest x) s ->
  x_ecdsa x = true -> x_md_len x = Some 32 -> x_sig_ints x = [(b1, r1); (b2, r2)] -> lenN r1 = 32 -> lenN r2 = 32 ->
  cr_verify cr 7 (oc_ca_pk c) (x_tbs x) (r1 ++ r2) = Some true -> lenN (subject_key x) <= 65 ->
  retrieve_cred cr pf false (c :: rest) (Some (rfc_id_cred (X5chain cert))) cap =
    Ok {| f_cred := cbor (CBytes cert); f_pk := subject_key x; f_g := [] |}.
Proof.
  intros cr pf c rest cert cap x xc iss s b1 r1 b2 r2 HM LC LB NC PX PS HX HI (t & HB) HE HD HS L1 L2 HV LK.
  unfold retrieve_cred. rewrite <- (app_nil_r (rfc_id_cred _)), dec_cid by (cbn; lia). cbn [ext bind].
  cbn [cid_map ic_kid ic_x5u ic_x5t ic_c5u ic_c5t ic_x5chain]. unfold verify_cert2cred.
  rewrite cbor_bytes in LB |- *. rewrite (proj2 (encode_bstr_ok cert cap (enc_bstr cert))) by auto. cbn [bind].
  unfold cert_x509_verify. rewrite HM. unfold cert_x509_verify_mbedtls. rewrite HX. cbn [ext bind]. rewrite HE, HD, HI. cbn [negb]. rewrite HB.
  assert (CP : ca_pk_get pf (c :: rest) (s ++ t) = Ok (oc_ca_pk c)).
  { assert (CS : ca_search pf (c :: rest) (s ++ t) = Ok (oc_ca_pk c)).
    { cbn [ca_search]. destruct (oc_ca c) as [|b0 bl]; [contradiction|]. rewrite PX. cbn [ext bind]. rewrite PS.
      unfold issuer_matches. rewrite lenN_app. destruct (N.ltb_spec (lenN s + lenN t) (lenN s)); [lia|].
      rewrite takeN_app, beqb_refl. reflexivity. }
    unfold ca_pk_get. rewrite HM. destruct rest as [|d rest]; [|exact CS].
    cbn [negb orb]. destruct (N.eqb_spec (lenN (oc_ca c)) 0) as [Z|_]; [apply lenN_0 in Z; contradiction|exact CS]. }
  rewrite CP. cbn [bind]. rewrite HS. cbn [deser_sign]. change (lenN (@nil N) + 32 <=? SIGNATURE_SIZE) with true. cbv iota.
  rewrite L1. destruct (N.ltb_spec (lenN b1 + 32) 32); [lia|]. rewrite N.add_sub, dropN_app, app_nil_l, L1.
  change (32 + 32 <=? SIGNATURE_SIZE) with true. cbv iota. rewrite L2. destruct (N.ltb_spec (lenN b2 + 32) 32); [lia|].
  rewrite N.add_sub, dropN_app. cbn [bind]. rewrite lenN_app, L1, L2. change (32 + 32 <? SIGNATURE_SIZE) with false. cbv iota.
  unfold verify. change (sign_sel ES256) with 7. rewrite HV. cbn [ext bind]. fold (subject_key x).
  assert (CK : (if lenN (subject_key x) =? 0 then Ok tt else check_buffer_size PK_SIZE (lenN (subject_key x))) = Ok tt).
  { destruct (lenN (subject_key x) =? 0); [reflexivity|]. apply check_fits. exact LK. }
  rewrite CK. reflexivity.
Qed.
Print Assumptions C46_prefix_refuted.

(** The issuer is not looked at when the array has a single entry without CA
    certificate: any name is accepted as issuer. *)
Theorem C46_single_refuted :
  forall (cr : crypto) (pf : platform) (c : other_party_cred) (cap : N)
         (ty sn nb na ka ex : Z) (issuer subject pk sgn : bytes),
  Forall (fun z => (- 2 ^ 31 <= z < 2 ^ 31)%Z) [ty; sn; nb; na; ka; ex] ->
  let tbs := c509_tbs ty sn issuer nb na subject ka pk ex (-7) in
  oc_ca c = [] -> oc_ca_pk c <> [] ->
  lenN tbs < 2 ^ 31 -> lenN sgn = 64 -> lenN pk <= 65 -> lenN (cbor (CBytes (c509_of tbs sgn))) <= cap ->
  cr_verify cr 7 (oc_ca_pk c) tbs sgn = Some true ->
  retrieve_cred cr pf false [c] (Some (map1 53 (cbor (CBytes (c509_of tbs sgn))))) cap =
    Ok {| f_cred := cbor (CBytes (c509_of tbs sgn)); f_pk := pk; f_g := [] |}.
Proof.
  intros cr pf c cap ty sn nb na ka ex iss sub pk sgn FI tbs NC NK LT LS LK LB HV.
  assert (FI' : Forall is_int32 [ty; sn; nb; na; ka; ex; (-7)%Z]).
  { change [ty; sn; nb; na; ka; ex; (-7)%Z] with ([ty; sn; nb; na; ka; ex] ++ [(-7)%Z]). apply Forall_app. split; [exact FI|].
    constructor; [unfold is_int32; lia|constructor]. }
  assert (LP : lenN iss < 2 ^ 64 /\ lenN sub < 2 ^ 64).
  { unfold tbs, c509_tbs in LT. rewrite !cbor_seq_cons, !lenN_app, cbor_text, !cbor_bytes, !enc_bstr_len in LT. unfold enc_tstr in LT.
    rewrite lenN_app in LT. lia. }
  assert (EB : lenN (cbor (CBytes sgn)) = 66).
  { rewrite cbor_bytes, enc_bstr_len, LS. reflexivity. }
  assert (LC : lenN (c509_of tbs sgn) = lenN tbs + 66) by (unfold c509_of; rewrite lenN_app, EB; lia).
  unfold retrieve_cred. destruct (dec_c5c (c509_of tbs sgn)) as (m & EM & E1 & E2 & E3 & E4 & E5 & E6 & E7 & E8); [lia|].
  rewrite EM. cbn [ext bind]. rewrite E1, E2, E3, E4, E5, E6, E7, E8. unfold verify_cert2cred.
  rewrite (cbor_bytes (c509_of tbs sgn)) in LB |- *. rewrite (proj2 (encode_bstr_ok (c509_of tbs sgn) cap (enc_bstr (c509_of tbs sgn)))) by auto.
  cbn [bind]. unfold cert_c509_verify. unfold tbs at 1. rewrite decode_c509 by (try apply LP; try exact FI'; lia). fold tbs.
  cbn [ext bind c5_issuer c5_issuer_rest c5_signature c5_sig_alg c5_pk].
  assert (CP : forall i, ca_pk_get pf [c] i = Ok (oc_ca_pk c)).
  { intros i. unfold ca_pk_get. rewrite NC. change (lenN (@nil N) =? 0) with true. rewrite orb_true_r. destruct (oc_ca_pk c); [contradiction|reflexivity]. }
  rewrite CP. cbn [bind]. rewrite LC, LS. rewrite (sub32_exact (lenN tbs + 66)), sub32_exact by lia.
  rewrite (slice_at (c509_of tbs sgn) [] tbs (cbor (CBytes sgn))); [|reflexivity|reflexivity|lia]. cbn [bind].
  change (sign_alg_of (-7)) with (Some ES256). cbv iota. unfold verify. change (sign_sel ES256) with 7. rewrite HV. cbn [ext bind].
  assert (CK : (if lenN pk =? 0 then Ok tt else check_buffer_size PK_SIZE (lenN pk)) = Ok tt).
  { destruct (lenN pk =? 0); [reflexivity|]. apply check_fits. exact LK. }
  rewrite CK. reflexivity.
Qed.
Print Assumptions C46_single_refuted.

(** Comparing with a configured subject that is longer than the issuer's name and the
    rest of the certificate together reads behind the certificate. *)
Theorem C46_long_subject_refuted :
  forall (cr : crypto) (pf : platform) (static_dh : bool) (c d : other_party_cred) (rest : list other_party_cred)
         (cert : bytes) (cap : N) (x xc : x509_cert) (issuer s : bytes) (n : N),
  pf_mbedtls pf = true -> lenN cert < 2 ^ 31 -> lenN (cbor (CBytes cert)) <= cap ->
  oc_ca c <> [] -> pf_x509_parse pf (oc_ca c) = Some xc -> x_subject_cn xc = Some s ->
  pf_x509_parse pf cert = Some x -> x_issuer_cn x = Some issuer -> x_ecdsa x = true -> x_md_len x = Some n ->
  lenN issuer + lenN (x_issuer_rest x) < lenN s ->
  retrieve_cred cr pf static_dh (c :: d :: rest) (Some (rfc_id_cred (X5chain cert))) cap = UB OobRead.
Proof.
  intros cr pf sd c d rest cert cap x xc iss s n HM LC LB NC PX PS HX HI HE HD NT.
  unfold retrieve_cred. rewrite <- (app_nil_r (rfc_id_cred _)), dec_cid by (cbn; lia). cbn [ext bind].
  cbn [cid_map ic_kid ic_x5u ic_x5t ic_c5u ic_c5t ic_x5chain]. unfold verify_cert2cred.
  rewrite cbor_bytes in LB. rewrite (proj2 (encode_bstr_ok cert cap (enc_bstr cert))) by auto. cbn [bind].
  unfold cert_x509_verify. rewrite HM. unfold cert_x509_verify_mbedtls. rewrite HX. cbn [ext bind]. rewrite HE, HD, HI. cbn [negb].
  unfold ca_pk_get. rewrite HM. cbn [ca_search].
  destruct (oc_ca c) as [|b0 bl]; [contradiction|]. rewrite PX. cbn [ext bind]. rewrite PS. unfold issuer_matches. rewrite lenN_app.
  destruct (N.ltb_spec (lenN iss + lenN (x_issuer_rest x)) (lenN s)); [|lia]. reflexivity.
Qed.
Print Assumptions C46_long_subject_refuted.

(** Non-trivial instances: CAs called "A" and "AB" are configured; a certificate of
    the issuer "B" signed by a CA "B" is accepted, one of the issuer "AB" signed by
    "A" too, while one signed by "AB" itself is refused. If only "AB" is configured, a
    certificate of "A" that it signed is accepted when the byte after the name is 66. *)
Definition ex_x (issuer subject tbs sg : bytes) : x509_cert := {|
  x_issuer_cn := Some issuer; x_issuer_rest := [66; 48; 30]; x_subject_cn := Some subject; x_ecdsa := true; x_md_len := Some 32;
  x_tbs := tbs; x_sig_ints := [([2; 32], takeN 32 sg); ([2; 32], dropN 32 sg)]; x_pk_bits := Some (0 :: repeat 5 65) |}.
Definition ex_parse (b : bytes) : option x509_cert :=
  match b with
  | [1] => Some (ex_x [65] [65] [] [])
  | [2] => Some (ex_x [65; 66] [65; 66] [] [])
  | [3] => Some (ex_x [66] [66] [] [])
  | [4] => Some (ex_x [65; 66] [67] [4; 4] (toy_sig 7 [101] [4; 4]))
  | [5] => Some (ex_x [65; 66] [67] [4; 4] (toy_sig 7 [102] [4; 4]))
  | [6] => Some (ex_x [66] [67] [4; 4] (toy_sig 7 [103] [4; 4]))
  | [7] => Some (ex_x [65] [67] [4; 4] (toy_sig 7 [102] [4; 4]))
  | [8] => Some (ex_x [65; 66] (repeat 65 9) [] [])
  | _ => None
  end.
Definition ex_mbed : platform := {| pf_mbedtls := true; pf_x509_parse := ex_parse |}.
Definition ex_cas : list other_party_cred :=
  map (fun n => {| oc_id_cred := []; oc_cred := []; oc_pk := []; oc_g := []; oc_ca := [n]; oc_ca_pk := [100 + n] |}) [1; 2; 3].
Example C46_example :
  let ask_of cas n := retrieve_cred toy_crypto ex_mbed false cas (Some (rfc_id_cred (X5chain [n]))) 400 in
  let ask := ask_of ex_cas in
  let ca n := {| oc_id_cred := []; oc_cred := []; oc_pk := []; oc_g := []; oc_ca := [n]; oc_ca_pk := [100 + n] |} in
  ask_of [ca 2] 7 = Ok {| f_cred := [0x41; 7]; f_pk := repeat 5 65; f_g := [] |} /\
  ask_of [ca 8; ca 3] 7 = UB OobRead /\
  ask 6 = Ok {| f_cred := [0x41; 6]; f_pk := repeat 5 65; f_g := [] |} /\
  ask 4 = Ok {| f_cred := [0x41; 4]; f_pk := repeat 5 65; f_g := [] |} /\
  ask 5 = Err certificate_authentication_failed.
Proof. vm_compute. repeat split. Qed.
