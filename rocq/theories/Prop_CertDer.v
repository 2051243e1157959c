(** Property C70: a certificate as a CA issues it is accepted and yields the key in it. *)
From Verif Require Import Base Proof_Base Model_Common Model_Cbor Proof_Cbor Model_Crypto Spec_CborTree Proof_CborTree Spec_Edhoc
  Model_EdhocCfg Model_EdhocCbor Model_EdhocKeys Proof_EdhocBase Model_EdhocCert Proof_EdhocMsg Proof_EdhocRun Spec_EdhocCred Proof_EdhocCred Spec_CertDer Proof_CertDer
  Model_Toy.

(** The build without Mbed TLS, for all certificates of version 2 or 3 of any size below
    4 GiB, any names, validity and extensions: the CA's signature (r, s) is checked over
    the signed part of the certificate, and if it is valid the key of the certificate
    is used.
    Missing: r and s must not begin with a zero byte, and only one CA can be
    configured. *)
Theorem C70_crude_partial :
  forall (cr : crypto) (pf : platform) (static_dh : bool) (c : other_party_cred) (els : list (N * bytes))
         (key_alg key rest alg r s : bytes) (cap : N),
  pf_mbedtls pf = false -> oc_ca_pk c <> [] ->
  length els = 6%nat -> Forall (fun e => fst e <> 0) els -> hd 0 key_alg <> 0 -> hd 0 alg <> 0 ->
  1 <= lenN key <= 65 -> lenN r = 32 -> lenN s = 32 -> hd 0 r <> 0 -> hd 0 s <> 0 ->
  let tbs := tbs_of els key_alg key rest in
  let cert := certificate tbs alg r s in
  lenN cert < 2 ^ 32 -> lenN (cbor (CBytes cert)) <= cap ->
  (cr_verify cr 7 (oc_ca_pk c) tbs (r ++ s) = Some true ->
   retrieve_cred cr pf static_dh [c] (Some (rfc_id_cred (X5chain cert))) cap =
     Ok (if static_dh then {| f_cred := cbor (CBytes cert); f_pk := []; f_g := key |}
         else {| f_cred := cbor (CBytes cert); f_pk := key; f_g := [] |})) /\
  (cr_verify cr 7 (oc_ca_pk c) tbs (r ++ s) = Some false ->
   retrieve_cred cr pf static_dh [c] (Some (rfc_id_cred (X5chain cert))) cap = Err certificate_authentication_failed).
Proof.
  intros cr pf sd c els ka key rest alg r s cap HM HK L6 FE K0 G0 LK LR LS R0 S0 tbs cert LL LC.
  assert (SF : forall b, hd 0 b <> 0 -> significant b = b) by (intros [|[|p] b]; cbn; [contradiction|contradiction|reflexivity]).
  assert (RV : forall v, cr_verify cr 7 (oc_ca_pk c) tbs (r ++ s) = Some v ->
     retrieve_cred cr pf sd [c] (Some (rfc_id_cred (X5chain cert))) cap =
     if v then Ok (if sd then {| f_cred := cbor (CBytes cert); f_pk := []; f_g := key |}
         else {| f_cred := cbor (CBytes cert); f_pk := key; f_g := [] |}) else Err certificate_authentication_failed).
  { intros v HV.
    unfold retrieve_cred. rewrite <- (app_nil_r (rfc_id_cred _)), dec_cid by (cbn; lia). cbn [ext bind].
    cbn [cid_map ic_kid ic_x5u ic_x5t ic_c5u ic_c5t ic_x5chain]. unfold verify_cert2cred.
    rewrite cbor_bytes in LC |- *. rewrite (proj2 (encode_bstr_ok cert cap (enc_bstr cert))) by auto. cbn [bind].
    unfold cert_x509_verify. rewrite HM. unfold cert_x509_verify_crude.
    destruct els as [|[t0 c0] more]; [discriminate|]. inversion FE as [|? ? T0 _]; subst. cbn [fst] in T0.
    destruct ka as [|k0 kr]; [contradiction|]. destruct alg as [|g0 gr]; [contradiction|]. cbn [hd] in K0, G0.
    assert (NS : s <> []) by (intros ->; discriminate).
    pose proof (crude_v3 ((t0, c0) :: more) t0 c0 more (k0 :: kr) k0 kr key rest (g0 :: gr) g0 gr r s PK_SIZE eq_refl T0 L6 eq_refl K0 eq_refl G0
      (proj1 LK) (proj2 LK) ltac:(lia) ltac:(lia) NS LL) as PP.
    fold tbs in PP. fold cert in PP. rewrite PP, (SF r R0), (SF s S0), LR, LS. change (32 + 32 =? 64) with true. cbn [bind].
    unfold ca_pk_get. rewrite HM. cbn [negb orb]. destruct (oc_ca_pk c) as [|b0 bl]; [contradiction|].
    cbn [bind]. unfold verify. change (sign_sel ES256) with 7. rewrite HV. cbn [ext bind]. destruct v; reflexivity. }
  split; intros HV; rewrite (RV _ HV); reflexivity.
Qed.
Print Assumptions C70_crude_partial.

(** A CA's signature begins with a zero byte, in r or in s, in one of 128 cases. The
    certificate then has a shorter INTEGER, and the check reads bytes of the signature
    buffer that were never written - whatever the CA signed. *)
Theorem C70_crude_short_refuted :
  forall (cr : crypto) (pf : platform) (static_dh : bool) (c : other_party_cred) (els : list (N * bytes))
         (key_alg key rest alg r s : bytes) (cap : N),
  pf_mbedtls pf = false -> oc_ca_pk c <> [] ->
  length els = 6%nat -> Forall (fun e => fst e <> 0) els -> hd 0 key_alg <> 0 -> hd 0 alg <> 0 ->
  1 <= lenN key <= 65 -> lenN r = 32 -> lenN s = 32 -> hd 0 r = 0 \/ hd 0 s = 0 ->
  let cert := certificate (tbs_of els key_alg key rest) alg r s in
  lenN cert < 2 ^ 32 -> lenN (cbor (CBytes cert)) <= cap ->
  retrieve_cred cr pf static_dh [c] (Some (rfc_id_cred (X5chain cert))) cap = UB Uninit.
Proof.
  intros cr pf sd c els ka key rest alg r s cap HM HK L6 FE K0 G0 LK LR LS RS cert LL LC.
  assert (SH : forall b, lenN b = 32 -> hd 0 b = 0 -> lenN (significant b) < 32).
  { intros [|x b] L H; [discriminate|]. cbn [hd] in H. subst x. cbn [significant]. pose proof (significant_len b). rewrite lenN_cons in L. lia. }
  assert (SM : lenN (significant r) + lenN (significant s) < 64).
  { pose proof (significant_len r). pose proof (significant_len s). destruct RS as [R0|S0]; [specialize (SH r LR R0)|specialize (SH s LS S0)]; lia. }
  unfold retrieve_cred. rewrite <- (app_nil_r (rfc_id_cred _)), dec_cid by (cbn; lia). cbn [ext bind].
  cbn [cid_map ic_kid ic_x5u ic_x5t ic_c5u ic_c5t ic_x5chain]. unfold verify_cert2cred.
  rewrite cbor_bytes in LC. rewrite (proj2 (encode_bstr_ok cert cap (enc_bstr cert))) by auto. cbn [bind].
  unfold cert_x509_verify. rewrite HM. unfold cert_x509_verify_crude.
  destruct els as [|[t0 c0] more]; [discriminate|]. inversion FE as [|? ? T0 _]; subst. cbn [fst] in T0.
  destruct ka as [|k0 kr]; [contradiction|]. destruct alg as [|g0 gr]; [contradiction|]. cbn [hd] in K0, G0.
  assert (NS : s <> []) by (intros ->; discriminate).
  pose proof (crude_v3 ((t0, c0) :: more) t0 c0 more (k0 :: kr) k0 kr key rest (g0 :: gr) g0 gr r s PK_SIZE eq_refl T0 L6 eq_refl K0 eq_refl G0
    (proj1 LK) (proj2 LK) ltac:(lia) ltac:(lia) NS LL) as PP.
  fold cert in PP. rewrite PP. destruct (N.eqb_spec (lenN (significant r) + lenN (significant s)) 64); [lia|]. cbn [bind].
  unfold ca_pk_get. rewrite HM. cbn [negb orb]. destruct (oc_ca_pk c) as [|b0 bl]; [contradiction|]. reflexivity.
Qed.
Print Assumptions C70_crude_short_refuted.

(** The CA that the search ends at. *)
Lemma search_issued pf creds c issuer rest : pf_mbedtls pf = true -> issued_by pf creds c issuer rest ->
  ca_pk_get pf creds (issuer ++ rest) = Ok (oc_ca_pk c).
Proof.
  intros HM (before & after & xc & -> & NC & PX & PS & HB).
  assert (CS : ca_search pf (before ++ c :: after) (issuer ++ rest) = Ok (oc_ca_pk c)).
  { induction before as [|d before IH].
    - cbn [app ca_search]. destruct (oc_ca c) as [|b0 bl]; [contradiction|]. rewrite PX. cbn [ext bind]. rewrite PS.
      unfold issuer_matches. rewrite lenN_app. destruct (N.ltb_spec (lenN issuer + lenN rest) (lenN issuer)); [lia|].
      rewrite takeN_app, beqb_refl. reflexivity.
    - cbn [app ca_search]. specialize (IH (fun d' I => HB d' (or_intror I))).
      destruct (HB d (or_introl eq_refl)) as [E|(xd & s & PD & SD & LD & ND)]; [rewrite E; exact IH|].
      destruct (oc_ca d) as [|b0 bl]; [exact IH|]. rewrite PD. cbn [ext bind]. rewrite SD. unfold issuer_matches.
      destruct (N.ltb_spec (lenN (issuer ++ rest)) (lenN s)); [lia|]. cbn [bind].
      destruct (beqb s (takeN (lenN s) (issuer ++ rest))) eqn:EB; [|exact IH].
      exfalso. apply beqb_eq in EB. apply (ND (dropN (lenN s) (issuer ++ rest))).
      rewrite EB at 1. symmetry. apply takeN_dropN. }
  unfold ca_pk_get. rewrite HM. destruct (before ++ c :: after) as [|d [|d' l']] eqn:EL; [exact CS| |exact CS].
  destruct before as [|b0 [|b1 before]]; [|discriminate|discriminate]. cbn in EL. injection EL as <- ->.
  cbn [negb orb]. destruct (N.eqb_spec (lenN (oc_ca c)) 0) as [Z|_]; [apply lenN_0 in Z; contradiction|exact CS].
Qed.

(** With Mbed TLS, for any list of CAs: the certificate is checked with the key of its
    issuer, over the signed part, with the signature in it. INTEGERs are given by the
    bytes before their content and their content [z ++ r], where z is empty or a zero.
    Missing: the content must have 32 bytes behind z. *)
Theorem C70_mbedtls_partial :
  forall (cr : crypto) (pf : platform) (creds : list other_party_cred) (c : other_party_cred) (cert : bytes) (cap : N)
         (x : x509_cert) (issuer b1 z1 r b2 z2 s : bytes),
  pf_mbedtls pf = true -> lenN cert < 2 ^ 32 -> lenN (cbor (CBytes cert)) <= cap ->
  pf_x509_parse pf cert = Some x -> x_issuer_cn x = Some issuer -> x_ecdsa x = true -> x_md_len x = Some 32 ->
  issued_by pf creds c issuer (x_issuer_rest x) ->
  x_sig_ints x = [(b1, z1 ++ r); (b2, z2 ++ s)] -> lenN r = 32 -> lenN s = 32 -> lenN (subject_key x) <= 65 ->
  (cr_verify cr 7 (oc_ca_pk c) (x_tbs x) (r ++ s) = Some true ->
   retrieve_cred cr pf false creds (Some (rfc_id_cred (X5chain cert))) cap =
     Ok {| f_cred := cbor (CBytes cert); f_pk := subject_key x; f_g := [] |}) /\
  (cr_verify cr 7 (oc_ca_pk c) (x_tbs x) (r ++ s) = Some false ->
   retrieve_cred cr pf false creds (Some (rfc_id_cred (X5chain cert))) cap = Err certificate_authentication_failed).
Proof.
  intros cr pf creds c cert cap x iss b1 z1 r b2 z2 s HM LC LB HX HI HE HD IB HS L1 L2 LK.
  assert (RV : forall v, cr_verify cr 7 (oc_ca_pk c) (x_tbs x) (r ++ s) = Some v ->
     retrieve_cred cr pf false creds (Some (rfc_id_cred (X5chain cert))) cap =
     if v then Ok {| f_cred := cbor (CBytes cert); f_pk := subject_key x; f_g := [] |} else Err certificate_authentication_failed).
  { intros v HV.
    unfold retrieve_cred. rewrite <- (app_nil_r (rfc_id_cred _)), dec_cid by (cbn; lia). cbn [ext bind].
    cbn [cid_map ic_kid ic_x5u ic_x5t ic_c5u ic_c5t ic_x5chain]. unfold verify_cert2cred.
    rewrite cbor_bytes in LB |- *. rewrite (proj2 (encode_bstr_ok cert cap (enc_bstr cert))) by auto. cbn [bind].
    unfold cert_x509_verify. rewrite HM. unfold cert_x509_verify_mbedtls. rewrite HX. cbn [ext bind]. rewrite HE, HD, HI. cbn [negb].
    rewrite (search_issued pf creds c iss (x_issuer_rest x) HM IB). cbn [bind]. rewrite HS. cbn [deser_sign].
    change (lenN (@nil N) + 32 <=? SIGNATURE_SIZE) with true. cbv iota.
    rewrite (app_assoc b1), <- !lenN_app, (app_assoc b1), (lenN_app (b1 ++ z1)), L1.
    destruct (N.ltb_spec (lenN (b1 ++ z1) + 32) 32); [lia|]. rewrite N.add_sub, dropN_app, app_nil_l, L1.
    change (32 + 32 <=? SIGNATURE_SIZE) with true. cbv iota. rewrite (app_assoc b2), (lenN_app (b2 ++ z2)), L2.
    destruct (N.ltb_spec (lenN (b2 ++ z2) + 32) 32); [lia|].
    rewrite N.add_sub, dropN_app. cbn [bind]. rewrite lenN_app, L1, L2. change (32 + 32 <? SIGNATURE_SIZE) with false. cbv iota.
    unfold verify. change (sign_sel ES256) with 7. rewrite HV. cbn [ext bind]. fold (subject_key x).
    assert (CK : (if lenN (subject_key x) =? 0 then Ok tt else check_buffer_size PK_SIZE (lenN (subject_key x))) = Ok tt).
    { destruct (lenN (subject_key x) =? 0); [reflexivity|]. apply check_fits. exact LK. }
    rewrite CK. cbn [bind]. destruct v; reflexivity. }
  split; intros HV; rewrite (RV _ HV); reflexivity.
Qed.
Print Assumptions C70_mbedtls_partial.

(** When r begins with a zero byte its INTEGER has 31 bytes, and the check takes the
    length byte 31 before it for the first byte of r: a certificate with the valid
    signature (0 r', s) is accepted only if (31 r', s) is a valid signature too. *)
Theorem C70_mbedtls_short_refuted :
  forall (cr : crypto) (pf : platform) (creds : list other_party_cred) (c : other_party_cred) (cert : bytes) (cap : N)
         (x : x509_cert) (issuer b1 r b2 z2 s : bytes),
  pf_mbedtls pf = true -> lenN cert < 2 ^ 32 -> lenN (cbor (CBytes cert)) <= cap ->
  pf_x509_parse pf cert = Some x -> x_issuer_cn x = Some issuer -> x_ecdsa x = true -> x_md_len x = Some 32 ->
  issued_by pf creds c issuer (x_issuer_rest x) ->
  x_sig_ints x = [(b1 ++ [2; 31], r); (b2, z2 ++ s)] -> lenN r = 31 -> lenN s = 32 ->
  cr_verify cr 7 (oc_ca_pk c) (x_tbs x) ((0 :: r) ++ s) = Some true ->
  cr_verify cr 7 (oc_ca_pk c) (x_tbs x) ((31 :: r) ++ s) <> Some true ->
  exists e, retrieve_cred cr pf false creds (Some (rfc_id_cred (X5chain cert))) cap = Err e.
Proof.
  intros cr pf creds c cert cap x iss b1 r b2 z2 s HM LC LB HX HI HE HD IB HS L1 L2 _ HV.
  unfold retrieve_cred. rewrite <- (app_nil_r (rfc_id_cred _)), dec_cid by (cbn; lia). cbn [ext bind].
  cbn [cid_map ic_kid ic_x5u ic_x5t ic_c5u ic_c5t ic_x5chain]. unfold verify_cert2cred.
  rewrite cbor_bytes in LB. rewrite (proj2 (encode_bstr_ok cert cap (enc_bstr cert))) by auto. cbn [bind].
  unfold cert_x509_verify. rewrite HM. unfold cert_x509_verify_mbedtls. rewrite HX. cbn [ext bind]. rewrite HE, HD, HI. cbn [negb].
  rewrite (search_issued pf creds c iss (x_issuer_rest x) HM IB). cbn [bind]. rewrite HS. cbn [deser_sign].
  change (lenN (@nil N) + 32 <=? SIGNATURE_SIZE) with true. cbv iota.
  assert (E1 : (b1 ++ [2; 31]) ++ r = (b1 ++ [2]) ++ (31 :: r)) by (now rewrite <- !app_assoc).
  rewrite E1, <- lenN_app, E1, (lenN_app (b1 ++ [2])).
  assert (L3 : lenN (31 :: r) = 32) by (rewrite lenN_cons; lia). rewrite L3.
  destruct (N.ltb_spec (lenN (b1 ++ [2]) + 32) 32); [lia|]. rewrite N.add_sub, dropN_app, app_nil_l, L3.
  change (32 + 32 <=? SIGNATURE_SIZE) with true. cbv iota. rewrite <- lenN_app, (app_assoc b2), (lenN_app (b2 ++ z2)), L2.
  destruct (N.ltb_spec (lenN (b2 ++ z2) + 32) 32); [lia|].
  rewrite N.add_sub, dropN_app. cbn [bind]. rewrite lenN_app, L3, L2. change (32 + 32 <? SIGNATURE_SIZE) with false. cbv iota.
  unfold verify. change (sign_sel ES256) with 7. destruct (cr_verify cr 7 (oc_ca_pk c) (x_tbs x) ((31 :: r) ++ s)) as [[|]|];
    [contradiction| |eexists; reflexivity].
  cbn [ext bind]. unfold check_buffer_size. repeat match goal with |- context [if ?b then _ else _] => destruct b; cbn [bind] end;
    eexists; reflexivity.
Qed.
Print Assumptions C70_mbedtls_short_refuted.

(** Non-trivial instances: certificates of version 3. The signature of the CA with the
    key [k0 ...] begins with k0. *)
Definition ex_ecdsa (pk m : bytes) : bytes := hd 0 pk :: tl (map (fun b => if b =? 0 then 7 else b) (toy_sig 7 pk m)).
Definition ex_cr : crypto := {|
  cr_hmac := cr_hmac toy_crypto; cr_hash := cr_hash toy_crypto; cr_aead_enc := cr_aead_enc toy_crypto; cr_aead_dec := cr_aead_dec toy_crypto;
  cr_dh := cr_dh toy_crypto; cr_pub := cr_pub toy_crypto; cr_sign := cr_sign toy_crypto;
  cr_verify := fun _ pk m s => Some (beqb s (ex_ecdsa pk m)) |}.
Definition ex_v3 : list (N * bytes) :=
  [(160, [2; 1; 2]); (2, [1]); (48, [6; 1; 42]); (48, [49; 65]); (48, [23; 1; 9]); (48, [49; 66])].
Definition ex_tbs (n : N) : bytes := tbs_of ex_v3 [6; 1; 42] (repeat n 65) [163; 2; 48; 0].
Definition ex_cert (ca n : N) : bytes :=
  let g := ex_ecdsa [ca; 9] (ex_tbs n) in certificate (ex_tbs n) [6; 1; 42] (takeN 32 g) (dropN 32 g).
Definition ex_parse (b : bytes) : option x509_cert :=
  let g ca := ex_ecdsa [ca; 9] (ex_tbs 66) in
  let x iss sub ints := Some {| x_issuer_cn := Some iss; x_issuer_rest := [48; 30]; x_subject_cn := Some sub; x_ecdsa := true; x_md_len := Some 32;
    x_tbs := ex_tbs 66; x_sig_ints := ints; x_pk_bits := Some (0 :: repeat 66 65) |} in
  match b with
  | [1] => x [65] [65] []
  | [2] => x [66] [66] []
  | [3] => x [66] [67] [([2; 33], 0 :: takeN 32 (g 200)); ([2; 32], dropN 32 (g 200))]
  | [4] => x [65] [67] [([2; 31], takeN 31 (dropN 1 (g 0))); ([2; 32], dropN 32 (g 0))]
  | _ => None
  end.
Example C70_example :
  let ca k n := {| oc_id_cred := []; oc_cred := []; oc_pk := []; oc_g := []; oc_ca := n; oc_ca_pk := [k; 9] |} in
  let crude k cert := retrieve_cred ex_cr {| pf_mbedtls := false; pf_x509_parse := fun _ => None |} false [ca k []]
     (Some (rfc_id_cred (X5chain cert))) 400 in
  let mbed n := retrieve_cred ex_cr {| pf_mbedtls := true; pf_x509_parse := ex_parse |} false [ca 0 [1]; ca 200 [2]]
     (Some (rfc_id_cred (X5chain [n]))) 400 in
  crude 200 (ex_cert 200 66) = Ok {| f_cred := 88 :: 189 :: ex_cert 200 66; f_pk := repeat 66 65; f_g := [] |} /\
  crude 201 (ex_cert 200 66) = Err certificate_authentication_failed /\
  crude 0 (ex_cert 0 66) = UB Uninit /\
  mbed 3 = Ok {| f_cred := [0x41; 3]; f_pk := repeat 66 65; f_g := [] |} /\
  mbed 4 = Err certificate_authentication_failed.
Proof. vm_compute. repeat split. Qed.
