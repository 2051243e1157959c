(** C65: the functions of crypto_wrapper.c in the build with TinyCrypt. *)
From Coq Require Import ZArith.
From Verif Require Import Base Proof_Base Model_Cbor Proof_Cbor Model_Crypto Model_Toy Proof_Toy Model_EdhocCfg Model_P256 Spec_P256 Proof_P256 Proof_P256Dh Prop_P256
  Model_Uecc Spec_Uecc Prop_Uecc Model_Wrapper Spec_Wrapper Proof_WrapperRef Prop_Wrapper Model_Tiny Spec_Tiny.
Local Opaque root.

Lemma config_tags t : existsb (N.eqb t) [4; 6; 8; 10; 12; 14; 16] = true -> ccm_config 13 t = true /\ t <= 16.
Proof.
  intros H. apply existsb_exists in H as (n & I & E). apply N.eqb_eq in E as ->. cbn [In] in I.
  repeat (destruct I as [<-|I]; [split; [reflexivity|lia]|]). destruct I.
Qed.
Lemma lengths_inv key nonce aad t n : ccm_lengths key nonce aad t n = true ->
  lenN key = 16 /\ lenN nonce = 13 /\ ccm_config 13 t = true /\ t <= 16 /\ lenN aad < 65280 /\ n < 65536.
Proof.
  unfold ccm_lengths. intros H. repeat (apply andb_prop in H as [H ?]).
  apply N.eqb_eq in H. repeat match goal with X : (_ =? _) = true |- _ => apply N.eqb_eq in X | X : (_ <? _) = true |- _ => apply N.ltb_lt in X end.
  match goal with X : existsb _ _ = true |- _ => apply config_tags in X as [? ?] end. repeat split; assumption.
Qed.
Lemma aes_16 k : lenN k = 16 -> aes_len k = true. Proof. intros L. unfold aes_len. rewrite L. reflexivity. Qed.
Lemma ltb_no a b : b <= a -> (a <? b) = false. Proof. intros. now apply N.ltb_ge. Qed.
Lemma leb_no a b : b < a -> (a <=? b) = false. Proof. intros. now apply N.leb_gt. Qed.
Lemma dropN_all {A} (l : list A) : dropN (lenN l) l = []. Proof. pose proof (dropN_app l []) as H. now rewrite app_nil_r in H. Qed.

(** ** The results are those of the other build *)
(** Encryption, when the caller passes an output array of the length of the input with room
    for the tag behind it (as ciphertext.c and oscore_cose.c do), and decryption *)
Theorem C65_aead : forall pr scalar, prims_ok pr scalar -> forall inp key nonce aad t,
  (forall mem, ccm_lengths key nonce aad t (lenN inp + t) = true -> lenN inp + t <= lenN mem ->
    t_encrypt pr inp key nonce aad t (lenN inp) mem =
    ext (option_map (fun c => (c ++ dropN (lenN c) mem, dropN (lenN inp) c)) (cr_aead_enc (mbed_crypto pr) key nonce aad t inp))) /\
  (forall out_len, ccm_lengths key nonce aad t (lenN inp) = true -> lenN inp <= out_len + t ->
    t_decrypt pr inp key nonce aad t out_len = ext (cr_aead_dec (mbed_crypto pr) key nonce aad t inp)).
Proof.
  intros pr scalar PO inp key nonce aad t. split.
  - intros mem L M. apply lengths_inv in L as (K & Nn & C & T & A & S). unfold t_encrypt, with_ccm.
    rewrite K, Nn, C. change (16 <? 16) with false. cbv iota. rewrite (takeN_all key) by lia.
    rewrite (leb_no aad_max) by exact A. rewrite (leb_no payload_max) by (unfold payload_max; lia). rewrite (ltb_no (lenN inp + t)) by lia. cbn [orb].
    rewrite (ltb_no (lenN mem)) by exact M. cbn [cr_aead_enc mbed_crypto]. rewrite (aes_16 key K).
    destruct (pr_ccm_enc pr key nonce aad t inp) as [c|] eqn:E; [|reflexivity]. apply (pok_ccm pr scalar PO) in E as (_ & LC & _). cbn [ext option_map bind].
    rewrite ltb_no by (rewrite lenN_app, LC; lia). do 2 f_equal.
    assert (SP : exists p q, c = p ++ q /\ lenN p = lenN inp /\ lenN q = t).
    { exists (takeN (lenN inp) c), (dropN (lenN inp) c). split; [symmetry; apply takeN_dropN|]. split; [rewrite lenN_takeN; lia|]. rewrite lenN_dropN. lia. }
    destruct SP as (p & q & -> & LP & LQ).
    rewrite <- app_assoc, <- LP, !dropN_app, <- LQ.
    apply takeN_app.
  - intros o L M. apply lengths_inv in L as (K & Nn & C & T & A & S). unfold t_decrypt, with_ccm.
    rewrite K, Nn, C. change (16 <? 16) with false. cbv iota. rewrite (takeN_all key) by lia.
    rewrite (leb_no aad_max) by exact A. rewrite (leb_no payload_max) by exact S. cbn [orb cr_aead_dec mbed_crypto]. rewrite (aes_16 key K).
    destruct (N.ltb_spec (lenN inp) t) as [Q|Q]; cbn [orb].
    + destruct (pr_ccm_dec pr key nonce aad t inp) as [p|] eqn:E; [|reflexivity]. apply (pok_ccm_dec pr scalar PO) in E as [E _]. lia.
    + rewrite ltb_no by lia. reflexivity.
Qed.
Print Assumptions C65_aead.

(** These are the lengths of every AEAD algorithm that a suite can select. *)
Theorem C65_suites : forall a key nonce aad n, lenN key = get_aead_key_len a -> lenN nonce = get_aead_iv_len a -> lenN aad < 65280 -> n < 65536 ->
  ccm_lengths key nonce aad (get_aead_mac_len a) n = true.
Proof.
  intros a key nonce aad n K Nn A L. unfold ccm_lengths. rewrite K, Nn. apply N.ltb_lt in A, L. rewrite A, L. destruct a; reflexivity.
Qed.
Print Assumptions C65_suites.

(** Signatures. A signature that is not valid is an error, never the result false. *)
Lemma verify_point pr scalar ty (TO : tiny_ok pr scalar ty) b x y m s : on_p256 x y -> lenN s = 64 ->
  t_verify pr ty b ES256 (sec1 x y) m s = if pr_ec_verify pr (sec1 x y) m s then Ok true else Err unexpected_result_from_ext_lib.
Proof.
  intros O L. unfold t_verify. rewrite sec1_len. change ((65 =? 65) && (nth 0 (sec1 x y) 0 =? 4)) with true. cbv iota.
  change (dropN 1 (sec1 x y)) with (be_enc 32 (Z.to_N x) ++ be_enc 32 (Z.to_N y)). 
  assert (LK : lenN (be_enc 32 (Z.to_N x) ++ be_enc 32 (Z.to_N y)) = 64).
  { rewrite lenN_app. assert (B : forall v, lenN (be_enc 32 v) = 32) by (intros; apply be_enc_lenN). now rewrite !B. }
  rewrite LK, L. change (64 <? 64) with false. cbn [orb]. rewrite (takeN_all _ 64) by lia. rewrite (takeN_all s 64) by lia.
  now rewrite (tok_verify pr scalar ty TO x y m s O L).
Qed.
Theorem C65_verify : forall pr scalar ty, prims_ok pr scalar -> tiny_ok pr scalar ty -> forall b x y m s, on_p256 x y -> lenN s = 64 ->
  t_verify pr ty b ES256 (sec1 x y) m s =
  match cr_verify (mbed_crypto pr) (sign_sel ES256) (sec1 x y) m s with Some true => Ok true | _ => Err unexpected_result_from_ext_lib end.
Proof.
  intros pr scalar ty PO TO b x y m s O L. rewrite (verify_point pr scalar ty TO) by assumption.
  cbn [cr_verify mbed_crypto sign_sel]. change (7 =? 7) with true. cbv iota. unfold ec_pk. rewrite sec1_len, (pok_ec_pk pr scalar PO x y O). change ((65 =? 65) && true) with true. cbv iota.
  now destruct (pr_ec_verify pr (sec1 x y) m s).
Qed.
Print Assumptions C65_verify.

(** Either build accepts what the other has signed. *)
Theorem C65_signatures : forall pr scalar ty, prims_ok pr scalar -> tiny_ok pr scalar ty -> forall sk m, ec_sk pr sk = true ->
  let pk := pr_ec_pub pr sk in
  (forall b pk' s, t_sign pr ty b ES256 sk pk' m = Ok s ->
    lenN s = 64 /\ cr_verify (mbed_crypto pr) (sign_sel ES256) pk m s = Some true /\ forall b', t_verify pr ty b' ES256 pk m s = Ok true) /\
  (forall pk' s, cr_sign (mbed_crypto pr) (sign_sel ES256) sk pk' m = Some s -> forall b', t_verify pr ty b' ES256 pk m s = Ok true).
Proof.
  intros pr scalar ty PO TO sk m SK pk. destruct (pok_ec_pub pr scalar PO sk SK) as (x & y & O & E). fold pk in E.
  assert (LS : lenN sk = 32) by (unfold ec_sk in SK; apply andb_prop in SK as [L _]; now apply N.eqb_eq in L).
  assert (V : forall s, lenN s = 64 -> pr_ec_verify pr pk m s = true -> forall b', t_verify pr ty b' ES256 pk m s = Ok true).
  { intros s L V b'. rewrite E in V |- *. rewrite (verify_point pr scalar ty TO) by assumption. now rewrite V. }
  split.
  - intros b pk' s. unfold t_sign. rewrite LS. change (32 <? 32) with false. cbv iota. rewrite (takeN_all sk) by lia.
    destruct (ty_sign ty sk (pr_hash pr m)) as [s'|] eqn:ES; [|discriminate]. cbn [ext]. intros H. injection H as <-.
    apply (tok_sign pr scalar ty TO) in ES as (L & _ & VS). specialize (VS SK). fold pk in VS. split; [exact L|]. split; [|now apply V].
    cbn [cr_verify mbed_crypto sign_sel]. change (7 =? 7) with true. cbv iota. unfold ec_pk. rewrite VS, E, sec1_len, (pok_ec_pk pr scalar PO x y O). reflexivity.
  - intros pk' s. cbn [cr_sign mbed_crypto sign_sel]. change (7 =? 7) with true. cbv iota. rewrite SK. intros H. apply (pok_ec_sign pr scalar PO) in H as (L & _ & VS). apply V; [exact L|now apply VS].
Qed.
Print Assumptions C65_signatures.

(** Key agreement with the public key of anyone *)
Lemma tiny_dh pr scalar ty (PO : prims_ok pr scalar) (TO : tiny_ok pr scalar ty) sk x y : ec_sk pr sk = true -> on_p256 x y ->
  ty_mul ty (decompress (be_enc 32 (Z.to_N x))) sk = pr_ec_agree pr sk (sec1 x y).
Proof.
  intros SK O. assert (HB : is_bytes (be_enc 32 (Z.to_N x))) by apply be_enc_bytes. assert (HL : lenN (be_enc 32 (Z.to_N x)) = 32) by apply be_enc_lenN.
  pose proof (x_val x (proj1 O)) as XV.
  assert (LS : lenN sk = 32) by (unfold ec_sk in SK; apply andb_prop in SK as [L _]; now apply N.eqb_eq in L).
  pose proof (C59_secret scalar (ty_mul ty) sk (be_enc 32 (Z.to_N x)) y (tok_mul pr scalar ty TO) HB HL ltac:(lia)) as D. rewrite XV in D. specialize (D O).
  unfold tc_p256_derive in D. rewrite HL, LS in D. change ((32 <? 32) || (32 <? 32)) with false in D. cbv iota in D. rewrite (pok_ec_agree pr scalar PO sk x y O).
  destruct (ty_mul ty _ sk), (secret_of (scalar sk) x y); cbn [ext] in D; congruence.
Qed.
Theorem C65_agreement : forall pr scalar ty, prims_ok pr scalar -> tiny_ok pr scalar ty -> forall b sk pk,
  (forall y, ec_sk pr sk = true -> is_bytes pk -> lenN pk = 32 -> on_p256 (Z.of_N (be_val pk)) y ->
    t_derive pr ty b P256 sk pk = ext (cr_dh (mbed_crypto pr) (ecdh_id P256) sk pk)) /\
  (forall sx px, lenN sk = 32 -> lenN pk = 32 -> t_derive pr ty true X25519 (sk ++ sx) (pk ++ px) = ext (cr_dh (mbed_crypto pr) (ecdh_id X25519) sk pk)).
Proof.
  intros pr scalar ty PO TO b sk pk. split.
  - intros y SK HB HL O. assert (LS : lenN sk = 32) by (unfold ec_sk in SK; apply andb_prop in SK as [L _]; now apply N.eqb_eq in L).
    assert (BE : be_enc 32 (Z.to_N (Z.of_N (be_val pk))) = pk) by (rewrite N2Z.id; now apply be32).
    pose proof (tiny_dh pr scalar ty PO TO sk _ y SK O) as D. pose proof (dh_valid pr scalar PO sk _ y SK O) as D2. rewrite BE in D, D2.
    unfold t_derive, tc_p256_derive. rewrite !takeN_all, HL, LS by lia. change ((32 <? 32) || (32 <? 32)) with false. cbv iota. rewrite D, <- D2. reflexivity.
  - intros sx px LS LP. unfold t_derive. rewrite !lenN_app, !ltb_no by lia. cbn [orb]. rewrite <- LS at 1. rewrite takeN_app. rewrite <- LP at 1. rewrite takeN_app. reflexivity.
Qed.
Print Assumptions C65_agreement.

(** Ephemeral keys: the public key belongs to the private key, and a device with the other
    library (or with the same) gets the same secret. *)
Theorem C65_keygen_partial : forall pr scalar ty, prims_ok pr scalar -> tiny_ok pr scalar ty ->
  (forall d, ec_sk pr d = true -> forall b seed sk_len pk_len, 32 <= sk_len -> 32 <= pk_len ->
    exists pk, t_keygen pr ty b (Some d) P256 seed sk_len pk_len = Ok (d, pk, (sk_len, 32)) /\ lenN pk = 32 /\ pk = cr_pub (mbed_crypto pr) (ecdh_id P256) d /\
    forall d2, ec_sk pr d2 = true -> forall b2,
      t_derive pr ty b2 P256 d (cr_pub (mbed_crypto pr) (ecdh_id P256) d2) = ext (cr_dh (mbed_crypto pr) (ecdh_id P256) d2 pk) /\
      t_derive pr ty b2 P256 d (cr_pub (mbed_crypto pr) (ecdh_id P256) d2) = t_derive pr ty b2 P256 d2 pk) /\
  (forall drawn seed sk_len pk_len, 32 <= sk_len -> 32 <= pk_len ->
    exists sk, t_keygen pr ty true drawn X25519 seed sk_len pk_len = Ok (sk, cr_pub (mbed_crypto pr) (ecdh_id X25519) sk, (32, 32))).
Proof.
  intros pr scalar ty PO TO. split.
  - intros d SK b seed sl pl HS HP. destruct (pok_ec_pub pr scalar PO d SK) as (x & y & O & E). pose proof (tok_pub pr scalar ty TO d SK) as TP.
    assert (PE : forall z, ec_sk pr z = true -> cr_pub (mbed_crypto pr) (ecdh_id P256) z = takeN 32 (dropN 1 (pr_ec_pub pr z))).
    { intros z SZ. cbn [cr_pub mbed_crypto ecdh_id]. change (1 =? 1) with true. cbv iota. now rewrite SZ. }
    assert (PX : takeN 32 (ty_pub ty d) = be_enc 32 (Z.to_N x)).
    { rewrite <- (sec1_x x y), <- E, TP. reflexivity. }
    exists (be_enc 32 (Z.to_N x)). split; [unfold t_keygen; rewrite (ltb_no pl), (ltb_no sl), <- PX by assumption; reflexivity|].
    split; [apply be_enc_lenN|]. split; [rewrite PE by exact SK; now rewrite E, sec1_x|].
    intros d2 S2 b2. destruct (pok_ec_pub pr scalar PO d2 S2) as (x2 & y2 & O2 & E2). rewrite PE by exact S2. rewrite E2, sec1_x.
    assert (A1 : t_derive pr ty b2 P256 d (be_enc 32 (Z.to_N x2)) = ext (pr_ec_agree pr d (sec1 x2 y2))).
    { rewrite <- (dh_valid pr scalar PO d x2 y2 SK O2). apply (proj1 (C65_agreement pr scalar ty PO TO b2 d (be_enc 32 (Z.to_N x2))) y2); [exact SK|apply be_enc_bytes|apply be_enc_lenN|].
      rewrite x_val by apply O2. exact O2. }
    assert (A2 : t_derive pr ty b2 P256 d2 (be_enc 32 (Z.to_N x)) = ext (pr_ec_agree pr d2 (sec1 x y))).
    { rewrite <- (dh_valid pr scalar PO d2 x y S2 O). apply (proj1 (C65_agreement pr scalar ty PO TO b2 d2 (be_enc 32 (Z.to_N x))) y); [exact S2|apply be_enc_bytes|apply be_enc_lenN|].
      rewrite x_val by apply O. exact O. }
    rewrite A1, A2. change (ecdh_id P256) with 1. rewrite (dh_valid pr scalar PO d2 x y S2 O), <- E, <- E2, (pok_ec_comm pr scalar PO d d2 SK S2). split; reflexivity.
  - intros drawn seed sl pl HS HP. eexists. unfold t_keygen. cbn [negb]. rewrite (ltb_no sl), (ltb_no pl) by assumption. cbn [orb]. reflexivity.
Qed.
Print Assumptions C65_keygen_partial.

Theorem C65_hash : forall pr msg cap, 32 <= cap -> t_hash pr msg cap = Ok (cr_hash (mbed_crypto pr) msg).
Proof. intros pr msg cap L. unfold t_hash. now rewrite ltb_no. Qed.
Print Assumptions C65_hash.

(** The operations of this build meet the assumptions of all the theorems about OSCORE and
    EDHOC, so these hold for it as well. *)
Theorem C65_assumptions : forall pr scalar ty, prims_ok pr scalar -> tiny_ok pr scalar ty -> crypto_ok (tiny_crypto pr ty).
Proof.
  intros pr scalar ty PO TO. pose proof (mbed_ok pr scalar PO) as MO. constructor.
  - apply (pok_hmac_len pr scalar PO).
  - apply (pok_hash_len pr scalar PO).
  - intros k n a t p c. cbn [cr_aead_enc cr_aead_dec tiny_crypto]. destruct (ccm_lengths k n a t (lenN p + t)) eqn:CL; [|discriminate]. intros H.
    apply (pok_ccm pr scalar PO) in H as (D & L & _). now rewrite L, CL.
  - intros k n a t p c. cbn [cr_aead_enc tiny_crypto]. destruct (ccm_lengths _ _ _ _ _); [|discriminate]. intros H. now apply (pok_ccm pr scalar PO) in H.
  - intros k n a t p c. cbn [cr_aead_dec tiny_crypto]. destruct (ccm_lengths _ _ _ _ _); [|discriminate]. intros H. now apply (pok_ccm_dec pr scalar PO) in H.
  - intros g a b. destruct (N.eqb_spec g 1) as [-> |N1].
    + assert (PE : forall z, cr_pub (tiny_crypto pr ty) 1 z = if ec_sk pr z then takeN 32 (dropN 1 (pr_ec_pub pr z)) else []) by reflexivity. rewrite !PE.
      assert (DN : forall z, cr_dh (tiny_crypto pr ty) 1 z [] = None) by (intros z; cbn [cr_dh tiny_crypto N.eqb Pos.eqb]; change (lenN (@nil N) =? 32) with false; now rewrite andb_false_r).
      assert (DI : forall z p, ec_sk pr z = false -> cr_dh (tiny_crypto pr ty) 1 z p = None) by (intros z p E; cbn [cr_dh tiny_crypto N.eqb Pos.eqb]; now rewrite E).
      assert (DV : forall z x y, ec_sk pr z = true -> on_p256 x y -> cr_dh (tiny_crypto pr ty) 1 z (be_enc 32 (Z.to_N x)) = pr_ec_agree pr z (sec1 x y)).
      { intros z x y SZ O. rewrite <- (tiny_dh pr scalar ty PO TO z x y SZ O). cbn [cr_dh tiny_crypto N.eqb Pos.eqb]. assert (HL : lenN (be_enc 32 (Z.to_N x)) = 32) by apply be_enc_lenN. now rewrite SZ, HL. }
      destruct (ec_sk pr a) eqn:SA, (ec_sk pr b) eqn:SB.
      * destruct (pok_ec_pub pr scalar PO a SA) as (xa & ya & OA & EA). destruct (pok_ec_pub pr scalar PO b SB) as (xb & yb & OB & EB).
        rewrite EA, EB, !sec1_x, (DV a xb yb SA OB), (DV b xa ya SB OA), <- EA, <- EB. apply (pok_ec_comm pr scalar PO); assumption.
      * rewrite DN. symmetry. now apply DI.
      * rewrite DN. now apply DI.
      * now rewrite !DN.
    + cbn [cr_dh cr_pub tiny_crypto mbed_crypto]. destruct (N.eqb_spec g 1); [contradiction|]. destruct (g =? 4); [|reflexivity]. f_equal. apply (pok_x_comm pr scalar PO).
  - intros g sk m s. cbn [cr_sign cr_verify cr_pub tiny_crypto mbed_crypto]. destruct (N.eqb_spec g 7) as [-> |N7].
    + change (7 =? 1) with false. change (7 =? 4) with false. cbv iota. destruct (ec_sk pr sk) eqn:SK; [|discriminate]. intros H.
      apply (tok_sign pr scalar ty TO) in H as (L & _ & V). specialize (V SK). destruct (pok_ec_pub pr scalar PO sk SK) as (x & y & O & E). rewrite E in V |- *.
      change (dropN 1 (sec1 x y)) with (be_enc 32 (Z.to_N x) ++ be_enc 32 (Z.to_N y)). rewrite (tok_verify pr scalar ty TO x y m s O L), V, sec1_len, L. reflexivity.
    + destruct (N.eqb_spec g 8) as [-> |]; [|discriminate]. change (8 =? 1) with false. change (8 =? 4) with false. cbv iota. intros H. injection H as <-. f_equal. apply (pok_ed_verify pr scalar PO).
  - intros k n a t p c. cbn [cr_aead_enc tiny_crypto]. destruct (ccm_lengths _ _ _ _ _); [|discriminate]. intros H. now apply (pok_ccm pr scalar PO) in H.
  - apply (pok_hmac_bytes pr scalar PO).
  - apply (pok_hash_bytes pr scalar PO).
  - intros k n a t p c. cbn [cr_aead_dec tiny_crypto]. destruct (ccm_lengths _ _ _ _ _); [|discriminate]. intros H. now apply (pok_ccm_dec pr scalar PO) in H.
  - intros g sk pk m s. cbn [cr_sign tiny_crypto]. destruct (g =? 7); [destruct (ec_sk pr sk); [|discriminate]; intros H; now apply (tok_sign pr scalar ty TO) in H|].
    destruct (g =? 8); [|discriminate]. intros H. injection H as <-. apply (pok_ed_sign pr scalar PO).
  - intros g sk pk m s. cbn [cr_sign tiny_crypto]. destruct (g =? 7); [destruct (ec_sk pr sk); [|discriminate]; intros H; now apply (tok_sign pr scalar ty TO) in H|].
    destruct (g =? 8); [|discriminate]. intros H. injection H as <-. apply (pok_ed_sign pr scalar PO).
  - intros g a b s. cbn [cr_dh tiny_crypto]. destruct (g =? 1).
    + destruct (ec_sk pr a && (lenN b =? 32)); [|discriminate]. intros H. now apply (tok_mul_len pr scalar ty TO) in H.
    + destruct (g =? 4); [|discriminate]. intros H. injection H as <-. apply (pok_x_len pr scalar PO).
  - intros g a b s. cbn [cr_dh tiny_crypto]. destruct (g =? 1).
    + destruct (ec_sk pr a && (lenN b =? 32)); [|discriminate]. intros H. now apply (tok_mul_len pr scalar ty TO) in H.
    + destruct (g =? 4); [|discriminate]. intros H. injection H as <-. apply (pok_x_len pr scalar PO).
Qed.
Print Assumptions C65_assumptions.

(** ... and the functions compute these operations. *)
Theorem C65_operations : forall pr scalar ty, prims_ok pr scalar -> tiny_ok pr scalar ty ->
  (forall inp key nonce aad t mem, ccm_lengths key nonce aad t (lenN inp + t) = true -> lenN inp + t <= lenN mem ->
    t_encrypt pr inp key nonce aad t (lenN inp) mem =
    ext (option_map (fun c => (c ++ dropN (lenN c) mem, dropN (lenN inp) c)) (cr_aead_enc (tiny_crypto pr ty) key nonce aad t inp))) /\
  (forall inp key nonce aad t out_len, ccm_lengths key nonce aad t (lenN inp) = true -> lenN inp <= out_len + t ->
    t_decrypt pr inp key nonce aad t out_len = ext (cr_aead_dec (tiny_crypto pr ty) key nonce aad t inp)) /\
  (forall alg sk pk m, (alg = ES256 -> ec_sk pr sk = true) -> t_sign pr ty true alg sk pk m = ext (cr_sign (tiny_crypto pr ty) (sign_sel alg) sk pk m)) /\
  (forall alg pk m s, (alg = ES256 -> lenN pk = 65 /\ nth 0 pk 0 = 4 /\ lenN s = 64) ->
    t_verify pr ty true alg pk m s = ext (cr_verify (tiny_crypto pr ty) (sign_sel alg) pk m s)) /\
  (forall alg sk pk, lenN pk = 32 -> match alg with P256 => ec_sk pr sk = true | X25519 => lenN sk = 32 end ->
    t_derive pr ty true alg sk pk = ext (cr_dh (tiny_crypto pr ty) (ecdh_id alg) sk pk)) /\
  (forall msg cap, 32 <= cap -> t_hash pr msg cap = Ok (cr_hash (tiny_crypto pr ty) msg)).
Proof.
  intros pr scalar ty PO TO. assert (LK : forall sk, ec_sk pr sk = true -> lenN sk = 32) by (intros sk SK; unfold ec_sk in SK; apply andb_prop in SK as [L _]; now apply N.eqb_eq in L).
  split; [|split; [|split; [|split; [|split]]]].
  - intros inp key nonce aad t mem CL M. rewrite (proj1 (C65_aead pr scalar PO inp key nonce aad t) mem CL M). cbn [cr_aead_enc mbed_crypto tiny_crypto].
    rewrite CL. now rewrite (aes_16 key) by (now apply lengths_inv in CL).
  - intros inp key nonce aad t o CL M. rewrite (proj2 (C65_aead pr scalar PO inp key nonce aad t) o CL M). cbn [cr_aead_dec mbed_crypto tiny_crypto].
    rewrite CL. now rewrite (aes_16 key) by (now apply lengths_inv in CL).
  - intros [|] sk pk m H; [|reflexivity]. specialize (H eq_refl). unfold t_sign. rewrite (LK sk H). change (32 <? 32) with false. cbv iota. rewrite takeN_all by (rewrite LK by exact H; lia).
    cbn [cr_sign tiny_crypto sign_sel]. change (7 =? 7) with true. cbv iota. now rewrite H.
  - intros [|] pk m s H; [|reflexivity]. destruct (H eq_refl) as (LP & H0 & LS). unfold t_verify. cbn [cr_verify tiny_crypto sign_sel]. change (7 =? 7) with true. cbv iota.
    rewrite LP, H0, LS. change ((65 =? 65) && (4 =? 4)) with true. cbv iota. assert (LD : lenN (dropN 1 pk) = 64) by (rewrite lenN_dropN; lia). rewrite LD.
    change ((64 <? 64) || (64 <? 64)) with false. cbv iota. rewrite (takeN_all (dropN 1 pk)), (takeN_all s) by lia. change (true && (64 =? 64)) with true. cbn [andb].
    now destruct (ty_verify ty (dropN 1 pk) (pr_hash pr m) s).
  - intros [|] sk pk LP H; unfold t_derive; cbn [cr_dh tiny_crypto ecdh_id].
    + change (1 =? 1) with true. cbv iota. rewrite H, LP. change (true && (32 =? 32)) with true. cbv iota. unfold tc_p256_derive.
      pose proof (LK sk H) as LS. rewrite !takeN_all, LP, LS by lia. reflexivity.
    + change (4 =? 1) with false. change (4 =? 4) with true. cbv iota. rewrite H, LP. change ((32 <? 32) || (32 <? 32)) with false. cbv iota. now rewrite !takeN_all by lia.
  - intros msg cap L. unfold t_hash. now rewrite ltb_no.
Qed.
Print Assumptions C65_operations.

(** ** What is different *)
(** X25519: all of the key pair is determined by the 32 bits of the seed, so there are at
    most 2^32 private keys. (The other build does not even use the seed: C62.) *)
Theorem C65_seed_refuted : forall pr ty drawn seed sk_len pk_len r, t_keygen pr ty true drawn X25519 seed sk_len pk_len = Ok r ->
  exists n, n < 2 ^ 32 /\ fst (fst r) = pr_x_clamp pr (pr_hash pr (rev (be_enc 4 n))) /\
    forall drawn' seed' sl pl r', u32 seed' = n -> t_keygen pr ty true drawn' X25519 seed' sl pl = Ok r' -> r' = r.
Proof.
  intros pr ty drawn seed sl pl r. unfold t_keygen. cbn [negb]. destruct ((sl <? 32) || (pl <? 32)); [discriminate|]. intros H. injection H as <-.
  exists (u32 seed). split; [apply N.mod_lt; discriminate|]. split; [reflexivity|]. intros d' seed' sl' pl' r' E.
  destruct ((sl' <? 32) || (pl' <? 32)); [discriminate|]. intros H. injection H as <-. now rewrite E.
Qed.
Print Assumptions C65_seed_refuted.

(** Nonces, tags, associated data and payloads of lengths that the library is not made
    for are refused, and so are output arrays that are too short; a key may not be
    shorter than 16 bytes (C65_short_refuted). *)
Theorem C65_refused : forall pr inp key nonce aad t o mem, 16 <= lenN key ->
  (lenN nonce <> 13 \/ ~ In t [4; 6; 8; 10; 12; 14; 16] \/ 65280 <= lenN aad \/ 65536 <= lenN inp ->
   t_encrypt pr inp key nonce aad t o mem = Err unexpected_result_from_ext_lib /\
   t_decrypt pr inp key nonce aad t o = Err unexpected_result_from_ext_lib) /\
  (o < lenN inp -> t_encrypt pr inp key nonce aad t o mem = Err unexpected_result_from_ext_lib) /\
  (lenN inp < t \/ o + t < lenN inp -> t_decrypt pr inp key nonce aad t o = Err unexpected_result_from_ext_lib).
Proof.
  intros pr inp key nonce aad t o mem L. unfold t_encrypt, t_decrypt, with_ccm. rewrite !(ltb_no (lenN key)) by exact L.
  destruct (ccm_config (lenN nonce) t) eqn:C; [|repeat split]. unfold ccm_config in C.
  apply andb_prop in C as [C EV]. apply andb_prop in C as [C T2]. apply andb_prop in C as [C T1]. apply N.eqb_eq in C. apply N.leb_le in T1, T2.
  split; [|split].
  - intros [H|[H|[H|H]]].
    + contradiction.
    + exfalso. apply H. apply N.even_spec in EV as (h & ->). assert (2 <= h <= 8) as [H1 H2] by lia.
      assert (IN : In h [2; 3; 4; 5; 6; 7; 8]) by (cbn [In]; lia). cbn [In] in IN |- *. lia.
    + apply N.leb_le in H. change 65280 with aad_max in H. rewrite H. split; reflexivity.
    + apply N.leb_le in H. change 65536 with payload_max in H. rewrite H, !orb_true_r. split; reflexivity.
  - intros H. assert (Q : (o + t <? lenN inp + t) = true) by (apply N.ltb_lt; lia). now rewrite Q, orb_true_r.
  - intros [H|H].
    + apply N.ltb_lt in H. now rewrite H, orb_true_r.
    + assert (Q : (o <? lenN inp - t) = true) by (apply N.ltb_lt; lia). now rewrite Q, !orb_true_r.
Qed.
Print Assumptions C65_refused.

(** Lengths that are not looked at. Too short arguments are read beyond their end, and the
    array for a private key is written beyond its end. *)
Theorem C65_short_refuted : forall pr ty b,
  (forall inp key nonce aad t o mem, lenN key < 16 -> t_encrypt pr inp key nonce aad t o mem = UB OobRead /\ t_decrypt pr inp key nonce aad t o = UB OobRead) /\
  (forall sk pk m, lenN sk < 32 -> t_sign pr ty b ES256 sk pk m = UB OobRead) /\
  (forall pk m s, lenN pk < 64 \/ lenN s < 64 -> t_verify pr ty b ES256 pk m s = UB OobRead) /\
  (forall sk pk, lenN sk < 32 \/ lenN pk < 32 -> t_derive pr ty b P256 sk pk = UB OobRead /\ t_derive pr ty true X25519 sk pk = UB OobRead) /\
  (forall d seed sk_len pk_len, sk_len < 32 -> 32 <= pk_len -> t_keygen pr ty b d P256 seed sk_len pk_len = UB OobWrite).
Proof.
  intros pr ty b. split; [|split; [|split; [|split]]].
  - intros inp key nonce aad t o mem L. apply N.ltb_lt in L. unfold t_encrypt, t_decrypt, with_ccm. now rewrite L.
  - intros sk pk m L. apply N.ltb_lt in L. unfold t_sign. now rewrite L.
  - intros pk m s L. unfold t_verify. destruct ((lenN pk =? 65) && (nth 0 pk 0 =? 4)) eqn:E.
    + apply andb_prop in E as [E _]. apply N.eqb_eq in E. destruct L as [L|L]; [lia|]. apply N.ltb_lt in L. now rewrite L, orb_true_r.
    + destruct L as [L|L]; apply N.ltb_lt in L; rewrite L; [reflexivity|now rewrite orb_true_r].
  - intros sk pk L. split; [|unfold t_derive; destruct L as [L|L]; apply N.ltb_lt in L; rewrite L; [reflexivity|now rewrite orb_true_r]].
    unfold t_derive, tc_p256_derive. destruct L as [L|L]; [rewrite (takeN_all sk) by lia|rewrite (takeN_all pk) by lia]; apply N.ltb_lt in L; rewrite L; [now rewrite orb_true_r|reflexivity].
  - intros d seed sl pl LS LP. unfold t_keygen. rewrite (ltb_no pl) by exact LP. apply N.ltb_lt in LS. now rewrite LS.
Qed.
Print Assumptions C65_short_refuted.

(** Bytes after the ones that are read make no difference: to a longer key and to a signature
    with anything appended. A key given as x and y without the byte 4 is accepted. The other
    build refuses all of these. *)
Theorem C65_longer_refuted : forall pr scalar ty, prims_ok pr scalar -> tiny_ok pr scalar ty -> forall b rest, rest <> [] ->
  (forall inp key nonce aad t o, lenN key = 16 -> t_decrypt pr inp (key ++ rest) nonce aad t o = t_decrypt pr inp key nonce aad t o) /\
  (forall sk pk m, lenN sk = 32 -> t_sign pr ty b ES256 (sk ++ rest) pk m = t_sign pr ty b ES256 sk pk m /\
    cr_sign (mbed_crypto pr) (sign_sel ES256) (sk ++ rest) pk m = None) /\
  (forall pk m s, lenN s = 64 -> t_verify pr ty b ES256 pk m (s ++ rest) = t_verify pr ty b ES256 pk m s) /\
  (forall x y m s, on_p256 x y -> t_verify pr ty b ES256 (be_enc 32 (Z.to_N x) ++ be_enc 32 (Z.to_N y)) m s = t_verify pr ty b ES256 (sec1 x y) m s /\
    cr_verify (mbed_crypto pr) (sign_sel ES256) (be_enc 32 (Z.to_N x) ++ be_enc 32 (Z.to_N y)) m s = None).
Proof.
  intros pr scalar ty PO TO b rest R0. assert (LR : 0 < lenN rest) by (destruct rest; [congruence|rewrite lenN_cons; lia]).
  assert (TK : forall (l : bytes) n, lenN l = n -> takeN n (l ++ rest) = l) by (intros l n <-; apply takeN_app).
  split; [|split; [|split]].
  - intros inp key nonce aad t o L. unfold t_decrypt, with_ccm. rewrite lenN_app, L, (TK key 16 L), (takeN_all key) by lia. rewrite ltb_no by lia. reflexivity.
  - intros sk pk m L. unfold t_sign. rewrite lenN_app, L, (TK sk 32 L), (takeN_all sk) by lia. rewrite ltb_no by lia. split; [reflexivity|].
    cbn [cr_sign mbed_crypto sign_sel]. change (7 =? 7) with true. cbv iota. unfold ec_sk. rewrite lenN_app, L. destruct (N.eqb_spec (32 + lenN rest) 32); [lia|reflexivity].
  - intros pk m s L. unfold t_verify. rewrite lenN_app, L, (TK s 64 L), (takeN_all s) by lia. rewrite (ltb_no (64 + lenN rest)) by lia. reflexivity.
  - intros x y m s O. assert (LK : lenN (be_enc 32 (Z.to_N x) ++ be_enc 32 (Z.to_N y)) = 64).
    { rewrite lenN_app. assert (B : forall v, lenN (be_enc 32 v) = 32) by (intros; apply be_enc_lenN). now rewrite !B. }
    split.
    + unfold t_verify. rewrite LK, sec1_len. change ((65 =? 65) && (nth 0 (sec1 x y) 0 =? 4)) with true. change (64 =? 65) with false. cbn [andb]. cbv iota.
      change (dropN 1 (sec1 x y)) with (be_enc 32 (Z.to_N x) ++ be_enc 32 (Z.to_N y)). now rewrite LK.
    + cbn [cr_verify mbed_crypto sign_sel]. change (7 =? 7) with true. cbv iota. unfold ec_pk. now rewrite LK.
Qed.
Print Assumptions C65_longer_refuted.

(** A tag of the caller is taken from the place that the length of the output array says: if
    that is not the length of the input, the call succeeds with bytes that are not the tag
    (here: that were in the memory before). With the other build it is the tag (C61). *)
Theorem C65_tag_refuted : forall pr scalar, prims_ok pr scalar -> forall inp key nonce aad t mem o c, ccm_lengths key nonce aad t (lenN inp + t) = true ->
  pr_ccm_enc pr key nonce aad t inp = Some c -> lenN inp + t <= o -> o + t <= lenN mem ->
  t_encrypt pr inp key nonce aad t o mem = Ok (c ++ dropN (lenN c) mem, takeN t (dropN o mem)).
Proof.
  intros pr scalar PO inp key nonce aad t mem o c L E O M. apply lengths_inv in L as (K & Nn & C & T & A & S). unfold t_encrypt, with_ccm.
  rewrite K, Nn, C. change (16 <? 16) with false. cbv iota. rewrite (takeN_all key) by lia.
  rewrite (leb_no aad_max) by exact A. rewrite (leb_no payload_max) by (unfold payload_max; lia). rewrite (ltb_no (o + t)) by lia. cbn [orb].
  rewrite (ltb_no (lenN mem)) by lia. rewrite E. cbn [ext bind]. apply (pok_ccm pr scalar PO) in E as (_ & LC & _).
  assert (LD : lenN (dropN (lenN c) mem) = lenN mem - lenN c) by apply lenN_dropN.
  rewrite ltb_no by (rewrite lenN_app, LD; lia). do 2 f_equal.
  assert (SP : exists p q, mem = p ++ q /\ lenN p = lenN c) by (exists (takeN (lenN c) mem), (dropN (lenN c) mem); split; [symmetry; apply takeN_dropN|rewrite lenN_takeN; lia]).
  destruct SP as (p & q & -> & LP). rewrite <- LP at 1. rewrite dropN_app.
  replace o with (lenN c + (o - lenN c)) at 1 by lia. replace o with (lenN p + (o - lenN c)) at 2 by lia. now rewrite <- !dropN_dropN, !dropN_app.
Qed.
Print Assumptions C65_tag_refuted.

(** The limit for the length of a payload counts the tag when decrypting but not when
    encrypting: the longest plaintexts can be encrypted but not decrypted. *)
Theorem C65_limit_refuted : forall pr scalar, prims_ok pr scalar -> forall inp key nonce aad t mem c, lenN key = 16 -> lenN nonce = 13 ->
  ccm_config 13 t = true -> lenN aad < 65280 -> lenN inp < 65536 -> 65536 <= lenN inp + t -> lenN inp + t <= lenN mem ->
  pr_ccm_enc pr key nonce aad t inp = Some c ->
  (exists tag, t_encrypt pr inp key nonce aad t (lenN inp) mem = Ok (c ++ dropN (lenN c) mem, tag)) /\
  forall o, t_decrypt pr c key nonce aad t o = Err unexpected_result_from_ext_lib.
Proof.
  intros pr scalar PO inp key nonce aad t mem c K Nn C A S B M E. pose proof (pok_ccm pr scalar PO _ _ _ _ _ _ E) as (_ & LC & _). unfold t_encrypt, t_decrypt, with_ccm.
  rewrite K, Nn, C. change (16 <? 16) with false. cbv iota. rewrite !(takeN_all key) by lia. split.
  - eexists. rewrite (leb_no aad_max) by exact A. rewrite (leb_no payload_max) by exact S. rewrite (ltb_no (lenN inp + t)) by lia. cbn [orb].
    rewrite (ltb_no (lenN mem)) by exact M. rewrite E. cbn [ext bind]. rewrite ltb_no by (rewrite lenN_app, LC; lia). reflexivity.
  - intros o. rewrite LC. apply N.leb_le in B. change 65536 with payload_max in B. now rewrite B, orb_true_r.
Qed.
Print Assumptions C65_limit_refuted.

(** ** Example: a TinyCrypt that is as assumed, with the toy primitives of C61 *)
Definition toy_tiny : tiny := {|
  ty_pub := fun sk => dropN 1 (pr_ec_pub toy_prims sk);
  ty_mul := fun pk sk => secret_of (t_scalar sk) (t_x (4 :: pk)) (t_y (4 :: pk));
  ty_sign := fun sk h => Some (toy_sig 7 (pr_ec_pub toy_prims sk) h);
  ty_verify := fun pk h s => beqb s (toy_sig 7 (4 :: pk) h)
|}.
(** the same primitives, signing the hash *)
Definition hprims : prims := {|
  pr_hmac := pr_hmac toy_prims; pr_hash := pr_hash toy_prims; pr_ccm_enc := pr_ccm_enc toy_prims; pr_ccm_dec := pr_ccm_dec toy_prims;
  pr_ec_sk_ok := pr_ec_sk_ok toy_prims; pr_ec_pk_ok := pr_ec_pk_ok toy_prims; pr_ec_pub := pr_ec_pub toy_prims; pr_ec_agree := pr_ec_agree toy_prims;
  pr_ec_sign := fun sk m => pr_ec_sign toy_prims sk (pr_hash toy_prims m);
  pr_ec_verify := fun pk m s => pr_ec_verify toy_prims pk (pr_hash toy_prims m) s;
  pr_x_mult := pr_x_mult toy_prims; pr_x_pub := pr_x_pub toy_prims; pr_x_clamp := pr_x_clamp toy_prims;
  pr_ed_sign := pr_ed_sign toy_prims; pr_ed_pub := pr_ed_pub toy_prims; pr_ed_verify := pr_ed_verify toy_prims
|}.
Lemma hprims_ok : prims_ok hprims t_scalar.
Proof.
  pose proof toy_prims_ok as TO. constructor.
  - exact (pok_hmac_len _ _ TO). - exact (pok_hmac_bytes _ _ TO). - exact (pok_hash_len _ _ TO). - exact (pok_hash_bytes _ _ TO).
  - exact (pok_ccm _ _ TO). - exact (pok_ccm_dec _ _ TO). - exact (pok_ec_pub _ _ TO). - exact (pok_ec_pk _ _ TO). - exact (pok_ec_agree _ _ TO).
  - exact (pok_ec_agree_len _ _ TO). - exact (pok_ec_comm _ _ TO). - intros sk m s H. exact (pok_ec_sign _ _ TO sk _ s H).
  - exact (pok_x_comm _ _ TO). - exact (pok_x_len _ _ TO). - exact (pok_ed_sign _ _ TO). - exact (pok_ed_verify _ _ TO).
Qed.
Local Opaque be_enc.
Lemma toy_tiny_ok : tiny_ok hprims t_scalar toy_tiny.
Proof.
  assert (XY : forall x y, (0 <= x < P256p)%Z -> (0 <= y < P256p)%Z -> t_x (sec1 x y) = x /\ t_y (sec1 x y) = y).
  { intros x y Hx Hy. unfold t_x, t_y. rewrite sec1_x, x_val by exact Hx. split; [reflexivity|]. unfold sec1.
    assert (L : lenN (4 :: be_enc 32 (Z.to_N x)) = 33) by (rewrite lenN_cons; assert (Q : lenN (be_enc 32 (Z.to_N x)) = 32) by apply be_enc_lenN; rewrite Q; reflexivity).
    change (4 :: be_enc 32 (Z.to_N x) ++ be_enc 32 (Z.to_N y)) with ((4 :: be_enc 32 (Z.to_N x)) ++ be_enc 32 (Z.to_N y)). rewrite <- L at 1. rewrite dropN_app. now apply x_val. }
  constructor.
  - intros sk SK. destruct (pok_ec_pub _ _ hprims_ok sk SK) as (x & y & _ & E). change (ty_pub toy_tiny sk) with (dropN 1 (pr_ec_pub hprims sk)). rewrite E. reflexivity.
  - intros x y sk Hx Hy. cbn [ty_mul toy_tiny]. change (4 :: be_enc 32 (Z.to_N x) ++ be_enc 32 (Z.to_N y)) with (sec1 x y). now destruct (XY x y Hx Hy) as [-> ->].
  - intros sk pk s. cbn [ty_mul toy_tiny]. unfold secret_of. destruct (pt_x _); [|discriminate]. cbn [option_map]. intros H. injection H as <-. split; [apply be_enc_lenN|apply be_enc_bytes].
  - intros sk m s H. apply (pok_ec_sign _ _ hprims_ok sk m s). exact H.
  - intros x y m s O L. reflexivity.
Qed.
Example C65_ex : prims_ok hprims t_scalar /\ tiny_ok hprims t_scalar toy_tiny /\
  (exists s, t_sign hprims toy_tiny true ES256 key1 [] [9; 9] = Ok s /\ t_verify hprims toy_tiny true ES256 (sec1 gx gy) [9; 9] s = Ok true /\
    t_verify hprims toy_tiny true ES256 (sec1 gx gy) [9; 8] s = Err unexpected_result_from_ext_lib) /\
  (exists c tag, t_encrypt hprims [1; 2; 3] (repeat 7 16) (repeat 8 13) [5] 8 3 (repeat 0 20) = Ok (c ++ repeat 0 9, tag) /\ lenN c = 11 /\
    t_decrypt hprims c (repeat 7 16) (repeat 8 13) [5] 8 3 = Ok [1; 2; 3] /\
    t_decrypt hprims c (repeat 7 16) (repeat 8 13) [6] 8 3 = Err unexpected_result_from_ext_lib) /\
  t_keygen hprims toy_tiny true (Some key2) P256 0 32 32 = Ok (key2, be_enc 32 (Z.to_N g2x), (32, 32)).
Proof.
  split; [exact hprims_ok|]. split; [exact toy_tiny_ok|]. split; [|split].
  - eexists. split; [vm_compute; reflexivity|]. split; vm_compute; reflexivity.
  - exists ([1; 2; 3] ++ toy_tag (repeat 7 16) (repeat 8 13) [5] [1; 2; 3] 8), (toy_tag (repeat 7 16) (repeat 8 13) [5] [1; 2; 3] 8).
    repeat split; vm_compute; reflexivity.
  - vm_compute. reflexivity.
Qed.
Example C65_refused_example :
  t_decrypt hprims (repeat 1 20) (repeat 2 16) (repeat 3 12) [] 8 20 = Err unexpected_result_from_ext_lib /\
  t_decrypt hprims (repeat 1 20) (repeat 2 16) (repeat 3 13) [] 7 20 = Err unexpected_result_from_ext_lib /\
  t_encrypt hprims (repeat 1 20) (repeat 2 16) (repeat 3 13) [] 8 19 (repeat 0 40) = Err unexpected_result_from_ext_lib /\
  exists r, t_encrypt hprims (repeat 1 20) (repeat 2 16) (repeat 3 13) [] 8 20 (repeat 0 40) = Ok r.
Proof. repeat split; try reflexivity. eexists. vm_compute. reflexivity. Qed.
