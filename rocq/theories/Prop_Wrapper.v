(** C60, C61, C62: the functions of crypto_wrapper.c in the build with Mbed TLS. *)
From Coq Require Import ZArith.
From Verif Require Import Base Proof_Base Model_Cbor Proof_Cbor Model_Crypto Model_Toy Proof_Toy Model_EdhocCfg Model_P256 Spec_P256 Proof_P256Dh Prop_P256
  Spec_Uecc Prop_Uecc Spec_Hkdf Proof_Hkdf Model_Wrapper Spec_Wrapper Proof_Wrapper Proof_WrapperRef.

(** ** C60: keys do not stay in the key store of the library, and no other key is touched *)
(** After any number of calls with any arguments, of which any may fail at any point, the
    store is what it was: unless psa_destroy_key itself has failed. *)
Theorem C60_no_key_left : forall pr cs s s', store_ok s -> lost s = false -> run_calls pr cs s = (false, s') -> lost s' = false ->
  keys s' = keys s /\ wrong s' = wrong s /\ store_ok s'.
Proof.
  intros pr cs. assert (M : forall cs s s', store_ok s -> lost s = true -> run_calls pr cs s = (false, s') -> lost s' = true).
  { clear cs. induction cs as [|c cs IH]; intros s s' S0 L R; cbn [run_calls] in R; [now injection R as <-|].
    pose proof (call_post pr s S0 c) as P. destruct (run_call pr c s) as [u s1]. destruct u; [discriminate R|].
    destruct P as [P|(N1 & W & _ & P)]; [discriminate P|]. destruct S0 as [S1 S2].
    destruct P as [[K L1]|[(e & K & B) [L1 _]]]; (apply (IH s1 s'); [|congruence|exact R]); split; try lia; rewrite K.
    - eapply Forall_impl; [|exact S2]. cbn. intros; lia.
    - constructor; [exact B|]. eapply Forall_impl; [|exact S2]. cbn. intros; lia. }
  induction cs as [|c cs IH]; intros s s' S0 L R L'; cbn [run_calls] in R; [injection R as <-; repeat split; apply S0|].
  pose proof (call_post pr s S0 c) as P. destruct (run_call pr c s) as [u s1]. destruct u; [discriminate R|].
  destruct P as [P|(N1 & W & _ & P)]; [discriminate P|]. destruct S0 as [S1 S2].
  destruct P as [[K L1]|[(e & K & B) [L1 _]]].
  - assert (Q : store_ok s1) by (split; [lia|]; rewrite K; eapply Forall_impl; [|exact S2]; cbn; intros; lia).
    destruct (IH s1 s' Q ltac:(congruence) R L') as (K' & W' & Q'). repeat split; [congruence|congruence|apply Q'|apply Q'].
  - exfalso. assert (Q : store_ok s1) by (split; [lia|]; rewrite K; constructor; [exact B|]; eapply Forall_impl; [|exact S2]; cbn; intros; lia).
    pose proof (M cs s1 s' Q L1 R) as X. congruence.
Qed.
Print Assumptions C60_no_key_left.

(** In any case the keys that were there before stay, psa_destroy_key is never called with an
    identifier of somebody else, each call leaves at most one key, and none if the library
    reports no failure of its own. *)
Theorem C60_other_keys : forall pr cs s s', store_ok s -> run_calls pr cs s = (false, s') ->
  exists l, keys s' = l ++ keys s /\ (length l <= length cs)%nat /\ (~ In true (faults s) -> l = []) /\ wrong s' = wrong s /\ store_ok s'.
Proof.
  intros pr. induction cs as [|c cs IH]; intros s s' S0 R; cbn [run_calls] in R.
  { injection R as <-. exists []. repeat split; try apply S0. cbn. lia. }
  pose proof (call_post pr s S0 c) as P. destruct (run_call pr c s) as [u s1]. destruct u; [discriminate R|].
  destruct P as [P|(N1 & W & U & P)]; [discriminate P|]. destruct S0 as [S1 S2].
  assert (Q : store_ok s1).
  { split; [lia|]. destruct P as [[K _]|[(e & K & B) _]]; rewrite K; [|constructor; [exact B|]]; (eapply Forall_impl; [|exact S2]; cbn; intros; lia). }
  destruct (IH s1 s' Q R) as (l & K' & Ln & F & W' & Q').
  assert (F' : ~ In true (faults s) -> l = []) by (intros H; apply F; intros H1; apply H; now apply U).
  destruct P as [[K _]|[(e & K & B) [_ IT]]]; rewrite K in K'.
  - exists l. repeat split; [exact K'|cbn [length]; lia|exact F'|congruence|apply Q'|apply Q'].
  - exists (l ++ [e]). rewrite <- app_assoc. repeat split; [exact K'| | |congruence|apply Q'|apply Q'].
    + rewrite app_length. cbn [length]. lia.
    + intros H. contradiction.
Qed.
Print Assumptions C60_other_keys.

(** ** C61: the wrapper computes what the rest of the model assumes *)
(** [right]: the result is the expected one or the library has failed for reasons of its
    own and this is reported; in particular it is the expected one if the library does not
    fail. *)
Theorem C61_aead : forall pr scalar, prims_ok pr scalar -> forall inp key nonce aad t s,
  right s (fst (w_encrypt pr inp key nonce aad t s))
    (ext (option_map (fun c => (c, dropN (lenN inp) c)) (cr_aead_enc (mbed_crypto pr) key nonce aad t inp))) /\
  (forall out_len, lenN inp <= out_len + t ->
    right s (fst (w_decrypt pr inp key nonce aad t out_len s)) (ext (cr_aead_dec (mbed_crypto pr) key nonce aad t inp))).
Proof. intros pr scalar PO inp key nonce aad t s. split; [eapply encrypt_right; eassumption|]. intros o H. eapply decrypt_right; eassumption. Qed.
Print Assumptions C61_aead.

Theorem C61_sign : forall pr scalar, prims_ok pr scalar -> forall alg sk pk msg s,
  right s (fst (w_sign pr true alg sk pk msg s)) (ext (cr_sign (mbed_crypto pr) (sign_sel alg) sk pk msg)).
Proof. intros pr scalar PO alg sk pk msg s. eapply sign_right; eassumption. Qed.
Print Assumptions C61_sign.

(** A failure of the library while it verifies is reported as an invalid signature. A
    signature is reported as valid only if it is. *)
Theorem C61_verify : forall pr scalar, prims_ok pr scalar -> forall alg pk msg sgn s, let r := fst (w_verify pr true alg pk msg sgn s) in
  (right s r (ext (cr_verify (mbed_crypto pr) (sign_sel alg) pk msg sgn)) \/ (In true (faults s) /\ r = Ok false)) /\
  (r = Ok true -> cr_verify (mbed_crypto pr) (sign_sel alg) pk msg sgn = Some true).
Proof.
  intros pr scalar PO alg pk msg sgn s r. assert (H := verify_right pr alg pk msg sgn s). cbv zeta in H. fold r in H. split; [exact H|]. intros E. rewrite E in H.
  destruct H as [[H|[_ H]]|[_ H]]; try discriminate H. destruct (cr_verify _ _ _ _ _) as [b|]; [|discriminate H]. injection H as <-. reflexivity.
Qed.
Print Assumptions C61_verify.

(** RFC 5869. hkdf_extract, and hkdf_expand for up to 255 blocks *)
Theorem C61_hkdf : forall pr scalar, prims_ok pr scalar -> forall s,
  (forall salt ikm, right s (fst (w_hkdf_extract pr salt ikm s)) (Ok (pr_hmac pr (match salt with [] => repeat 0 32 | _ => salt end) ikm))) /\
  (forall cap prk info l, prk <> [] -> l <= 255 * 32 -> lenN info <= cap ->
    right s (fst (w_hkdf_expand pr cap prk info l s)) (Ok (hkdf_okm (pr_hmac pr) prk info l))) /\
  (forall cap prk info l, prk <> [] -> l < 2 ^ 32 ->
    right s (fst (w_hkdf_expand pr cap prk info l s)) (hkdf_expand_psa (mbed_crypto pr) cap prk info l)).
Proof.
  intros pr scalar PO s. split; [|split].
  - intros salt ikm. eapply extract_right; eassumption.
  - intros cap prk info l HP HL HC.
    replace (Ok (hkdf_okm (pr_hmac pr) prk info l)) with (hkdf_expand_psa (mbed_crypto pr) cap prk info l).
    + eapply expand_right; [eassumption|exact HP|]. change (2 ^ 32) with 4294967296. lia.
    + apply (expand_psa_correct (mbed_crypto pr)); [apply (pok_hmac_len pr scalar PO)|exact HL|exact HC].
  - intros cap prk info l HP HL. eapply expand_right; eassumption.
Qed.
Print Assumptions C61_hkdf.

Theorem C61_hash : forall pr scalar, prims_ok pr scalar -> forall msg s, right s (fst (w_hash pr msg s)) (Ok (cr_hash (mbed_crypto pr) msg)).
Proof. intros pr scalar PO msg s. eapply hash_right; eassumption. Qed.
Print Assumptions C61_hash.

(** Key agreement. With P-256 the secret is the x-coordinate of the multiple of the peer's
    point, of which only the x-coordinate is given; an x without a point is an error,
    whatever the uninitialised arrays hold and whichever multiplication is compiled in. *)
Theorem C61_agreement : forall pr scalar, prims_ok pr scalar -> forall mi j1 j2 j3 sk pk s, words j1 -> words j2 -> words j3 -> is_bytes pk -> store_ok s ->
  right s (fst (w_derive pr true mi j1 j2 j3 P256 sk pk s)) (ext (cr_dh (mbed_crypto pr) (ecdh_id P256) sk pk)) /\
  (forall y, lenN pk = 32 -> on_p256 (Z.of_N (be_val pk)) y -> ec_sk pr sk = true ->
    cr_dh (mbed_crypto pr) (ecdh_id P256) sk pk = secret_of (scalar sk) (Z.of_N (be_val pk)) y) /\
  ((forall y, ~ on_p256 (Z.of_N (be_val pk)) y) -> cr_dh (mbed_crypto pr) (ecdh_id P256) sk pk = None) /\
  (lenN sk = 32 -> lenN pk = 32 -> fst (w_derive pr true mi j1 j2 j3 X25519 sk pk s) = ext (cr_dh (mbed_crypto pr) (ecdh_id X25519) sk pk)).
Proof.
  intros pr scalar PO mi j1 j2 j3 sk pk s W1 W2 W3 HB [NX _].
  split; [eapply derive_right; eassumption|]. split; [|split].
  - intros y L O SK. pose proof (dh_valid pr scalar PO sk (Z.of_N (be_val pk)) y SK O) as D. rewrite N2Z.id in D.
    assert (BE : be_enc 32 (be_val pk) = pk) by (apply be32; assumption).
    rewrite BE in D. change (ecdh_id P256) with 1. rewrite D. apply (pok_ec_agree pr scalar PO). exact O.
  - intros NY. change (cr_dh (mbed_crypto pr) (ecdh_id P256) sk pk) with (if ec_sk pr sk then match point_of pk with Some pt => if pr_ec_pk_ok pr pt then pr_ec_agree pr sk pt else None | None => None end else None).
    destruct (ec_sk pr sk); [|reflexivity]. destruct (point_of pk) as [pt|] eqn:E; [exfalso|reflexivity].
    assert (Z : words (repeat 0 8)) by (split; [repeat constructor|reflexivity]).
    destruct (proj1 (C50_accepts MulC (repeat 0 8) (repeat 0 8) (repeat 0 8) pk 65 Z Z Z HB) (ex_intro _ pt E)) as (_ & _ & y & Y). now apply (NY y).
  - intros Ls Lp. unfold w_derive. rewrite Ls, Lp. change (32 <? 32) with false. cbn [negb orb fst]. rewrite !takeN_all by lia. reflexivity.
Qed.
Print Assumptions C61_agreement.

(** The assumptions on cryptography of the other theorems follow from those on the
    primitives. *)
Theorem C61_assumptions : forall pr scalar, prims_ok pr scalar -> crypto_ok (mbed_crypto pr).
Proof. exact mbed_ok. Qed.
Print Assumptions C61_assumptions.

(** ** C62: ephemeral keys *)
(** With P-256, the private key is one that the library has drawn, the public key is the
    x-coordinate of its point; 32 bytes each. *)
Theorem C62_p256_partial : forall pr scalar, prims_ok pr scalar -> forall c25519 junk seed sk_len pk_len s s' sk pk lens,
  w_keygen pr c25519 junk P256 seed sk_len pk_len s = (Ok (sk, pk, lens), s') ->
  (exists d, rnd s = sk :: d /\ rnd s' = d) /\ ec_sk pr sk = true /\ pk = cr_pub (mbed_crypto pr) (ecdh_id P256) sk /\ lenN pk = 32 /\ lenN sk = 32 /\
  32 <= sk_len /\ 32 <= pk_len /\ snd lens = 32 /\ exists x y, on_p256 x y /\ pr_ec_pub pr sk = sec1 x y /\ pk = be_enc 32 (Z.to_N x).
Proof.
  intros pr scalar PO b junk seed sk_len pk_len s s' sk pk lens H. unfold w_keygen in H.
  destruct (N.ltb_spec pk_len 32) as [?|LP]; [discriminate H|].
  assert (FR : forall s, rnd (snd (fault s)) = rnd s /\ keys (snd (fault s)) = keys s /\ next (snd (fault s)) = next s) by (intros s9; unfold fault; now destruct (faults s9)).
  unfold psa_crypto_init in H. pose proof (FR s) as F. destruct (fault s) as [f s1]. cbn [snd] in F. destruct F as (R1 & K1 & _).
  destruct f; cbn [try_psa] in H; [discriminate H|].
  unfold psa_generate_key in H. destruct (rnd s1) as [|d r] eqn:RN; [discriminate H|]. unfold psa_import_key in H.
  match type of H with context [fault ?x] => pose proof (FR x) as F; destruct (fault x) as [f s2] end. cbn [snd rnd keys next] in F. destruct F as (R2 & K2 & _).
  destruct f; [discriminate H|]. destruct (key_ok pr gen_attr d) eqn:KO; [|discriminate H]. cbn [try_psa] in H.
  assert (SK : ec_sk pr d = true).
  { unfold key_ok, gen_attr in KO. cbn [a_bits a_type] in KO. apply andb_prop in KO as [_ KO]. exact KO. }
  destruct (N.ltb_spec sk_len 32) as [?|LS]; [discriminate H|].
  unfold psa_export_key in H. match type of H with context [fault ?x] => pose proof (FR x) as F; destruct (fault x) as [f s3] end. cbn [snd rnd keys next] in F. destruct F as (R3 & K3 & _).
  destruct f; cbn [try_psa] in H; [discriminate H|]. rewrite K3 in H. cbn [lookup fst] in H. rewrite N.eqb_refl in H. cbn [k_attr k_data] in H.
  assert (LD : lenN d = 32) by (unfold ec_sk in SK; apply andb_prop in SK as [SL _]; now apply N.eqb_eq).
  rewrite LD in H. change (has_usage Export gen_attr && (32 <=? 32)) with true in H. cbn [try_psa] in H.
  unfold psa_export_public_key in H. match type of H with context [fault ?x] => pose proof (FR x) as F; destruct (fault x) as [f s4] end. cbn [snd rnd keys next] in F. destruct F as (R4 & K4 & _).
  destruct f; cbn [try_psa] in H; [discriminate H|]. rewrite K4, K3 in H. cbn [lookup fst] in H. rewrite N.eqb_refl in H. cbn [k_attr k_data] in H.
  destruct (pok_ec_pub pr scalar PO d SK) as (x & y & O & EP). rewrite EP, sec1_len in H. change (is_pair (a_type gen_attr) && (65 <=? 65)) with true in H. cbn [try_psa] in H.
  rewrite sec1_len in H. change (65 =? 65) with true in H. cbn [try_psa] in H. unfold psa_destroy_key in H.
  match type of H with context [fault ?x] => pose proof (FR x) as F; destruct (fault x) as [f s5] end. cbn [snd rnd keys next] in F. destruct F as (R5 & K5 & _).
  rewrite K5, K4, K3 in H. cbn [lookup fst] in H. rewrite N.eqb_refl in H. destruct f; cbn [try_expect] in H; [discriminate H|].
  rewrite sec1_x in H. pose proof (f_equal snd H) as HS. apply (f_equal fst) in H. cbn [fst snd] in H, HS.
  assert (HH : forall A (u v : A), Ok u = Ok v -> u = v) by (intros A u v E; now injection E). apply HH in H.
  pose proof (f_equal snd H) as HL. apply (f_equal fst) in H. cbn [fst snd] in H, HL. pose proof (f_equal fst H) as H1. pose proof (f_equal snd H) as H2. cbn [fst snd] in H1, H2.
  subst sk pk lens s'. cbn [rnd snd].
  split; [exists r; split; [congruence|congruence]|]. split; [exact SK|]. change (cr_pub (mbed_crypto pr) (ecdh_id P256) d) with (if ec_sk pr d then takeN 32 (dropN 1 (pr_ec_pub pr d)) else []).
  rewrite SK, EP, sec1_x. split; [reflexivity|]. split; [apply be_enc_lenN|]. split; [exact LD|]. split; [exact LS|]. split; [exact LP|]. split; [reflexivity|].
  exists x, y. split; [exact O|]. split; reflexivity.
Qed.
Print Assumptions C62_p256_partial.

(** Both sides get the same secret from what the wrapper has generated. *)
Theorem C62_same_secret : forall pr scalar, prims_ok pr scalar -> forall b junk seed la lp sa sa' a pa la',
  w_keygen pr b junk P256 seed la lp sa = (Ok (a, pa, la'), sa') -> forall b2 junk2 seed2 lb lp2 sb sb' k pk lb',
  w_keygen pr b2 junk2 P256 seed2 lb lp2 sb = (Ok (k, pk, lb'), sb') -> store_ok sa' -> store_ok sb' -> faults sa' = [] -> faults sb' = [] ->
  forall mi j1 j2 j3 mi' k1 k2 k3, words j1 -> words j2 -> words j3 -> words k1 -> words k2 -> words k3 ->
  fst (w_derive pr true mi j1 j2 j3 P256 a pk sa') = fst (w_derive pr true mi' k1 k2 k3 P256 k pa sb').
Proof.
  intros pr scalar PO b junk seed la lp sa sa' a pa la' HA b2 junk2 seed2 lb lp2 sb sb' k pk lb' HB SA SB FA FB mi j1 j2 j3 mi' k1 k2 k3 W1 W2 W3 V1 V2 V3.
  destruct (C62_p256_partial pr scalar PO _ _ _ _ _ _ _ _ _ _ HA) as (_ & _ & EA & _ & _ & _ & _ & _ & xa & ya & _ & _ & BA).
  destruct (C62_p256_partial pr scalar PO _ _ _ _ _ _ _ _ _ _ HB) as (_ & _ & EB & _ & _ & _ & _ & _ & xb & yb & _ & _ & BB).
  assert (BPA : is_bytes pa) by (rewrite BA; apply be_enc_bytes). assert (BPK : is_bytes pk) by (rewrite BB; apply be_enc_bytes).
  destruct (C61_agreement pr scalar PO mi j1 j2 j3 a pk sa' W1 W2 W3 BPK SA) as ([R1|[R1 _]] & _); [|rewrite FA in R1; destruct R1].
  destruct (C61_agreement pr scalar PO mi' k1 k2 k3 k pa sb' V1 V2 V3 BPA SB) as ([R2|[R2 _]] & _); [|rewrite FB in R2; destruct R2].
  rewrite R1, R2, EA, EB. f_equal. apply (ok_dh_comm _ (mbed_ok pr scalar PO)).
Qed.
Print Assumptions C62_same_secret.

(** With X25519 the seed has no influence: the private key is computed from an array that
    nothing has been written to. *)
Theorem C62_seed_refuted : forall pr scalar, prims_ok pr scalar -> forall junk seed sk_len pk_len s, 32 <= sk_len -> 32 <= pk_len -> faults s = [] ->
  w_keygen pr true junk X25519 seed sk_len pk_len s = (Ok (pr_x_clamp pr junk, pr_x_pub pr (pr_x_clamp pr junk), (32, 32)), s).
Proof.
  intros pr scalar PO junk seed sk_len pk_len s LS LP F. unfold w_keygen, psa_hash_compute, fault. rewrite F. cbn [negb].
  destruct (N.ltb_spec sk_len 32); [lia|]. cbn [try_expect]. rewrite (pok_hash_len pr scalar PO). destruct (N.ltb_spec pk_len 32); [lia|]. reflexivity.
Qed.
Print Assumptions C62_seed_refuted.

(** The length of the array for the private key is not looked at, with neither curve, nor
    that for the public key with X25519. *)
Theorem C62_short_array_refuted : forall pr scalar, prims_ok pr scalar -> forall b junk seed sk_len pk_len s, faults s = [] ->
  (sk_len < 32 -> 32 <= pk_len -> (exists d r, rnd s = d :: r /\ ec_sk pr d = true) ->
    fst (w_keygen pr b junk P256 seed sk_len pk_len s) = UB OobWrite) /\
  (sk_len < 32 \/ pk_len < 32 -> fst (w_keygen pr true junk X25519 seed sk_len pk_len s) = UB OobWrite).
Proof.
  intros pr scalar PO b junk seed sk_len pk_len s F. split.
  - intros LS LP (d & r & R & SK). unfold w_keygen. destruct (N.ltb_spec pk_len 32); [lia|]. unfold psa_crypto_init, fault. rewrite F. cbn [try_psa].
    unfold psa_generate_key. rewrite R. unfold psa_import_key, fault. cbn [faults]. rewrite F.
    assert (KO : key_ok pr gen_attr d = true).
    { unfold key_ok, gen_attr. cbn [a_bits a_type]. unfold ec_sk in SK. rewrite SK. apply andb_prop in SK as [SL _]. apply N.eqb_eq in SL. now rewrite SL. }
    rewrite KO. cbn [try_psa]. destruct (N.ltb_spec sk_len 32); [|lia]. reflexivity.
  - intros L. unfold w_keygen. cbn [negb]. destruct (N.ltb_spec sk_len 32); [reflexivity|]. unfold psa_hash_compute, fault. rewrite F. cbn [try_expect].
    rewrite (pok_hash_len pr scalar PO). destruct (N.ltb_spec pk_len 32); [reflexivity|lia].
Qed.
Print Assumptions C62_short_array_refuted.

(** With P-256 the length of the private key is not set, as it is with X25519: after a call
    with a longer array, the key agreement with that array fails. *)
Theorem C62_length_refuted : forall pr scalar, prims_ok pr scalar -> forall b junk seed sk_len pk_len s s' sk pk lens,
  w_keygen pr b junk P256 seed sk_len pk_len s = (Ok (sk, pk, lens), s') -> 32 < sk_len ->
  forall rest mi j1 j2 j3 pk' s2, lenN (sk ++ rest) = fst lens ->
  fst (w_derive pr true mi j1 j2 j3 P256 (sk ++ rest) pk' s2) = Err unexpected_result_from_ext_lib.
Proof.
  intros pr scalar PO b junk seed sk_len pk_len s s' sk pk lens H LS rest mi j1 j2 j3 pk' s2 LR.
  assert (HL : fst lens = sk_len).
  { clear LR. unfold w_keygen in H. destruct (pk_len <? 32); [discriminate H|]. destruct (psa_crypto_init s) as [[u|] s3]; cbn [try_psa] in H; [|discriminate H].
    destruct (psa_generate_key pr gen_attr s3) as [[[v|] id] s4]; cbn [try_psa] in H; [|discriminate H]. destruct (sk_len <? 32); [discriminate H|].
    destruct (psa_export_key id 32 s4) as [[d|] s5]; cbn [try_psa] in H; [|discriminate H]. destruct (psa_export_public_key pr id 65 s5) as [[q|] s6]; cbn [try_psa] in H; [|discriminate H].
    destruct (lenN q =? 65); cbn [try_psa] in H; [|discriminate H]. destruct (psa_destroy_key id s6) as [[w|] s7]; cbn [try_expect] in H; [|discriminate H].
    injection H as _ _ <- _. reflexivity. }
  unfold w_derive. destruct (psa_crypto_init s2) as [[u|] s3]; cbn [try_psa fst]; [|reflexivity].
  unfold try_import, psa_import_key. destruct (fault s3) as [f s4]. destruct f; [reflexivity|].
  assert (K : key_ok pr dh_attr (sk ++ rest) = false).
  { unfold key_ok, dh_attr. cbn [a_bits a_type]. destruct (N.eqb_spec (lenN (sk ++ rest)) 32) as [E|_]; [lia|reflexivity]. }
  rewrite K. reflexivity.
Qed.
Print Assumptions C62_length_refuted.

(** ** Examples *)
(** Primitives as assumed: an odd private key has the generator as its public key, an even
    one the double of the generator; everything else is as in Model_Toy.v. *)
Definition g2x : Z := 0x7CF27B188D034F7E8A52380304B51AC3C08969E277F21B35A60B48FC47669978.
Definition g2y : Z := 0x07775510DB8ED040293D9AC69F7430DBBA7DADE63CE982299E04B79D227873D1.
Definition t_scalar (sk : bytes) : nat := if N.odd (be_val sk) then 1%nat else 2%nat.
Definition t_x (pk : bytes) : Z := Z.of_N (be_val (takeN 32 (dropN 1 pk))).
Definition t_y (pk : bytes) : Z := Z.of_N (be_val (dropN 33 pk)).
Definition toy_prims : prims := {|
  pr_hmac := fun k m => toy_digest (k ++ [300] ++ m);
  pr_hash := toy_digest;
  pr_ccm_enc := toy_enc;
  pr_ccm_dec := toy_dec;
  pr_ec_sk_ok := fun sk => negb (be_val sk =? 0);
  pr_ec_pk_ok := fun pk => ((t_y pk ^ 2) mod P256p =? (t_x pk ^ 3 - 3 * t_x pk + P256b) mod P256p)%Z;
  pr_ec_pub := fun sk => if N.odd (be_val sk) then sec1 gx gy else sec1 g2x g2y;
  pr_ec_agree := fun sk pk => secret_of (t_scalar sk) (t_x pk) (t_y pk);
  pr_ec_sign := fun sk m => Some (toy_sig 7 (if N.odd (be_val sk) then sec1 gx gy else sec1 g2x g2y) m);
  pr_ec_verify := fun pk m s => beqb s (toy_sig 7 pk m);
  pr_x_mult := fun a b => be_enc 32 ((be_val a + be_val b) mod 256 ^ 32);
  pr_x_pub := fun a => be_enc 32 (be_val a mod 256 ^ 32);
  pr_x_clamp := fun d => d;
  pr_ed_sign := fun pk _ m => toy_sig 8 pk m;
  pr_ed_pub := fun sk => sk;
  pr_ed_verify := fun s pk m => beqb s (toy_sig 8 pk m)
|}.
Lemma g2_on_curve : on_p256 g2x g2y.
Proof. split; [split; [discriminate|reflexivity]|]. split; [split; [discriminate|reflexivity]|]. vm_compute. reflexivity. Qed.
Lemma double_g : pt_mul 2 (Aff gx gy) = Aff g2x g2y.
Proof.
  cbn [pt_mul pt_add]. rewrite Z.eqb_refl. replace ((gy + gy) mod P256p =? 0)%Z with false by (vm_compute; reflexivity).
  rewrite (inv_unique (2 * gy) 0x7d13d1ed160030c54147c66b2e0d48cf7fe33dfb45a6dd82dded53bae22ea01a%Z); [|split; [discriminate|reflexivity]|vm_compute; reflexivity].
  vm_compute. reflexivity.
Qed.
Local Opaque be_enc.
Lemma t_xy x y : on_p256 x y -> t_x (sec1 x y) = x /\ t_y (sec1 x y) = y.
Proof.
  intros (Hx & Hy & _). unfold t_x, t_y. rewrite sec1_x, x_val by exact Hx. split; [reflexivity|]. unfold sec1.
  assert (L : lenN (be_enc 32 (Z.to_N x)) = 32) by apply be_enc_lenN.
  replace (dropN 33 (4 :: be_enc 32 (Z.to_N x) ++ be_enc 32 (Z.to_N y))) with (be_enc 32 (Z.to_N y)); [now apply x_val|].
  change (4 :: be_enc 32 (Z.to_N x) ++ be_enc 32 (Z.to_N y)) with ((4 :: be_enc 32 (Z.to_N x)) ++ be_enc 32 (Z.to_N y)).
  assert (L' : lenN (4 :: be_enc 32 (Z.to_N x)) = 33) by (rewrite lenN_cons, L; reflexivity).
  rewrite <- L' at 1. symmetry. apply dropN_app.
Qed.
Lemma toy_prims_ok : prims_ok toy_prims t_scalar.
Proof.
  constructor; cbn [toy_prims pr_hmac pr_hash pr_ccm_enc pr_ccm_dec pr_ec_sk_ok pr_ec_pk_ok pr_ec_pub pr_ec_agree pr_ec_sign pr_ec_verify pr_x_mult pr_x_pub pr_ed_sign pr_ed_pub pr_ed_verify].
  - intros k m. apply toy_digest_len.
  - intros k m. apply toy_digest_bytes.
  - intros m. apply toy_digest_len.
  - intros m. apply toy_digest_bytes.
  - intros k n a t p c H. split; [now apply (ok_aead _ toy_ok)|]. split; [exact (ok_aead_enc_len _ toy_ok _ _ _ _ _ _ H)|exact (ok_aead_enc_bytes _ toy_ok _ _ _ _ _ _ H)].
  - intros k n a t p c H. split; [exact (ok_aead_dec_len _ toy_ok _ _ _ _ _ _ H)|exact (ok_aead_dec_bytes _ toy_ok _ _ _ _ _ _ H)].
  - intros sk _. destruct (N.odd (be_val sk)); [exists gx, gy|exists g2x, g2y]; (split; [|reflexivity]); [exact g_on_curve|exact g2_on_curve].
  - intros x y O. destruct (t_xy x y O) as [-> ->]. apply Z.eqb_eq. apply O.
  - intros sk x y O. destruct (t_xy x y O) as [-> ->]. reflexivity.
  - intros sk pk s. unfold secret_of. destruct (pt_x _); [|discriminate]. cbn [option_map]. intros H. injection H as <-. split; [apply be_enc_lenN|apply be_enc_bytes].
  - intros a b _ _. destruct (t_xy _ _ g_on_curve) as [X1 Y1]. destruct (t_xy _ _ g2_on_curve) as [X2 Y2]. unfold t_scalar.
    assert (one : forall x y, pt_mul 1 (Aff x y) = Aff x y) by reflexivity.
    destruct (N.odd (be_val a)), (N.odd (be_val b)); rewrite ?X1, ?Y1, ?X2, ?Y2; unfold secret_of; rewrite ?one, ?double_g; reflexivity.
  - intros sk m s H. assert (HH : forall A (u v : A), Some u = Some v -> u = v) by congruence. apply HH in H. rewrite <- H. unfold toy_sig.
    split; [apply be_enc_lenN|]. split; [apply be_enc_bytes|]. intros _. apply beqb_refl.
  - intros a b. f_equal.
    assert (V : forall v, be_val (be_enc 32 (v mod 256 ^ 32)) = v mod 256 ^ 32).
    { intros v. apply be_val_enc. change (256 ^ N.of_nat 32) with (256 ^ 32). apply N.mod_lt. discriminate. }
    rewrite !V, !N.add_mod_idemp_r by discriminate. now rewrite N.add_comm.
  - intros a b. split; [apply be_enc_lenN|]. split; [apply be_enc_bytes|apply be_enc_lenN].
  - intros pk sk m. unfold toy_sig. split; [apply be_enc_lenN|apply be_enc_bytes].
  - intros sk m. apply beqb_refl.
Qed.
Local Transparent be_enc.

(** An application key is in the store; the library fails while signing, and in the second
    case at the destruction of the first key. *)
Definition app_key : N * slot := (5, {| k_attr := hmac_attr; k_data := [1; 2; 3] |}).
Definition store (f : list bool) (r : list bytes) : psa :=
  {| keys := [app_key]; next := 6; faults := f; rnd := r; lost := false; wrong := false |}.
Lemma store_is_ok f r : store_ok (store f r).
Proof. split; [discriminate|]. repeat constructor. Qed.
Definition some_calls : list call :=
  [CallExtract [] [1; 2]; CallSign true ES256 (repeat 1 32) [] [9]; CallExpand 100 (repeat 1 32) [7] 40; CallHash [1]].
Example C60_ex : store_ok (store [false; false; false; false; false; false; true] []) /\
  (let (u, s) := run_calls toy_prims some_calls (store [false; false; false; false; false; false; true] []) in
   u = false /\ lost s = false /\ faults s = [] /\ keys s = [app_key]) /\
  (let (u, s) := run_calls toy_prims some_calls (store [false; false; false; true] []) in
   u = false /\ lost s = true /\ exists k, keys s = [(6, k); app_key]).
Proof.
  split; [apply store_is_ok|]. split.
  - vm_compute. repeat split.
  - vm_compute. repeat split. eexists. reflexivity.
Qed.
Example C61_ex : prims_ok toy_prims t_scalar /\
  (exists c, fst (w_encrypt toy_prims [1; 2; 3] (repeat 7 16) (repeat 8 13) [5] 8 (store [] [])) = Ok ([1; 2; 3] ++ c, c) /\
    fst (w_decrypt toy_prims ([1; 2; 3] ++ c) (repeat 7 16) (repeat 8 13) [5] 8 3 (store [] [])) = Ok [1; 2; 3] /\
    fst (w_decrypt toy_prims ([1; 2; 3] ++ c) (repeat 7 16) (repeat 8 13) [5] 8 3 (store [false; true] [])) = Err unexpected_result_from_ext_lib).
Proof. split; [exact toy_prims_ok|]. exists (toy_tag (repeat 7 16) (repeat 8 13) [5] [1; 2; 3] 8). repeat split; vm_compute; reflexivity. Qed.
(** Two key pairs. Without compact25519, X25519 reports success although no key has been
    written. *)
Definition key1 : bytes := repeat 0 31 ++ [1].
Definition key2 : bytes := repeat 0 31 ++ [2].
Example C62_ex :
  fst (w_keygen toy_prims true [] P256 0 32 32 (store [] [key1])) = Ok (key1, be_enc 32 (Z.to_N gx), (32, 32)) /\
  fst (w_keygen toy_prims true [] P256 0 40 64 (store [] [key2])) = Ok (key2, be_enc 32 (Z.to_N g2x), (40, 32)) /\
  fst (w_keygen toy_prims false [] X25519 7 40 64 (store [] [key2])) = Ok ([], [], (40, 64)).
Proof. repeat split; vm_compute; reflexivity. Qed.
