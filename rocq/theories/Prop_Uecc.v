(** C59: Diffie-Hellman on P-256 in the build with TinyCrypt. *)
From Coq Require Import ZArith Znumtheory Zpow_facts.
From Verif Require Import Base Proof_Base Model_Cbor Proof_Cbor Model_Crypto Model_P256 Spec_P256 Proof_Prime Proof_P256 Proof_P256Dh Prop_P256
  Model_Uecc Spec_Uecc Proof_Uecc Proof_P256Odd.
Local Opaque root.

Lemma be32 pk : is_bytes pk -> lenN pk = 32 -> be_enc 32 (be_val pk) = pk.
Proof. intros H L. replace 32%nat with (length pk) by (unfold lenN in L; lia). now apply be_enc_val. Qed.
(** the library gets the coordinates it was asked to multiply *)
Lemma derive_at scalar umul sk pk y : multiplies scalar umul -> is_bytes pk -> lenN pk = 32 -> 32 <= lenN sk ->
  (Z.of_N (be_val pk) < P256p)%Z -> (0 <= y < P256p)%Z -> decompress pk = pk ++ be_enc 32 (Z.to_N y) ->
  tc_p256_derive umul sk pk = ext (secret_of (scalar sk) (Z.of_N (be_val pk)) y).
Proof.
  intros HM Hp Lp Ls Hx Hy E. unfold tc_p256_derive. rewrite Lp. destruct (N.ltb_spec (lenN sk) 32) as [Q|_]; [lia|]. cbn [orb N.ltb].
  change (32 <? 32) with false. cbn [orb]. rewrite E. rewrite <- (be32 pk Hp Lp) at 1. rewrite <- (N2Z.id (be_val pk)) at 1.
  rewrite HM; [reflexivity|lia|exact Hy].
Qed.

(** Every key that is the x-coordinate of a point of the curve gives the secret of that
    point. *)
Theorem C59_secret : forall scalar umul sk pk y, multiplies scalar umul -> is_bytes pk -> lenN pk = 32 -> 32 <= lenN sk ->
  on_p256 (Z.of_N (be_val pk)) y ->
  tc_p256_derive umul sk pk = ext (secret_of (scalar sk) (Z.of_N (be_val pk)) y).
Proof.
  intros scalar umul sk pk y HM Hp Lp Ls HY. pose proof HY as (Hx & Hy & E). pose proof (y_not_0 _ _ HY) as Y0. set (x := Z.of_N (be_val pk)) in *.
  destruct (decompress_ok pk Hp ltac:(lia)) as (y' & Hy' & D). rewrite takeN_all in Hy', D by lia. fold x in Hy'.
  assert (R2 : (root x ^ 2 mod P256p = rhs x mod P256p)%Z) by (now apply (root_complete x y)).
  assert (R0 : root x <> 0%Z).
  { intros R0. rewrite R0 in R2. fold (rhs x) in E. rewrite <- R2 in E.
    destruct (two_roots _ _ _ prime_P256p E Hy ltac:(split; [discriminate|reflexivity])) as [?|[?|[? _]]]; lia. }
  pose proof (root_bound x) as RB.
  assert (BY : (0 <= y' < P256p)%Z) by (destruct Hy' as [-> | ->]; lia).
  assert (OY : on_p256 x y').
  { split; [exact Hx|]. split; [exact BY|]. fold (rhs x). rewrite <- R2. destruct Hy' as [-> | ->]; [reflexivity|apply neg_sq]. }
  rewrite (derive_at scalar umul sk pk y' HM Hp Lp Ls (proj2 Hx) BY D). fold x. unfold secret_of. now rewrite (same_x (scalar sk) x y y' HY OY).
Qed.
Print Assumptions C59_secret.

(** The secret is the one that the build with Mbed TLS computes from the same key. *)
Theorem C59_builds_agree : forall scalar umul sk pk y mi j1 j2 j3, multiplies scalar umul -> is_bytes pk -> lenN pk = 32 -> 32 <= lenN sk ->
  on_p256 (Z.of_N (be_val pk)) y -> words j1 -> words j2 -> words j3 ->
  exists y', uncompress_point mi j1 j2 j3 pk 65 = Some (4 :: pk ++ be_enc 32 (Z.to_N y')) /\
    tc_p256_derive umul sk pk = ext (secret_of (scalar sk) (Z.of_N (be_val pk)) y').
Proof.
  intros scalar umul sk pk y mi j1 j2 j3 HM Hp Lp Ls HY H1 H2 H3.
  destruct (C51_secret mi j1 j2 j3 pk 65 y (scalar sk) H1 H2 H3 Hp Lp ltac:(lia) HY) as (y' & E & _ & S).
  exists y'. split; [exact E|]. rewrite (C59_secret scalar umul sk pk y HM Hp Lp Ls HY). unfold secret_of. now rewrite S.
Qed.
Print Assumptions C59_builds_agree.

(** A key that is no x-coordinate of the curve is not refused (Mbed TLS: C50): the library
    is made to multiply a pair of coordinates that is not on the curve. *)
Theorem C59_off_curve_refuted : forall pk, is_bytes pk -> lenN pk = 32 -> (Z.of_N (be_val pk) < P256p)%Z ->
  (forall y, ~ on_p256 (Z.of_N (be_val pk)) y) ->
  exists y, (0 <= y < P256p)%Z /\ ~ on_p256 (Z.of_N (be_val pk)) y /\
    (y ^ 2 mod P256p = (- (Z.of_N (be_val pk) ^ 3 - 3 * Z.of_N (be_val pk) + P256b)) mod P256p)%Z /\
    forall scalar umul sk, multiplies scalar umul -> 32 <= lenN sk ->
      tc_p256_derive umul sk pk = ext (secret_of (scalar sk) (Z.of_N (be_val pk)) y).
Proof.
  intros pk Hp Lp Hx NY. set (x := Z.of_N (be_val pk)) in *. fold (rhs x).
  destruct (decompress_ok pk Hp ltac:(lia)) as (y & Hy & D). rewrite takeN_all in Hy, D by lia. fold x in Hy. pose proof (root_bound x) as RB.
  assert (R0 : root x <> 0%Z).
  { intros R0. apply (NY 0%Z). split; [lia|]. split; [split; [discriminate|reflexivity]|]. fold (rhs x).
    destruct (root_sq x) as [S|S]; rewrite R0 in S; [exact S|].
    change (0 ^ 2 mod P256p)%Z with 0%Z in *. symmetry in S. apply Z.mod_divide in S; [|discriminate]. apply (proj1 (Z.divide_opp_r _ _)) in S.
    symmetry. apply Z.mod_divide; [discriminate|exact S]. }
  assert (BY : (0 <= y < P256p)%Z) by (destruct Hy as [-> | ->]; lia).
  assert (SY : (y ^ 2 mod P256p = root x ^ 2 mod P256p)%Z) by (destruct Hy as [-> | ->]; [reflexivity|apply neg_sq]).
  exists y. split; [exact BY|]. split; [apply NY|]. split.
  - rewrite SY. destruct (root_sq x) as [S|S]; [|exact S]. exfalso. apply (NY (root x)). split; [lia|]. split; [exact RB|exact S].
  - intros scalar umul sk HM Ls. apply (derive_at scalar umul sk pk y HM Hp Lp Ls Hx BY D).
Qed.
Print Assumptions C59_off_curve_refuted.

(** ... and there are pairs of coordinates whose multiples are few. The one below has order
    5: the "secret" is one of two constants, and tells the private key modulo 5 up to its
    sign, whatever the private key. *)
Definition x5 : Z := 0x4df6c4496d712c8e8f6e672374db1598fa61a0bd5afac0faecbfdf84aedaa7a6.
Definition y5 : Z := 0x4bbbd45f1dc7041a3481e01e270995abd63cc54415141a5e88829c9028bc7909.
Definition x5' : Z := 0x836c633f3bad8f3b22323b6e5a58721de548a59bea696e8ff83515ff86111cc9.
Definition y5' : Z := 0x3c592748a4d5252250bdb427aefa7cb07ac14c90c9e9cd59a685e2219cbc4bc7.
Definition pk5 : bytes := be_enc 32 (Z.to_N x5).
Local Open Scope Z_scope.
Lemma add_1 : pt_add (Aff x5 y5) Inf = Aff x5 y5. Proof. reflexivity. Qed.
Lemma add_2 : pt_add (Aff x5 y5) (Aff x5 y5) = Aff x5' y5'.
Proof.
  cbn [pt_add]. rewrite Z.eqb_refl. replace ((y5 + y5) mod P256p =? 0) with false by (vm_compute; reflexivity).
  rewrite (inv_unique (2 * y5) 0x31b4b0d45a8177b51021b0b8863936951d9b3088c2dd6c9903a9c8f435f802ad); [|split; [discriminate|reflexivity]|vm_compute; reflexivity].
  vm_compute. reflexivity.
Qed.
Lemma inv_diff : inv_p (x5' - x5) = 0xd9a4cc16e39fe4d76c48bb73d5e2fa186ea293583588459e8ede03d17adbe194.
Proof. apply inv_unique; [split; [discriminate|reflexivity]|vm_compute; reflexivity]. Qed.
Lemma add_3 : pt_add (Aff x5 y5) (Aff x5' y5') = Aff x5' (P256p - y5').
Proof. cbn [pt_add]. replace (x5 =? x5') with false by (vm_compute; reflexivity). rewrite inv_diff. vm_compute. reflexivity. Qed.
Lemma add_4 : pt_add (Aff x5 y5) (Aff x5' (P256p - y5')) = Aff x5 (P256p - y5).
Proof. cbn [pt_add]. replace (x5 =? x5') with false by (vm_compute; reflexivity). rewrite inv_diff. vm_compute. reflexivity. Qed.
Lemma add_5 : pt_add (Aff x5 y5) (Aff x5 (P256p - y5)) = Inf.
Proof. cbn [pt_add]. rewrite Z.eqb_refl. replace ((y5 + (P256p - y5)) mod P256p =? 0) with true by (vm_compute; reflexivity). reflexivity. Qed.
Lemma mult_5 q r : pt_mul (r + 5 * q) (Aff x5 y5) = pt_mul r (Aff x5 y5).
Proof.
  induction r as [|r IH]; [|cbn [pt_mul Nat.add]; now rewrite IH].
  induction q as [|q IH]; [reflexivity|]. replace (0 + 5 * S q)%nat with (S (S (S (S (S (0 + 5 * q)))))) by lia.
  cbn [pt_mul] in *. now rewrite IH, add_1, add_2, add_3, add_4, add_5.
Qed.
Lemma secrets_5 k : pt_x (pt_mul k (Aff x5 y5)) = nth (k mod 5) [None; Some x5; Some x5'; Some x5'; Some x5] None.
Proof.
  rewrite (Nat.div_mod k 5) at 1 by discriminate. rewrite Nat.add_comm, mult_5.
  assert (k mod 5 < 5)%nat by (apply Nat.mod_upper_bound; discriminate). destruct (k mod 5)%nat as [|[|[|[|[|n]]]]]; [..|lia];
    cbn [pt_mul nth]; rewrite ?add_1, ?add_2, ?add_3, ?add_4; reflexivity.
Qed.
Lemma not_x5 : forall y, ~ on_p256 x5 y.
Proof.
  intros y (_ & _ & Y). revert Y. replace ((x5 ^ 3 - 3 * x5 + P256b) mod P256p) with ((- y5 ^ 2) mod P256p) by (vm_compute; reflexivity).
  apply (no_root P256p y _ ((P256p - 1) / 2) prime_P256p); [vm_compute; reflexivity| | |reflexivity].
  - exists ((P256p - 3) / 4). vm_compute. reflexivity.
  - intros D. apply Z.mod_divide in D; [|discriminate]. apply (f_equal (Z.eqb 0)) in D. revert D. vm_compute. discriminate.
Qed.
Lemma pk5_val : Z.of_N (be_val pk5) = x5. Proof. vm_compute. reflexivity. Qed.
Local Close Scope Z_scope.
Theorem C59_small_order_refuted : is_bytes pk5 /\ lenN pk5 = 32 /\ (forall y, ~ on_p256 (Z.of_N (be_val pk5)) y) /\
  forall scalar umul sk, multiplies scalar umul -> 32 <= lenN sk ->
    tc_p256_derive umul sk pk5 =
    match (scalar sk mod 5)%nat with
    | 0%nat => Err unexpected_result_from_ext_lib
    | 1%nat | 4%nat => Ok (be_enc 32 (Z.to_N x5))
    | _ => Ok (be_enc 32 (Z.to_N x5'))
    end.
Proof.
  assert (HB : is_bytes pk5) by apply be_enc_bytes. assert (HL : lenN pk5 = 32) by (vm_compute; reflexivity).
  assert (HN : forall y, ~ on_p256 (Z.of_N (be_val pk5)) y) by (rewrite pk5_val; exact not_x5).
  split; [exact HB|]. split; [exact HL|]. split; [exact HN|]. intros scalar umul sk HM Ls.
  destruct (C59_off_curve_refuted pk5 HB HL ltac:(rewrite pk5_val; reflexivity) HN) as (y & By & _ & Sy & D).
  rewrite (D scalar umul sk HM Ls). rewrite pk5_val in Sy |- *. unfold secret_of.
  replace ((- (x5 ^ 3 - 3 * x5 + P256b)) mod P256p)%Z with (y5 ^ 2 mod P256p)%Z in Sy by (vm_compute; reflexivity).
  replace (pt_x (pt_mul (scalar sk) (Aff x5 y))) with (pt_x (pt_mul (scalar sk) (Aff x5 y5))).
  2:{ destruct (two_roots _ _ _ prime_P256p Sy By ltac:(split; [discriminate|reflexivity])) as [-> |[S|[_ S]]]; [reflexivity| |discriminate S].
      replace (Aff x5 y) with (pt_neg (Aff x5 y5)); [rewrite mul_neg; [symmetry; apply neg_x|split; [discriminate|reflexivity]]|].
      cbn [pt_neg]. f_equal. replace (- y5)%Z with (y + (-1) * P256p)%Z by lia. rewrite Z_mod_plus_full. now apply Z.mod_small. }
  rewrite secrets_5. assert (scalar sk mod 5 < 5)%nat by (apply Nat.mod_upper_bound; discriminate).
  destruct (scalar sk mod 5)%nat as [|[|[|[|[|n]]]]]; [reflexivity..|lia].
Qed.
Print Assumptions C59_small_order_refuted.

(** A library as assumed exists: the scalar is the private key as a big endian number. *)
Definition ref_scalar (sk : bytes) : nat := N.to_nat (be_val sk).
Definition ref_umul (pub sk : bytes) : option bytes :=
  secret_of (ref_scalar sk) (Z.of_N (be_val (takeN 32 pub))) (Z.of_N (be_val (dropN 32 pub))).
Lemma ref_multiplies : multiplies ref_scalar ref_umul.
Proof.
  intros x y sk Hx Hy. unfold ref_umul.
  assert (B : forall z, (0 <= z < P256p)%Z -> Z.of_N (be_val (be_enc 32 (Z.to_N z))) = z).
  { intros z Hz. rewrite be_val_enc; [lia|]. assert (P256p < 2 ^ 256)%Z by reflexivity.
    change (256 ^ N.of_nat 32) with (2 ^ 256). lia. }
  assert (L : lenN (be_enc 32 (Z.to_N x)) = 32) by apply be_enc_lenN.
  set (ex := be_enc 32 (Z.to_N x)) in *.
  replace (takeN 32 (ex ++ be_enc 32 (Z.to_N y))) with ex by (rewrite <- L; symmetry; apply takeN_app).
  replace (dropN 32 (ex ++ be_enc 32 (Z.to_N y))) with (be_enc 32 (Z.to_N y)) by (rewrite <- L; symmetry; apply dropN_app). unfold ex. now rewrite (B x Hx), (B y Hy).
Qed.
(** the generator is a key that meets the hypotheses, and so is the key of order 5 *)
Example C59_ex_generator : on_p256 (Z.of_N (be_val gx_bytes)) gy /\ is_bytes gx_bytes /\ lenN gx_bytes = 32 /\
  tc_p256_derive ref_umul (repeat 0 31 ++ [1]) gx_bytes = Ok gx_bytes /\
  tc_p256_derive ref_umul (repeat 0 31 ++ [7]) pk5 = Ok (be_enc 32 (Z.to_N x5')).
Proof.
  assert (G : on_p256 (Z.of_N (be_val gx_bytes)) gy) by (replace (Z.of_N (be_val gx_bytes)) with gx by (vm_compute; reflexivity); exact g_on_curve).
  split; [exact G|]. split; [apply be_enc_bytes|]. split; [reflexivity|]. split.
  - rewrite (C59_secret ref_scalar ref_umul _ _ gy ref_multiplies); [reflexivity|apply be_enc_bytes|reflexivity|discriminate|exact G].
  - destruct C59_small_order_refuted as (_ & _ & _ & D). rewrite (D ref_scalar ref_umul _ ref_multiplies); [reflexivity|discriminate].
Qed.
