(** C50, C51: decompression of P-256 public keys. *)
From Coq Require Import ZArith Znumtheory Zpow_facts.
From Verif Require Import Base Model_Cbor Proof_Cbor Model_P256 Spec_P256 Proof_Prime Proof_P256 Proof_P256Dh.

(** eight 32-bit words, of any contents *)
Definition words (j : list N) : Prop := Forall (fun w => w < 2 ^ 32) j /\ length j = 8%nat.

Lemma Some_inj {A} (a b : A) : Some a = Some b -> a = b. Proof. congruence. Qed.
Local Opaque root be_enc.

(** ** C50: a key is accepted if and only if it is the x-coordinate of a point *)
Theorem C50_accepts : forall mi j1 j2 j3 input osize, words j1 -> words j2 -> words j3 -> is_bytes input ->
  (exists out, uncompress_point mi j1 j2 j3 input osize = Some out) <->
  lenN input = 32 /\ 65 <= osize /\ exists y, on_p256 (Z.of_N (be_val input)) y.
Proof.
  intros mi j1 j2 j3 input osize [H1 L1] [H2 L2] [H3 L3] Hi.
  destruct (N.eq_dec (lenN input) 32) as [Li|Li].
  2:{ unfold uncompress_point. destruct (N.eqb_spec (lenN input) 32) as [E|_]; [contradiction|].
      split; [intros [? E]; discriminate E|intros [E _]; contradiction]. }
  destruct (N.le_gt_cases 65 osize) as [Ho|Ho].
  2:{ unfold uncompress_point. rewrite Li, N.eqb_refl. destruct (N.ltb_spec osize 65) as [_|E]; [|lia].
      split; [intros [? E]; discriminate E|intros (_ & E & _); lia]. }
  assert (Li' : length input = 32%nat) by (unfold lenN in Li; lia).
  rewrite (uncompress_ok mi j1 j2 j3 input osize H1 L1 H2 L2 H3 L3 Hi Li' Ho).
  set (x := Z.of_N (be_val input)). assert (0 <= x)%Z by (unfold x; lia).
  destruct (Z.ltb_spec x P256p) as [Qx|Qx].
  2:{ cbn [andb]. split; [intros [? E]; discriminate E|]. intros (_ & _ & y & (_ & E) & _). lia. }
  destruct (Z.eqb_spec (root x ^ 2 mod P256p) (rhs x mod P256p)) as [Q|Q]; cbn [andb].
  - split; [|eauto]. intros _. split; [exact Li|]. split; [exact Ho|]. exists (root x).
    split; [lia|]. split; [apply root_bound|exact Q].
  - split; [intros [? E]; discriminate E|]. intros (_ & _ & y & _ & _ & E). exfalso. apply Q. now apply (root_complete x y).
Qed.
Print Assumptions C50_accepts.

(** what is output is the uncompressed encoding of a point with that x-coordinate; of
    the two y, the one that is itself a square *)
Theorem C50_output : forall mi j1 j2 j3 input osize out, words j1 -> words j2 -> words j3 -> is_bytes input ->
  uncompress_point mi j1 j2 j3 input osize = Some out ->
  exists y, on_p256 (Z.of_N (be_val input)) y /\ out = 4 :: input ++ be_enc 32 (Z.to_N y) /\
    exists w, y = (w ^ 2 mod P256p)%Z.
Proof.
  intros mi j1 j2 j3 input osize out [H1 L1] [H2 L2] [H3 L3] Hi E.
  destruct (proj1 (C50_accepts mi j1 j2 j3 input osize (conj H1 L1) (conj H2 L2) (conj H3 L3) Hi) (ex_intro _ out E)) as (Li & Ho & y & Y).
  assert (Li' : length input = 32%nat) by (unfold lenN in Li; lia).
  rewrite (uncompress_ok mi j1 j2 j3 input osize H1 L1 H2 L2 H3 L3 Hi Li' Ho) in E.
  set (x := Z.of_N (be_val input)) in *. destruct (Z.ltb_spec x P256p) as [Qx|Qx]; [|discriminate E].
  destruct (Z.eqb_spec (root x ^ 2 mod P256p) (rhs x mod P256p)) as [Q|Q]; cbn [andb] in E; [|discriminate E].
  apply Some_inj in E. rewrite <- E. clear E. exists (root x). split; [split; [apply Y|split; [apply root_bound|exact Q]]|]. split; [reflexivity|].
  destruct Y as (_ & _ & Y). now apply (root_square x y).
Qed.
Print Assumptions C50_output.

(** The result depends neither on what the uninitialised arrays hold nor on which of the
    four multiplications is compiled in. *)
Theorem C50_deterministic : forall mi mi' j1 j2 j3 k1 k2 k3 input osize,
  words j1 -> words j2 -> words j3 -> words k1 -> words k2 -> words k3 -> is_bytes input ->
  uncompress_point mi j1 j2 j3 input osize = uncompress_point mi' k1 k2 k3 input osize.
Proof.
  intros mi mi' j1 j2 j3 k1 k2 k3 input osize [H1 L1] [H2 L2] [H3 L3] [H4 L4] [H5 L5] [H6 L6] Hi.
  destruct (N.eq_dec (lenN input) 32) as [Li|Li].
  2:{ unfold uncompress_point. destruct (N.eqb_spec (lenN input) 32) as [E|_]; [contradiction|reflexivity]. }
  destruct (N.le_gt_cases 65 osize) as [Ho|Ho].
  2:{ unfold uncompress_point. rewrite Li, N.eqb_refl. destruct (N.ltb_spec osize 65) as [_|E]; [reflexivity|lia]. }
  assert (Li' : length input = 32%nat) by (unfold lenN in Li; lia).
  rewrite (uncompress_ok mi j1 j2 j3 input osize H1 L1 H2 L2 H3 L3 Hi Li' Ho).
  rewrite (uncompress_ok mi' k1 k2 k3 input osize H4 L4 H5 L5 H6 L6 Hi Li' Ho). reflexivity.
Qed.
Print Assumptions C50_deterministic.

(** The generator of the curve, and 1, which is no x-coordinate *)
Definition gx : Z := 0x6B17D1F2E12C4247F8BCE6E563A440F277037D812DEB33A0F4A13945D898C296.
Definition gy : Z := 0x4FE342E2FE1A7F9B8EE7EB4A7C0F9E162BCE33576B315ECECBB6406837BF51F5.
Definition w8 (w : N) : list N := repeat w 8.
Lemma w8_words w : w < 2 ^ 32 -> words (w8 w).
Proof. intros H. split; [|reflexivity]. unfold w8. repeat (constructor; [exact H|]). constructor. Qed.
Lemma g_on_curve : on_p256 gx gy.
Proof. split; [split; [discriminate|reflexivity]|]. split; [split; [discriminate|reflexivity]|]. vm_compute. reflexivity. Qed.
Definition gx_bytes : bytes := be_enc 32 (Z.to_N gx).
Example C50_ex_generator : exists out, uncompress_point MulThumb (w8 0xDEADBEEF) (w8 7) (w8 0) gx_bytes 65 = Some out.
Proof.
  apply C50_accepts; try (apply w8_words; reflexivity); [apply be_enc_bytes|]. split; [reflexivity|]. split; [lia|].
  exists gy. replace (Z.of_N (be_val gx_bytes)) with gx by (vm_compute; reflexivity). exact g_on_curve.
Qed.
Example C50_ex_too_large : uncompress_point MulC (w8 0xDEADBEEF) (w8 7) (w8 0) (repeat 255 32) 65 = None.
Proof. vm_compute. reflexivity. Qed.
Lemma sq_mult k P : ((k * P) ^ 2 = k * k * P * P)%Z. Proof. ring. Qed.
(* -1 is not a square when (P - 1) / 2 is odd *)
Lemma no_root P y w h : prime P -> (2 * h = P - 1)%Z -> Z.Odd h -> ~ (P | w)%Z -> (2 < P)%Z -> (y ^ 2 mod P <> (- w ^ 2) mod P)%Z.
Proof.
  intros HP HH OD W P2 E. assert (NZ : P <> 0%Z) by lia.
  assert (D : ~ (P | y)%Z).
  { intros D. apply W. apply Z.mod_divide in D; [|exact NZ]. rewrite Zpower_mod, D in E by lia. rewrite Z.pow_0_l, Zmod_0_l in E by lia.
    symmetry in E. apply Z.mod_divide in E; [|exact NZ]. apply (proj1 (Z.divide_opp_r _ _)) in E. rewrite Z.pow_2_r in E.
    apply prime_mult in E as [?|?]; assumption. }
  pose proof (fermat _ _ HP D) as F. pose proof (fermat _ _ HP W) as G. rewrite <- HH in F, G.
  rewrite Z.pow_mul_r, Zpower_mod, E, <- Zpower_mod, Z.pow_opp_odd, <- Z.pow_mul_r in F by (assumption || lia).
  assert (Q : ((- w ^ (2 * h)) mod P = (- 1) mod P)%Z).
  { rewrite <- (Z.sub_0_l (w ^ _)), Zminus_mod, G. replace (-1)%Z with (0 - 1)%Z by lia. rewrite (Zminus_mod 0 1). now rewrite (Z.mod_small 1) by lia. }
  rewrite F in Q. assert ((P | 2)%Z) as Dv.
  { apply Z.mod_divide; [exact NZ|]. replace 2%Z with (1 - -1)%Z by lia. rewrite Zminus_mod, <- Q. rewrite (Z.mod_small 1) by lia. apply Zmod_0_l. }
  apply Z.divide_pos_le in Dv; lia.
Qed.
Example C50_ex_no_point : uncompress_point MulC64 (w8 0xDEADBEEF) (w8 7) (w8 0) (be_enc 32 1) 65 = None.
Proof.
  destruct (uncompress_point MulC64 _ _ _ _ _) as [out|] eqn:E; [exfalso|reflexivity].
  destruct (proj1 (C50_accepts MulC64 (w8 0xDEADBEEF) (w8 7) (w8 0) (be_enc 32 1) 65 (w8_words 0xDEADBEEF eq_refl) (w8_words 7 eq_refl)
    (w8_words 0 eq_refl) (be_enc_bytes _ _)) (ex_intro _ out E)) as (_ & _ & y & _ & _ & Y).
  change (Z.of_N (be_val (be_enc 32 1))) with 1%Z in Y.
  revert Y. replace ((1 ^ 3 - 3 * 1 + P256b) mod P256p)%Z
    with ((- 0xde17b2671045fe58740248c17a8bd2fb2ef7c3c49b01da9f903efa3dcda669c7 ^ 2) mod P256p)%Z by (vm_compute; reflexivity).
  apply (no_root P256p y _ ((P256p - 1) / 2)%Z prime_P256p); [vm_compute; reflexivity| | |reflexivity].
  - exists ((P256p - 3) / 4)%Z. vm_compute. reflexivity.
  - intros D. apply Z.mod_divide in D; [|discriminate]. apply (f_equal (Z.eqb 0)) in D. revert D. vm_compute. discriminate.
Qed.

(** ** C51: the peer's y-coordinate is not needed *)
(** Only the x-coordinate of a public key is exchanged. The Diffie-Hellman secret computed
    with the point that decompression finds is the one computed with the peer's point. *)
Theorem C51_secret : forall mi j1 j2 j3 input osize y k, words j1 -> words j2 -> words j3 -> is_bytes input ->
  lenN input = 32 -> 65 <= osize -> on_p256 (Z.of_N (be_val input)) y ->
  exists y', uncompress_point mi j1 j2 j3 input osize = Some (4 :: input ++ be_enc 32 (Z.to_N y')) /\
    (0 <= y' < P256p)%Z /\
    pt_x (pt_mul k (Aff (Z.of_N (be_val input)) y')) = pt_x (pt_mul k (Aff (Z.of_N (be_val input)) y)).
Proof.
  intros mi j1 j2 j3 input osize y k H1 H2 H3 Hi Li Ho Y.
  destruct (proj2 (C50_accepts mi j1 j2 j3 input osize H1 H2 H3 Hi)) as [out E]; [eauto|].
  destruct (C50_output mi j1 j2 j3 input osize out H1 H2 H3 Hi E) as (y' & Y' & -> & _).
  exists y'. split; [exact E|]. split; [apply Y'|]. now apply same_x.
Qed.
Print Assumptions C51_secret.
(** the double of the generator, with either y *)
Example C51_ex_double :
  pt_x (pt_mul 2 (Aff gx gy)) = Some 0x7CF27B188D034F7E8A52380304B51AC3C08969E277F21B35A60B48FC47669978%Z /\
  pt_x (pt_mul 2 (Aff gx (P256p - gy))) = pt_x (pt_mul 2 (Aff gx gy)).
Proof.
  split.
  - cbn [pt_mul pt_add]. rewrite Z.eqb_refl. replace ((gy + gy) mod P256p =? 0)%Z with false by (vm_compute; reflexivity).
    assert (EI : inv_p (2 * gy) = 0x7d13d1ed160030c54147c66b2e0d48cf7fe33dfb45a6dd82dded53bae22ea01a%Z).
    { apply inv_unique; [split; [discriminate|reflexivity]|vm_compute; reflexivity]. }
    rewrite EI. vm_compute. reflexivity.
  - apply same_x; [exact g_on_curve|].
    destruct g_on_curve as (Hx & Hy & E). split; [exact Hx|]. split; [split; vm_compute; congruence|]. vm_compute. reflexivity.
Qed.
