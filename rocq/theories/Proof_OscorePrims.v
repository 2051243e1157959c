From Verif Require Import Base Proof_Base Model_Common Model_Cbor Proof_Cbor Model_Crypto
  Model_OscorePrims Spec_OscorePrims Spec_Hkdf Proof_Hkdf.

(** ** bounded copies *)
Lemma memcpy_s_ok d dl s n r :
  memcpy_s (Some d) dl (Some s) n = Ok r -> dl <= lenN d -> n <= lenN s ->
  n <= lenN d /\ r = Some (takeN n s ++ dropN n d).
Proof.
  unfold memcpy_s, check_buffer_size. intros H Hd Hs.
  destruct (N.eqb_spec n 0) as [->|Hn].
  - injection H as <-. rewrite takeN_0, dropN_0. split; [lia|reflexivity].
  - destruct (N.ltb_spec dl n); cbn [bind] in H; [discriminate|].
    destruct (N.ltb_spec (lenN s) n); [discriminate|].
    destruct (N.ltb_spec (lenN d) n); [discriminate|].
    injection H as <-. split; [lia|reflexivity].
Qed.

Lemma memcpy_s_no_ub d dl s n :
  match d with Some d' => dl <= lenN d' | None => True end ->
  match s with Some s' => n <= lenN s' | None => True end ->
  is_ub (memcpy_s d dl s n) = false.
Proof.
  intros Hd Hs. unfold memcpy_s, check_buffer_size.
  destruct (N.eqb_spec n 0); [reflexivity|].
  destruct d as [d|], s as [s|]; try reflexivity.
  destruct (N.ltb_spec dl n); [reflexivity|]. cbn [bind].
  destruct (N.ltb_spec (lenN s) n); [lia|].
  destruct (N.ltb_spec (lenN d) n); [lia|]. reflexivity.
Qed.

Lemma memcpy_s_exact d dl s n :
  dl <= lenN d -> n <= lenN s ->
  memcpy_s (Some d) dl (Some s) n =
    if n =? 0 then Ok (Some d) else if n <=? dl then Ok (Some (takeN n s ++ dropN n d)) else Err buffer_to_small.
Proof.
  intros Hd Hs. unfold memcpy_s, check_buffer_size.
  destruct (N.eqb_spec n 0); [reflexivity|].
  destruct (N.ltb_spec dl n); cbn [bind].
  - destruct (N.leb_spec n dl); [lia|reflexivity].
  - destruct (N.leb_spec n dl); [|lia].
    destruct (N.ltb_spec (lenN s) n); [lia|].
    destruct (N.ltb_spec (lenN d) n); [lia|]. reflexivity.
Qed.

Lemma append_exact d dl s n cap :
  lenN d = cap -> cap < 2 ^ 32 -> dl <= cap -> n = lenN s -> n < 2 ^ 32 ->
  byte_array_append d dl (Some s) n cap =
    if dl + n <=? cap then Ok (takeN dl d ++ s ++ dropN (dl + n) d, dl + n)
    else Err buffer_to_small.
Proof.
  intros Hd Hc Hdl Hn Hn32. unfold byte_array_append.
  assert (Hsub : sub32 cap dl = cap - dl).
  { unfold sub32. replace (cap + 2 ^ 32 - dl) with (cap - dl + 1 * 2 ^ 32) by lia.
    rewrite N.mod_add by lia. apply N.mod_small. lia. }
  rewrite Hsub, memcpy_s_exact by (rewrite ?lenN_dropN; lia).
  destruct (N.ltb_spec cap (u32 (n + dl))) as [H1|H1].
  { destruct (N.leb_spec (dl + n) cap); [|reflexivity].
    unfold u32 in H1. rewrite N.mod_small in H1 by lia. lia. }
  destruct (N.ltb_spec (lenN d) dl); [lia|].
  destruct (N.eqb_spec n 0) as [E0|E0].
  - cbn [bind]. destruct (N.leb_spec (dl + n) cap); [|lia].
    assert (s = []) by (apply lenN_0; lia). subst s.
    rewrite E0, N.add_0_r. cbn [app]. unfold u32. rewrite N.mod_small by lia. reflexivity.
  - destruct (N.leb_spec n (cap - dl)); cbn [bind].
    + destruct (N.leb_spec (dl + n) cap); [|lia].
      rewrite (takeN_all s n) by lia. rewrite dropN_dropN.
      unfold u32. rewrite N.mod_small by lia. reflexivity.
    + destruct (N.leb_spec (dl + n) cap); [lia|reflexivity].
Qed.

Lemma array_equals_eq a b : array_equals a b = true <-> a = b.
Proof.
  unfold array_equals. destruct (N.eqb_spec (lenN a) (lenN b)) as [E|E]; cbn [negb].
  - unfold lenN in E. assert (E' : length a = length b) by lia. clear E.
    revert b E'. induction a as [|x a IH]; intros [|y b] E'; try discriminate; [cbn; tauto|].
    cbn [combine forallb fst snd]. rewrite andb_true_iff, N.eqb_eq, IH by (injection E'; auto).
    split; [intros [-> ->]; reflexivity|intros H; injection H; auto].
  - split; [discriminate|intros ->; lia].
Qed.

(** ** Partial IV *)
Fixpoint le_val (l : bytes) : N :=
  match l with [] => 0 | b :: t => b + 256 * le_val t end.

Lemma be_val_rev l : be_val (rev l) = le_val l.
Proof.
  induction l as [|x l IH]; [reflexivity|]. cbn [rev le_val].
  rewrite be_val_snoc, IH. lia.
Qed.

Lemma ssn_digits_ok room : forall n, n < 256 ^ N.of_nat room ->
  exists l, ssn_digits room n = Ok l /\ le_val l = n /\ is_bytes l /\ (length l <= room)%nat /\
            (l <> [] -> last l 0 <> 0) /\ (l = [] <-> n = 0).
Proof.
  induction room as [|room IH]; intros n Hn.
  - change (256 ^ N.of_nat 0) with 1 in Hn. exists []. assert (n = 0) by lia. subst.
    repeat split; try constructor; congruence.
  - cbn [ssn_digits]. destruct (N.ltb_spec 0 n) as [Hp|Hp].
    + rewrite Nnat.Nat2N.inj_succ, N.pow_succ_r' in Hn.
      destruct (IH (n / 256)) as (l & El & Hv & Hb & Hl & Hlast & Hnil).
      { apply N.div_lt_upper_bound; lia. }
      rewrite El. cbn [bind]. exists (u8 n :: l). repeat split.
      * cbn [le_val]. rewrite Hv. unfold u8. pose proof (N.div_mod n 256). lia.
      * constructor; [unfold is_byte, u8; apply N.mod_lt; lia|exact Hb].
      * cbn [length]. lia.
      * intros _. destruct l as [|y l]; [|].
        -- cbn [last]. pose proof (proj1 Hnil eq_refl) as H0. unfold u8. lia.
        -- change (last (u8 n :: y :: l) 0) with (last (y :: l) 0). apply Hlast. discriminate.
      * discriminate.
      * lia.
    + exists []. assert (n = 0) by lia. subst. repeat split; try constructor; try congruence. cbn. lia.
Qed.

Lemma last_rev_nth (l : bytes) : l <> [] -> nth 0 (rev l) 0 = last l 0.
Proof.
  intros H. destruct (exists_last H) as (l' & x & ->).
  rewrite rev_app_distr, last_last. reflexivity.
Qed.

Lemma ssn2piv_spec n : n < 2 ^ 40 ->
  exists p, ssn2piv n = Ok p /\ minimal_be n p /\ lenN p <= 5.
Proof.
  intros Hn. unfold ssn2piv, MAX_PIV_FIELD_VALUE.
  destruct (N.ltb_spec (2 ^ 40 - 1) n); [lia|].
  destruct (ssn_digits_ok (N.to_nat MAX_PIV_LEN) n) as (l & -> & Hv & Hb & Hl & Hlast & Hnil).
  { change (N.of_nat (N.to_nat MAX_PIV_LEN)) with 5. lia. }
  change (N.to_nat MAX_PIV_LEN) with 5%nat in Hl. cbn [bind].
  destruct l as [|x l].
  - exists [0]. split; [reflexivity|]. assert (n = 0) by (apply Hnil; reflexivity). subst.
    split; [|apply N.leb_le; reflexivity]. repeat split; [|apply N.leb_le; reflexivity].
    constructor; [unfold is_byte; lia|constructor].
  - exists (rev (x :: l)). split; [reflexivity|]. split.
    + repeat split.
      * apply Forall_rev. exact Hb.
      * rewrite be_val_rev. exact Hv.
      * unfold lenN. rewrite rev_length. cbn [length]. lia.
      * intros H0. exfalso. apply Hlast; [discriminate|].
        rewrite <- last_rev_nth by discriminate. exact H0.
    + unfold lenN. rewrite rev_length. lia.
Qed.

Lemma ssn2piv_ok n p : ssn2piv n = Ok p -> n < 2 ^ 40 /\ minimal_be n p /\ lenN p <= 5.
Proof.
  intros H. destruct (N.lt_ge_cases n (2 ^ 40)) as [Hn|Hn].
  - destruct (ssn2piv_spec n Hn) as (p' & E & Hm & Hl). rewrite E in H. injection H as <-. auto.
  - unfold ssn2piv, MAX_PIV_FIELD_VALUE in H. destruct (N.ltb_spec (2 ^ 40 - 1) n); [discriminate|lia].
Qed.

Lemma ssn2piv_large n : 2 ^ 40 <= n -> ssn2piv n = Err wrong_parameter.
Proof.
  intros H. unfold ssn2piv, MAX_PIV_FIELD_VALUE. destruct (N.ltb_spec (2 ^ 40 - 1) n); [reflexivity|lia].
Qed.

Lemma pow_256_8 k : 2 ^ (8 * k) = 256 ^ k.
Proof. rewrite N.pow_mul_r. reflexivity. Qed.

Lemma piv_sum_spec p : forall acc, is_bytes p -> (lenN p <= 5) -> acc < 2 ^ 63 ->
  acc + be_val p < 2 ^ 63 -> piv_sum p acc = acc + be_val p.
Proof.
  induction p as [|b p IH]; intros acc Hb Hl Ha Hs; cbn [piv_sum].
  - unfold be_val; cbn. lia.
  - inversion Hb as [|? ? Hb1 Hb2]; subst. rewrite be_val_cons in Hs. rewrite lenN_cons in Hl.
    rewrite pow_256_8, be_val_cons.
    assert (Hu : u64 (acc + u64 (b * 256 ^ lenN p)) = acc + b * 256 ^ lenN p).
    { unfold u64. rewrite (N.mod_small (b * _)) by lia. apply N.mod_small. lia. }
    rewrite Hu, IH; try assumption; lia.
Qed.

Lemma be_val_5 p : is_bytes p -> lenN p <= 5 -> be_val p < 2 ^ 40.
Proof.
  intros Hb Hl. pose proof (be_val_bound p Hb) as H.
  eapply N.lt_le_trans; [exact H|]. change (2 ^ 40) with (256 ^ 5).
  apply N.pow_le_mono_r; lia.
Qed.

Lemma piv2ssn_spec p : is_bytes p -> lenN p <= 5 -> piv2ssn p = Ok (be_val p).
Proof.
  intros Hb Hl. unfold piv2ssn, MAX_PIV_LEN. destruct (N.ltb_spec 5 (lenN p)); [lia|].
  pose proof (be_val_5 p Hb Hl). rewrite piv_sum_spec; try assumption; try lia. f_equal.
Qed.

Lemma piv2ssn_long p : 5 < lenN p -> piv2ssn p = Err wrong_parameter.
Proof. intros H. unfold piv2ssn, MAX_PIV_LEN. destruct (N.ltb_spec 5 (lenN p)); [reflexivity|lia]. Qed.

Lemma ssn_piv_round_trip n p : ssn2piv n = Ok p -> piv2ssn p = Ok n.
Proof.
  intros H. apply ssn2piv_ok in H as (Hn & (Hb & Hv & Hl1 & Hmin) & Hl).
  rewrite piv2ssn_spec by assumption. congruence.
Qed.

Lemma minimal_be_unique n p q : minimal_be n p -> minimal_be n q -> p = q.
Proof.
  assert (Hlow : forall p, minimal_be n p -> n <> 0 -> 256 ^ (lenN p - 1) <= n).
  { intros p0 (Hb & Hv & Hl & Hm) Hn. destruct p0 as [|x p0]; [rewrite lenN_nil in Hl; lia|].
    rewrite be_val_cons in Hv. rewrite lenN_cons. replace (1 + lenN p0 - 1) with (lenN p0) by lia.
    assert (x <> 0).
    { intros ->. assert (E : 0 :: p0 = [0]) by (apply Hm; reflexivity). injection E as ->.
      apply Hn. cbn in Hv. lia. }
    nia. }
  intros Hp Hq. destruct (N.eqb_spec n 0) as [->|Hn].
  - assert (Hz : forall p, minimal_be 0 p -> p = [0]).
    { intros p0 (Hb & Hv & Hl & Hm). apply Hm. destruct p0 as [|x p0]; [reflexivity|].
      rewrite be_val_cons in Hv. cbn [nth]. pose proof (N.pow_nonzero 256 (lenN p0)). nia. }
    rewrite (Hz p Hp), (Hz q Hq). reflexivity.
  - pose proof (Hlow p Hp Hn) as Lp. pose proof (Hlow q Hq Hn) as Lq.
    destruct Hp as (Hb & Hv & Hl & Hm), Hq as (Hb' & Hv' & Hl' & Hm').
    pose proof (be_val_bound p Hb) as Up. pose proof (be_val_bound q Hb') as Uq.
    rewrite Hv in Up. rewrite Hv' in Uq.
    apply be_val_inj; try assumption; [|congruence].
    assert (lenN p - 1 < lenN q) by (apply (N.pow_lt_mono_r_iff 256); lia).
    assert (lenN q - 1 < lenN p) by (apply (N.pow_lt_mono_r_iff 256); lia).
    lia.
Qed.

Lemma piv_ssn_round_trip p n : minimal_be n p -> lenN p <= 5 -> piv2ssn p = Ok n /\ ssn2piv n = Ok p.
Proof.
  intros Hm Hl. pose proof Hm as (Hb & Hv & Hl1 & _). split.
  - rewrite piv2ssn_spec by assumption. congruence.
  - pose proof (be_val_5 p Hb Hl). destruct (ssn2piv_spec n ltac:(lia)) as (q & E & Hq & _).
    rewrite E. f_equal. eapply minimal_be_unique; eassumption.
Qed.

Lemma ssn2piv_inj a b p : ssn2piv a = Ok p -> ssn2piv b = Ok p -> a = b.
Proof.
  intros Ha Hb. apply ssn_piv_round_trip in Ha, Hb. congruence.
Qed.

(** ** nonce *)
Lemma xor_into_spec iv : forall n, length iv = length n -> xor_into n iv = Ok (xor_bytes n iv).
Proof.
  induction iv as [|i iv IH]; intros [|x n] H; try discriminate; [reflexivity|].
  cbn [xor_into xor_bytes]. rewrite IH by (injection H; auto). reflexivity.
Qed.

Lemma left_pad_spec n b : lenN b <= n -> left_pad n b = Ok (pad_left (N.to_nat n) b).
Proof.
  intros H. unfold left_pad. destruct (N.ltb_spec n (lenN b)); [lia|].
  unfold pad_left. do 3 f_equal. unfold lenN. lia.
Qed.

Lemma pad_left_len n b : (length b <= n)%nat -> length (pad_left n b) = n.
Proof. intros H. unfold pad_left. rewrite app_length, repeat_length. lia. Qed.

Lemma create_nonce_spec id piv iv :
  lenN id <= 7 -> lenN piv <= 5 -> lenN iv = 13 ->
  create_nonce id piv iv = Ok (rfc_nonce id piv iv).
Proof.
  intros Hi Hp Hv. unfold create_nonce, MAX_PIV_LEN, NONCE_LEN.
  rewrite (left_pad_spec 5) by lia. cbn [bind].
  rewrite (left_pad_spec (13 - 5 - 1)) by lia. cbn [bind].
  unfold rfc_nonce. replace (u8 (lenN id)) with (lenN id) by (unfold u8; rewrite N.mod_small; lia).
  apply xor_into_spec. cbn [length]. rewrite app_length, !pad_left_len; unfold lenN in *; lia.
Qed.

Lemma create_nonce_ub id piv iv : lenN piv <= 5 -> 7 < lenN id -> create_nonce id piv iv = UB OobWrite.
Proof.
  intros Hp Hi. unfold create_nonce, MAX_PIV_LEN, NONCE_LEN.
  rewrite (left_pad_spec 5) by lia. cbn [bind]. unfold left_pad at 1.
  destruct (N.ltb_spec (13 - 5 - 1) (lenN id)); [reflexivity|lia].
Qed.

Lemma xor_bytes_inj iv : forall a b, length a = length iv -> length b = length iv ->
  xor_bytes a iv = xor_bytes b iv -> a = b.
Proof.
  induction iv as [|i iv IH]; intros [|x a] [|y b] Ha Hb H; try discriminate; [reflexivity|].
  cbn [xor_bytes] in H. injection H as H1 H2. f_equal.
  - apply (f_equal (fun z => N.lxor z i)) in H1.
    rewrite !N.lxor_assoc, N.lxor_nilpotent, !N.lxor_0_r in H1. exact H1.
  - apply IH; try assumption; [injection Ha|injection Hb]; auto.
Qed.

Lemma be_val_pad n b : be_val (pad_left n b) = be_val b.
Proof.
  unfold pad_left. rewrite be_val_app.
  replace (be_val (repeat 0 (n - length b))) with 0; [lia|].
  induction (n - length b)%nat as [|k IH]; [reflexivity|]. cbn [repeat].
  rewrite be_val_cons, <- IH. lia.
Qed.

Lemma pad_left_inj n a b : (length a = length b)%nat -> pad_left n a = pad_left n b -> a = b.
Proof.
  unfold pad_left. intros Hl H. rewrite Hl in H. apply app_inv_head in H. exact H.
Qed.

Lemma create_nonce_inj id1 piv1 id2 piv2 iv n :
  lenN iv = 13 ->
  create_nonce id1 piv1 iv = Ok n -> create_nonce id2 piv2 iv = Ok n ->
  id1 = id2 /\ be_val piv1 = be_val piv2.
Proof.
  intros Hv H1 H2.
  assert (HB : forall id piv, create_nonce id piv iv = Ok n -> lenN id <= 7 /\ lenN piv <= 5).
  { intros id piv H. unfold create_nonce, MAX_PIV_LEN, NONCE_LEN, left_pad in H.
    destruct (N.ltb_spec 5 (lenN piv)); cbn [bind] in H; [discriminate|].
    destruct (N.ltb_spec (13 - 5 - 1) (lenN id)); cbn [bind] in H; [discriminate|lia]. }
  destruct (HB _ _ H1) as [Hi1 Hp1]. destruct (HB _ _ H2) as [Hi2 Hp2].
  rewrite create_nonce_spec in H1 by assumption. rewrite create_nonce_spec in H2 by assumption.
  assert (H : rfc_nonce id1 piv1 iv = rfc_nonce id2 piv2 iv) by congruence.
  unfold rfc_nonce in H. apply xor_bytes_inj in H.
  - injection H as Hl Hr. unfold lenN in *. 
    apply app_eq_len in Hr as [Ha Hb]; [|unfold lenN; rewrite !pad_left_len by lia; reflexivity].
    split; [eapply pad_left_inj; [|exact Ha]; lia|].
    rewrite <- (be_val_pad 5 piv1), <- (be_val_pad 5 piv2). congruence.
  - cbn [length]. rewrite app_length, !pad_left_len; unfold lenN in *; lia.
  - cbn [length]. rewrite app_length, !pad_left_len; unfold lenN in *; lia.
Qed.

Lemma create_nonce_len id piv iv n : lenN iv = 13 -> create_nonce id piv iv = Ok n -> lenN n = 13.
Proof.
  intros Hv H. unfold create_nonce, MAX_PIV_LEN, NONCE_LEN, left_pad in H.
  destruct (N.ltb_spec 5 (lenN piv)); cbn [bind] in H; [discriminate|].
  destruct (N.ltb_spec (13 - 5 - 1) (lenN id)); cbn [bind] in H; [discriminate|].
  match type of H with xor_into ?v _ = _ => set (w := v) in H; assert (HL : length w = 13%nat) end.
  { unfold w. cbn [length]. rewrite !app_length, !repeat_length. unfold lenN in *. lia. }
  clearbody w. rewrite xor_into_spec in H by (unfold lenN in *; lia). injection H as <-.
  assert (HX : forall a b, length (xor_bytes a b) = Nat.min (length a) (length b)).
  { induction a as [|x a IH]; intros [|y b]; cbn [xor_bytes length]; try reflexivity.
    rewrite IH. lia. }
  unfold lenN in *. rewrite HX. lia.
Qed.

(** ** AAD *)
Lemma create_aad_inj alg1 kid1 piv1 c1 alg2 kid2 piv2 c2 a :
  is_int32 alg1 -> is_int32 alg2 ->
  lenN kid1 < 2 ^ 32 -> lenN kid2 < 2 ^ 32 -> lenN piv1 < 2 ^ 32 -> lenN piv2 < 2 ^ 32 ->
  create_aad alg1 kid1 piv1 c1 = Ok a -> create_aad alg2 kid2 piv2 c2 = Ok a ->
  alg1 = alg2 /\ kid1 = kid2 /\ piv1 = piv2.
Proof.
  intros Ha1 Ha2 Hk1 Hk2 Hp1 Hp2 H1 H2. unfold create_aad in *.
  apply cbor_put_ok in H1 as [H1 _]. apply cbor_put_ok in H2 as [H2 _].
  rewrite H1 in H2. clear H1.
  do 3 apply app_inv_head in H2.
  apply enc_int_inj in H2 as [E1 H2]; try assumption.
  apply enc_bstr_inj in H2 as [E2 H2]; try lia.
  apply enc_bstr_inj in H2 as [E3 _]; try lia. auto.
Qed.

Lemma enc_structure_inj e1 c1 e2 c2 a :
  lenN e1 < 2 ^ 32 -> lenN e2 < 2 ^ 32 ->
  oscore_enc_structure e1 c1 = Ok a -> oscore_enc_structure e2 c2 = Ok a -> e1 = e2.
Proof.
  intros He1 He2 H1 H2. unfold oscore_enc_structure in *.
  apply cbor_put_ok in H1 as [H1 _]. apply cbor_put_ok in H2 as [H2 _].
  rewrite H1 in H2. clear H1. do 3 apply app_inv_head in H2.
  apply (f_equal (fun x => x ++ [])) in H2.
  apply enc_bstr_inj in H2; try lia. tauto.
Qed.

Lemma create_aad_len alg kid piv cap a : create_aad alg kid piv cap = Ok a -> lenN a <= cap.
Proof.
  unfold create_aad, cbor_put. destruct (N.leb_spec (lenN (enc_list 5 ++ enc_uint 1 ++ enc_list 1 ++
    enc_int alg ++ enc_bstr kid ++ enc_bstr piv ++ enc_bstr [])) cap); [|discriminate].
  intros H'. injection H' as <-. assumption.
Qed.

(** ** HKDF info *)
Lemma hkdf_info_inj id1 ctx1 alg1 t1 c1 id2 ctx2 alg2 t2 c2 a :
  is_int32 alg1 -> is_int32 alg2 ->
  lenN id1 < 2 ^ 32 -> lenN id2 < 2 ^ 32 -> lenN ctx1 < 2 ^ 32 -> lenN ctx2 < 2 ^ 32 ->
  oscore_create_hkdf_info id1 ctx1 alg1 t1 c1 = Ok a ->
  oscore_create_hkdf_info id2 ctx2 alg2 t2 c2 = Ok a ->
  id1 = id2 /\ ctx1 = ctx2 /\ alg1 = alg2 /\ t1 = t2.
Proof.
  intros Ha1 Ha2 Hi1 Hi2 Hx1 Hx2 H1 H2. unfold oscore_create_hkdf_info in *.
  destruct (match t1 with KEY => (str_Key, 16) | IV => (str_IV, 13) end) as [ty1 l1] eqn:E1.
  destruct (match t2 with KEY => (str_Key, 16) | IV => (str_IV, 13) end) as [ty2 l2] eqn:E2.
  apply cbor_put_ok in H1 as [H1 _]. apply cbor_put_ok in H2 as [H2 _].
  rewrite H1 in H2. clear H1. apply app_inv_head in H2.
  apply enc_bstr_inj in H2 as [-> H2]; try lia.
  assert (Hctx : ctx1 = ctx2 /\ enc_int alg1 ++ enc_tstr ty1 ++ enc_uint l1 = enc_int alg2 ++ enc_tstr ty2 ++ enc_uint l2).
  { destruct (N.eqb_spec (lenN ctx1) 0) as [Z1|Z1]; destruct (N.eqb_spec (lenN ctx2) 0) as [Z2|Z2].
    - apply lenN_0 in Z1, Z2. subst. apply app_inv_head in H2. auto.
    - exfalso. unfold enc_bstr, enc_nil in H2. rewrite <- app_assoc in H2.
      apply (f_equal dec_head) in H2. rewrite dec_enc_head in H2 by lia. discriminate.
    - exfalso. unfold enc_bstr, enc_nil in H2. rewrite <- app_assoc in H2.
      apply (f_equal dec_head) in H2. rewrite dec_enc_head in H2 by lia. discriminate.
    - apply enc_bstr_inj in H2; try lia. tauto. }
  destruct Hctx as [-> H3].
  apply enc_int_inj in H3 as [-> H3]; try assumption.
  apply enc_tstr_inj in H3 as [Ht _].
  - repeat split. destruct t1, t2; try reflexivity; injection E1 as <- <-; injection E2 as <- <-; discriminate.
  - destruct t1; injection E1 as <- <-; apply N.ltb_lt; reflexivity.
  - destruct t2; injection E2 as <- <-; apply N.ltb_lt; reflexivity.
Qed.
