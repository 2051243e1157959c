From Verif Require Import Base Proof_Base Model_Crypto Spec_Hkdf.

Section P.
Variable cr : crypto.
Hypothesis Hlen : forall k m, lenN (cr_hmac cr k m) = 32.
Variables prk info : bytes.

Let T := hkdf_T (cr_hmac cr) prk info.
Let stream := hkdf_stream (cr_hmac cr) prk info.

Lemma T_len i : (0 < i)%nat -> lenN (T i) = 32.
Proof. destruct i; [lia|]. intros _. apply Hlen. Qed.

Lemma stream_S n : stream (S n) = stream n ++ T (S n).
Proof.
  unfold stream, hkdf_stream. rewrite seq_S, map_app, concat_app. cbn [map concat].
  rewrite app_nil_r. reflexivity.
Qed.

Lemma stream_len n : lenN (stream n) = 32 * N.of_nat n.
Proof.
  induction n as [|n IH]; [reflexivity|]. rewrite stream_S, lenN_app, IH, T_len by lia. lia.
Qed.

(** State of the loop before round [i]: [j = i-1] rounds done. *)
Lemma loop_ok wrap outl iters : 
  iters = (outl + 31) / 32 -> iters <= 255 ->
  (forall x, x <= iters -> wrap (x + 1) = x + 1) ->
  forall fuel j, N.of_nat j <= iters -> (N.to_nat iters - j < fuel)%nat ->
  hkdf_expand_loop cr wrap fuel prk info outl iters (N.of_nat j + 1) (T j) (takeN outl (stream j))
  = Ok (takeN outl (stream (N.to_nat iters))).
Proof.
  intros Hit Hle Hwrap fuel. induction fuel as [|fuel IH]; intros j Hj Hf; [lia|].
  cbn [hkdf_expand_loop].
  destruct (N.ltb_spec iters (N.of_nat j + 1)) as [Hd|Hd].
  - replace (N.to_nat iters) with j by lia. reflexivity.
  - destruct (N.eqb_spec (N.of_nat j + 1) 0); [lia|].
    assert (HT : cr_hmac cr prk ((if 1 <? N.of_nat j + 1 then T j else []) ++ info ++ [u8 (N.of_nat j + 1)]) = T (S j)).
    { unfold T. cbn [hkdf_T]. f_equal.
      replace (N.of_nat (S j)) with (N.of_nat j + 1) by lia.
      destruct j as [|j]; [reflexivity|].
      destruct (N.ltb_spec 1 (N.of_nat (S j) + 1)); [reflexivity|lia]. }
    rewrite HT. clear HT.
    pose proof (stream_len j) as HSj. pose proof (T_len (S j) ltac:(lia)) as HTj.
    assert (Hprev : takeN outl (stream j) = stream j) by (apply takeN_all; lia).
    set (blk := if outl <? (N.of_nat j + 1) * 32 then takeN (outl mod 32) (T (S j)) else takeN 32 (T (S j))).
    assert (Hblk : takeN outl (stream (S j)) = stream j ++ blk).
    { rewrite stream_S. unfold takeN at 1. rewrite firstn_app.
      rewrite firstn_all2 by (unfold lenN in HSj; lia). f_equal.
      unfold blk. destruct (N.ltb_spec outl ((N.of_nat j + 1) * 32)) as [Hs|Hs].
      - unfold takeN. f_equal. unfold lenN in HSj. lia.
      - unfold takeN. rewrite !firstn_all2; [reflexivity| |]; unfold lenN in HSj, HTj; lia. }
    assert (Hbl : lenN blk <= outl - N.of_nat j * 32).
    { unfold blk. destruct (N.ltb_spec outl ((N.of_nat j + 1) * 32)) as [Hs|Hs];
        rewrite lenN_takeN, HTj; lia. }
    destruct (N.ltb_spec outl ((N.of_nat j + 1 - 1) * 32 + lenN blk)); [lia|].
    rewrite Hwrap by lia.
    replace (N.of_nat j + 1 + 1) with (N.of_nat (S j) + 1) by lia.
    rewrite Hprev, <- Hblk. apply IH; lia.
Qed.
End P.

Lemma expand_tc_correct cr prk info outl :
  (forall k m, lenN (cr_hmac cr k m) = 32) -> outl <= 254 * 32 ->
  hkdf_expand_tc cr prk info outl = Ok (hkdf_okm (cr_hmac cr) prk info outl).
Proof.
  intros Hlen Ho. unfold hkdf_expand_tc.
  replace (u32 (outl + 31)) with (outl + 31) by (unfold u32; rewrite N.mod_small; lia).
  destruct (N.ltb_spec 255 ((outl + 31) / 32)); [lia|].
  pose proof (loop_ok cr Hlen prk info u8 outl _ eq_refl ltac:(lia)) as HL.
  specialize (HL ltac:(unfold u8; intros; rewrite N.mod_small; lia) 300%nat O ltac:(lia) ltac:(lia)).
  replace (takeN outl (hkdf_stream (cr_hmac cr) prk info 0)) with (@nil N) in HL
    by (symmetry; apply takeN_all; apply N.le_0_l).
  exact HL.
Qed.

Lemma expand_psa_correct cr cap prk info outl :
  (forall k m, lenN (cr_hmac cr k m) = 32) -> outl <= 255 * 32 -> lenN info <= cap ->
  hkdf_expand_psa cr cap prk info outl = Ok (hkdf_okm (cr_hmac cr) prk info outl).
Proof.
  intros Hlen Ho Hc. unfold hkdf_expand_psa.
  replace (u32 (outl + 31)) with (outl + 31) by (unfold u32; rewrite N.mod_small; lia).
  destruct (N.ltb_spec 255 ((outl + 31) / 32)); [lia|].
  destruct (N.ltb_spec cap (lenN info)); [lia|].
  pose proof (loop_ok cr Hlen prk info u32 outl _ eq_refl ltac:(lia)) as HL.
  specialize (HL ltac:(unfold u32; intros; rewrite N.mod_small; lia) 300%nat O ltac:(lia) ltac:(lia)).
  replace (takeN outl (hkdf_stream (cr_hmac cr) prk info 0)) with (@nil N) in HL
    by (symmetry; apply takeN_all; apply N.le_0_l).
  exact HL.
Qed.

Lemma okm_len hmac prk info outl :
  (forall k m, lenN (hmac k m) = 32) -> lenN (hkdf_okm hmac prk info outl) = outl.
Proof.
  intros Hlen. unfold hkdf_okm. rewrite lenN_takeN.
  pose (cr := {| cr_hmac := hmac; cr_hash := fun x => x; cr_aead_enc := fun _ _ _ _ _ => None;
    cr_aead_dec := fun _ _ _ _ _ => None; cr_dh := fun _ _ _ => None; cr_pub := fun _ x => x;
    cr_sign := fun _ _ _ _ => None; cr_verify := fun _ _ _ _ => None |}).
  pose proof (stream_len cr Hlen prk info (N.to_nat ((outl + 31) / 32))) as HS.
  cbn [cr_hmac cr] in HS. unfold cr in HS. cbn [cr_hmac] in HS. rewrite HS. lia.
Qed.

Lemma expand_too_long cr prk info outl cap :
  255 * 32 < outl -> outl < 2 ^ 32 - 31 ->
  hkdf_expand_tc cr prk info outl = Err hkdf_failed /\
  hkdf_expand_psa cr cap prk info outl = Err hkdf_failed.
Proof.
  intros Ho Hb. unfold hkdf_expand_tc, hkdf_expand_psa.
  replace (u32 (outl + 31)) with (outl + 31) by (unfold u32; rewrite N.mod_small; lia).
  destruct (N.ltb_spec 255 ((outl + 31) / 32)); [auto|lia].
Qed.

(** Rounds 255 and 0 of the TinyCrypt loop. *)
Lemma loop_tc_wraps cr (Hlen : forall k m, lenN (cr_hmac cr k m) = 32) prk info outl :
  254 * 32 < outl <= 255 * 32 ->
  forall fuel j, (j <= 255)%nat -> (255 - j + 1 < fuel)%nat ->
  hkdf_expand_loop cr u8 fuel prk info outl 255 (u8 (N.of_nat j + 1))
    (hkdf_T (cr_hmac cr) prk info j)
    (takeN outl (hkdf_stream (cr_hmac cr) prk info j)) = UB OobWrite.
Proof.
  intros Ho fuel. induction fuel as [|fuel IH]; intros j Hj Hf; [lia|].
  cbn [hkdf_expand_loop].
  destruct (N.ltb_spec 255 (u8 (N.of_nat j + 1))) as [Hd|Hd]; [unfold u8 in Hd; lia|].
  destruct (N.eqb_spec (u8 (N.of_nat j + 1)) 0) as [|Hn0]; [reflexivity|].
  assert (Hj' : (j < 255)%nat).
  { destruct (Nat.eqb_spec j 255) as [->|]; [exfalso; apply Hn0; reflexivity|lia]. }
  assert (Hu : u8 (N.of_nat j + 1) = N.of_nat j + 1) by (unfold u8; rewrite N.mod_small; lia).
  rewrite Hu.
  assert (HT : cr_hmac cr prk ((if 1 <? N.of_nat j + 1 then hkdf_T (cr_hmac cr) prk info j else []) ++ info ++ [u8 (N.of_nat j + 1)]) = hkdf_T (cr_hmac cr) prk info (S j)).
  { cbn [hkdf_T]. f_equal.
    replace (N.of_nat (S j)) with (N.of_nat j + 1) by lia.
    destruct j as [|j]; [reflexivity|].
    destruct (N.ltb_spec 1 (N.of_nat (S j) + 1)); [reflexivity|lia]. }
  rewrite HT. clear HT.
  pose proof (stream_len cr Hlen prk info j) as HSj.
  pose proof (T_len cr Hlen prk info (S j) ltac:(lia)) as HTj.
  match goal with |- (if outl <? ?a then UB OobWrite else _) = _ => destruct (N.ltb_spec outl a); [reflexivity|] end.
  match goal with |- context [takeN outl ?s ++ ?b] => 
    replace (takeN outl s ++ b) with (takeN outl (hkdf_stream (cr_hmac cr) prk info (S j))) end.
  - replace (N.of_nat j + 1 + 1) with (N.of_nat (S j) + 1) by lia. apply IH; lia.
  - rewrite stream_S. rewrite (takeN_all (hkdf_stream _ _ _ j)) by lia.
    unfold takeN at 1. rewrite firstn_app, firstn_all2 by (unfold lenN in HSj; lia). f_equal.
    destruct (N.ltb_spec outl ((N.of_nat j + 1) * 32)) as [Hs|Hs].
    + unfold takeN. f_equal. unfold lenN in HSj. lia.
    + unfold takeN. rewrite !firstn_all2; [reflexivity| |]; unfold lenN in HSj, HTj; lia.
Qed.

Lemma expand_tc_ub cr prk info outl :
  (forall k m, lenN (cr_hmac cr k m) = 32) -> 254 * 32 < outl <= 255 * 32 ->
  hkdf_expand_tc cr prk info outl = UB OobWrite.
Proof.
  intros Hlen Ho. unfold hkdf_expand_tc.
  replace (u32 (outl + 31)) with (outl + 31) by (unfold u32; rewrite N.mod_small; lia).
  replace ((outl + 31) / 32) with 255 by lia.
  change (255 <? 255) with false. cbn iota.
  pose proof (loop_tc_wraps cr Hlen prk info outl Ho 300%nat 0%nat ltac:(lia) ltac:(lia)) as HL.
  replace (takeN outl (hkdf_stream (cr_hmac cr) prk info 0)) with (@nil N) in HL
    by (symmetry; apply takeN_all; apply N.le_0_l).
  exact HL.
Qed.
