(** The standard algorithms meet the assumptions on symmetric cryptography. *)
From Verif Require Import Base Proof_Base Model_Cbor Proof_Cbor Model_Crypto Spec_EdhocRun Spec_Standard.

Lemma sha256_len m : lenN (sha256 m) = 32.
Proof. unfold sha256. rewrite !lenN_app, !be_enc_lenN. reflexivity. Qed.
Lemma sha256_bytes m : is_bytes (sha256 m).
Proof. unfold sha256. cbv zeta. rewrite !is_bytes_app. repeat split; apply be_enc_bytes. Qed.

(** ** Blocks *)
Lemma u8_byte x : is_byte (u8 x).
Proof. unfold is_byte, u8. apply N.mod_upper_bound. discriminate. Qed.
Lemma add_block_len a b : length (add_block a b) = 16%nat.
Proof. unfold add_block. rewrite map_length. apply seq_length. Qed.
Lemma add_block_bytes a b : is_bytes (add_block a b).
Proof. unfold add_block. apply Forall_map, Forall_forall. intros i _. apply u8_byte. Qed.
Lemma aes_rounds_form ks : forall s, length s = 16%nat -> is_bytes s -> length (aes_rounds s ks) = 16%nat /\ is_bytes (aes_rounds s ks).
Proof.
  induction ks as [|k r IH]; intros s L B; [split; assumption|]. cbn [aes_rounds].
  destruct r; [split; [apply add_block_len|apply add_block_bytes]|]. apply IH; [apply add_block_len|apply add_block_bytes].
Qed.
Lemma aes_form ks b : length (aes ks b) = 16%nat /\ is_bytes (aes ks b).
Proof. unfold aes. apply aes_rounds_form; [apply add_block_len|apply add_block_bytes]. Qed.
Lemma stream_form ks n m : forall i, length (flat_map (ccm_stream ks n) (seq i m)) = (16 * m)%nat /\ is_bytes (flat_map (ccm_stream ks n) (seq i m)).
Proof.
  induction m as [|m IH]; intros i; [split; [reflexivity|constructor]|]. cbn [seq flat_map]. destruct (IH (S i)) as [L B].
  destruct (aes_form ks (1 :: n ++ be_enc 2 (N.of_nat i))) as [L1 B1]. unfold ccm_stream at 1 3. rewrite app_length, L, L1. split; [lia|].
  apply is_bytes_app. split; assumption.
Qed.

(** ** The xor of two strings *)
Definition xors (a b : bytes) : bytes := map (fun q => N.lxor (fst q) (snd q)) (combine a b).
Lemma xors_len a : forall b, (length a <= length b)%nat -> length (xors a b) = length a.
Proof. intros b L. unfold xors. rewrite map_length, combine_length. lia. Qed.
Lemma xors_twice a : forall b, (length a <= length b)%nat -> xors (xors a b) b = a.
Proof.
  induction a as [|x a IH]; intros [|y b] L; try reflexivity; [cbn in L; lia|]. unfold xors in *. cbn [combine map fst snd].
  rewrite N.lxor_assoc, N.lxor_nilpotent, N.lxor_0_r. f_equal. apply IH. cbn in L. lia.
Qed.
Lemma lxor_byte a b : is_byte a -> is_byte b -> is_byte (N.lxor a b).
Proof.
  unfold is_byte. change 256 with (2 ^ 8). intros A B. destruct (N.eq_dec (N.lxor a b) 0) as [->|NZ]; [reflexivity|].
  apply N.log2_lt_pow2; [lia|]. eapply N.le_lt_trans; [apply N.log2_lxor|].
  apply N.max_lub_lt; (match goal with |- N.log2 ?x < 8 => destruct (N.eq_dec x 0) as [->|?]; [reflexivity|apply N.log2_lt_pow2; lia] end).
Qed.
Lemma xors_bytes a : forall b, is_bytes a -> is_bytes b -> is_bytes (xors a b).
Proof.
  induction a as [|x a IH]; intros [|y b] A B; try constructor; inversion A; inversion B; subst; cbn [fst snd].
  - apply lxor_byte; assumption.
  - apply IH; assumption.
Qed.
Definition stream_for (ks : list bytes) (n p : bytes) : bytes := flat_map (ccm_stream ks n) (seq 1 (N.to_nat (lenN p / 16 + 1))).
Lemma ccm_xor_is ks n p : ccm_xor ks n p = xors p (stream_for ks n p).
Proof. reflexivity. Qed.
Lemma stream_long ks n p : (length p <= length (stream_for ks n p))%nat.
Proof.
  unfold stream_for. rewrite (proj1 (stream_form ks n _ 1)).
  pose proof (N.div_mod' (lenN p) 16) as D. pose proof (N.mod_upper_bound (lenN p) 16 ltac:(discriminate)) as M.
  unfold lenN in *. set (q := N.of_nat (length p) / 16) in *. lia.
Qed.
Lemma ccm_xor_len ks n p : lenN (ccm_xor ks n p) = lenN p.
Proof. rewrite ccm_xor_is. unfold lenN. rewrite xors_len; [reflexivity|apply stream_long]. Qed.
Lemma ccm_xor_twice ks n p : ccm_xor ks n (ccm_xor ks n p) = p.
Proof.
  rewrite (ccm_xor_is ks n (ccm_xor ks n p)). unfold stream_for. rewrite ccm_xor_len. fold (stream_for ks n p). rewrite ccm_xor_is.
  apply xors_twice, stream_long.
Qed.
Lemma ccm_xor_bytes ks n p : is_bytes p -> is_bytes (ccm_xor ks n p).
Proof. intros B. rewrite ccm_xor_is. apply xors_bytes; [exact B|apply stream_form]. Qed.

(** ** CCM *)
Lemma ccm_tag_form ks n a t p : t <= 16 -> lenN (ccm_tag ks n a t p) = t /\ is_bytes (ccm_tag ks n a t p).
Proof.
  intros T. unfold ccm_tag. split; [|apply is_bytes_takeN, add_block_bytes].
  rewrite lenN_takeN. unfold lenN. rewrite add_block_len. lia.
Qed.
Lemma ccm_args_true k n t p : ccm_args k n t p = true <->
  lenN k = 16 /\ lenN n = 13 /\ 4 <= t /\ t <= 16 /\ N.even t = true /\ lenN p < 65536 /\ is_bytes p.
Proof.
  unfold ccm_args. rewrite !andb_true_iff, !N.eqb_eq, !N.leb_le, N.ltb_lt. unfold is_bytes. rewrite forallb_forall, Forall_forall.
  assert ((forall x, In x p -> (x <? 256) = true) <-> (forall x, In x p -> is_byte x)) as ->
    by (split; intros H x I; specialize (H x I); [apply N.ltb_lt in H|apply N.ltb_lt]; exact H).
  tauto.
Qed.
Lemma enc_inv k n a t p c : ccm_encrypt k n a t p = Some c ->
  ccm_args k n t p = true /\ c = ccm_xor (expand_key k) n p ++ ccm_tag (expand_key k) n a t p.
Proof. unfold ccm_encrypt. destruct (ccm_args k n t p); [|discriminate]. intros [= <-]. auto. Qed.
Lemma dec_inv k n a t c p : ccm_decrypt k n a t c = Some p ->
  t <= lenN c /\ p = ccm_xor (expand_key k) n (takeN (lenN c - t) c) /\ ccm_args k n t p = true /\
  dropN (lenN c - t) c = ccm_tag (expand_key k) n a t p.
Proof.
  unfold ccm_decrypt. destruct (N.ltb_spec (lenN c) t); [discriminate|]. cbv zeta.
  destruct (ccm_args _ _ _ _ && beqb _ _) eqn:E; [|discriminate]. intros [= <-]. apply andb_prop in E as [E1 E2]. apply beqb_eq in E2. auto.
Qed.

Lemma ccm_inverse k n a t p c : ccm_encrypt k n a t p = Some c -> ccm_decrypt k n a t c = Some p.
Proof.
  intros H. apply enc_inv in H as [A ->]. pose proof A as A'. apply ccm_args_true in A' as (_ & _ & _ & T & _).
  destruct (ccm_tag_form (expand_key k) n a t p T) as [L _]. unfold ccm_decrypt. cbv zeta.
  rewrite lenN_app, L. destruct (N.ltb_spec (lenN (ccm_xor (expand_key k) n p) + t) t); [lia|]. rewrite N.add_sub, takeN_app, dropN_app, ccm_xor_twice, A, beqb_refl. reflexivity.
Qed.
Lemma ccm_enc_len k n a t p c : ccm_encrypt k n a t p = Some c -> lenN c = lenN p + t.
Proof.
  intros H. apply enc_inv in H as [A ->]. apply ccm_args_true in A as (_ & _ & _ & T & _).
  rewrite lenN_app, ccm_xor_len, (proj1 (ccm_tag_form _ n a t p T)). reflexivity.
Qed.
Lemma ccm_dec_len k n a t p c : ccm_decrypt k n a t c = Some p -> lenN c = lenN p + t.
Proof. intros H. apply dec_inv in H as (L & -> & _). rewrite ccm_xor_len, lenN_takeN. lia. Qed.
(** Nothing is accepted that was not made by encryption with the same arguments. *)
Lemma ccm_only k n a t c p : ccm_decrypt k n a t c = Some p -> ccm_encrypt k n a t p = Some c.
Proof.
  intros H. apply dec_inv in H as (L & E & A & D). unfold ccm_encrypt. rewrite A. cbv zeta. f_equal. rewrite <- D, E, ccm_xor_twice.
  unfold takeN, dropN. apply firstn_skipn.
Qed.

Lemma standard_ok cr : asymmetric_ok cr -> crypto_ok (standard cr).
Proof.
  intros [A1 A2 A3 A4]. constructor; cbn [standard cr_hmac cr_hash cr_aead_enc cr_aead_dec cr_dh cr_pub cr_sign cr_verify].
  - intros. apply sha256_len.
  - apply sha256_len.
  - apply ccm_inverse.
  - apply ccm_enc_len.
  - apply ccm_dec_len.
  - exact A1.
  - exact A2.
  - intros k n a t p c H. apply enc_inv in H as [A ->]. apply ccm_args_true in A as (_ & _ & _ & T & _ & _ & B).
    apply is_bytes_app. split; [apply ccm_xor_bytes, B|apply ccm_tag_form, T].
  - intros. apply sha256_bytes.
  - apply sha256_bytes.
  - intros k n a t p c H B. apply dec_inv in H as (_ & _ & A & _). apply ccm_args_true in A. tauto.
  - intros g sk pk m s H. apply (A3 g sk pk m s H).
  - intros g sk pk m s H. apply (A3 g sk pk m s H).
  - intros g a b s H. apply (A4 g a b s H).
  - intros g a b s H. apply (A4 g a b s H).
Qed.
Lemma standard_total cr : aead_total (standard cr).
Proof.
  intros k n a t p K N T P B. cbn [standard cr_aead_enc]. unfold ccm_encrypt.
  assert (ccm_args k n t p = true) as ->; [|discriminate].
  apply ccm_args_true. destruct T as [-> | ->]; repeat split; try assumption; lia.
Qed.
