From Verif Require Import Base Proof_Base Model_Cbor Proof_Cbor Model_Crypto Model_Toy.

Lemma toy_digest_len l : lenN (toy_digest l) = 32.
Proof. unfold toy_digest. cbn [repeat concat]. rewrite !lenN_app, be_enc_lenN. reflexivity. Qed.
Lemma toy_digest_bytes l : is_bytes (toy_digest l).
Proof. unfold toy_digest. cbn [repeat concat]. rewrite !is_bytes_app. repeat split; try apply be_enc_bytes. constructor. Qed.
Lemma toy_ok : crypto_ok toy_crypto.
Proof.
  assert (S : forall a b : bytes, Some a = Some b -> b = a) by congruence.
  constructor; cbn [toy_crypto cr_hmac cr_hash cr_aead_enc cr_aead_dec cr_dh cr_pub cr_sign cr_verify]; unfold toy_sig.
  - intros. apply toy_digest_len.
  - intros. apply toy_digest_len.
  - unfold toy_enc, toy_dec. intros k n a t p c.
    destruct (forallb _ p); [|discriminate]. intros H. injection H as <-.
    assert (HT : lenN (toy_tag k n a p t) = t) by (unfold toy_tag; rewrite be_enc_lenN; lia).
    rewrite lenN_app, HT. destruct (N.ltb_spec (lenN p + t) t); [lia|].
    replace (lenN p + t - t) with (lenN p) by lia.
    rewrite takeN_app, dropN_app, beqb_refl. reflexivity.
  - unfold toy_enc. intros k n a t p c. destruct (forallb _ p); [|discriminate].
    intros H. injection H as <-. rewrite lenN_app. unfold toy_tag. rewrite be_enc_lenN. lia.
  - unfold toy_dec. intros k n a t p c. destruct (N.ltb_spec (lenN c) t); [discriminate|].
    destruct (beqb _ _); [|discriminate]. intros H'. injection H' as <-. rewrite lenN_takeN. lia.
  - intros. f_equal. f_equal. lia.
  - intros g sk m s H. injection H as <-. rewrite beqb_refl. reflexivity.
  - unfold toy_enc. intros k n a t p c. destruct (forallb _ p) eqn:E; [|discriminate].
    intros H. injection H as <-. apply is_bytes_app. split; [|apply be_enc_bytes].
    apply Forall_forall. rewrite forallb_forall in E. intros x Hx. apply E in Hx.
    unfold is_byte. lia.
  - intros. apply toy_digest_bytes.
  - intros. apply toy_digest_bytes.
  - unfold toy_dec. intros k n a t p c. destruct (lenN c <? t); [discriminate|]. destruct (beqb _ _); [|discriminate].
    intros H. injection H as <-. apply is_bytes_takeN.
  - intros g sk pk m s H. apply S in H. rewrite H, be_enc_lenN. reflexivity.
  - intros g sk pk m s H. apply S in H. rewrite H. apply be_enc_bytes.
  - intros g a b s H. apply S in H. rewrite H, be_enc_lenN. reflexivity.
  - intros g a b s H. apply S in H. rewrite H. apply be_enc_bytes.
Qed.

(** Decision of [is_bytes], for examples. *)
Lemma is_bytes_dec (l : bytes) : forallb (fun b => b <? 256) l = true -> is_bytes l.
Proof.
  intros H. rewrite forallb_forall in H. apply Forall_forall. intros x Hx. apply H in Hx. unfold is_byte. lia.
Qed.
