From Verif Require Import Base Proof_Base Model_Cbor.

Lemma be_val_app a b : be_val (a ++ b) = be_val a * 256 ^ lenN b + be_val b.
Proof.
  unfold be_val. rewrite fold_left_app. generalize (fold_left (fun x y => x * 256 + y) a 0).
  intros s. revert s. induction b as [|x b IH]; intros s; cbn [fold_left].
  - rewrite lenN_nil, N.pow_0_r. lia.
  - rewrite (IH (s * 256 + x)), (IH (0 * 256 + x)), lenN_cons, N.pow_add_r, N.pow_1_r. lia.
Qed.

Lemma be_val_snoc a x : be_val (a ++ [x]) = be_val a * 256 + x.
Proof. unfold be_val. rewrite fold_left_app. reflexivity. Qed.

Lemma be_val_cons x l : be_val (x :: l) = x * 256 ^ lenN l + be_val l.
Proof. change (x :: l) with ([x] ++ l). rewrite be_val_app. f_equal. Qed.

Lemma be_val_bound l : is_bytes l -> be_val l < 256 ^ lenN l.
Proof.
  induction l as [|x l IH]; intros H; [cbn; lia|].
  inversion H as [|? ? Hx Hl]; subst. specialize (IH Hl). unfold is_byte in Hx.
  rewrite be_val_cons, lenN_cons, N.pow_add_r, N.pow_1_r.
  set (p := 256 ^ lenN l) in *. nia.
Qed.

Lemma be_enc_len k : forall v, length (be_enc k v) = k.
Proof.
  induction k as [|k IH]; intros v; [reflexivity|]. cbn [be_enc].
  rewrite app_length, IH. cbn. lia.
Qed.

Lemma be_enc_lenN k v : lenN (be_enc k v) = N.of_nat k.
Proof. unfold lenN. rewrite be_enc_len. reflexivity. Qed.

Lemma be_enc_bytes k : forall v, is_bytes (be_enc k v).
Proof.
  induction k as [|k IH]; intros v; [constructor|]. cbn [be_enc].
  apply is_bytes_app. split; [apply IH|]. constructor; [|constructor].
  unfold is_byte. apply N.mod_lt. lia.
Qed.

Lemma be_val_enc k : forall v, v < 256 ^ N.of_nat k -> be_val (be_enc k v) = v.
Proof.
  induction k as [|k IH]; intros v Hv.
  - cbn in Hv. cbn. lia.
  - cbn [be_enc]. rewrite be_val_snoc, IH.
    + pose proof (N.div_mod v 256). lia.
    + rewrite Nnat.Nat2N.inj_succ, N.pow_succ_r' in Hv.
      apply N.div_lt_upper_bound; lia.
Qed.

Lemma be_val_inj a b :
  is_bytes a -> is_bytes b -> lenN a = lenN b -> be_val a = be_val b -> a = b.
Proof.
  revert b. induction a as [|x a IH]; intros [|y b] Ha Hb Hl Hv; try reflexivity;
    rewrite ?lenN_cons, ?lenN_nil in Hl; try lia.
  inversion Ha as [|? ? Hx Ha']; inversion Hb as [|? ? Hy Hb']; subst.
  rewrite !be_val_cons in Hv.
  assert (Hl' : lenN a = lenN b) by lia. rewrite <- Hl' in Hv.
  pose proof (be_val_bound a Ha') as Ba. pose proof (be_val_bound b Hb') as Bb.
  rewrite <- Hl' in Bb. set (p := 256 ^ lenN a) in *.
  assert (x = y) by nia. subst y. f_equal. apply IH; try assumption. lia.
Qed.

Lemma be_enc_val l : is_bytes l -> be_enc (length l) (be_val l) = l.
Proof.
  intros H. apply be_val_inj.
  - apply be_enc_bytes.
  - exact H.
  - rewrite be_enc_lenN. reflexivity.
  - apply be_val_enc. apply be_val_bound. exact H.
Qed.

Lemma dec_arg_enc k v r :
  v < 256 ^ N.of_nat k -> dec_arg (N.of_nat k) (be_enc k v ++ r) = Some (v, r).
Proof.
  intros Hv. unfold dec_arg. rewrite lenN_app, be_enc_lenN.
  destruct (N.leb_spec (N.of_nat k) (N.of_nat k + lenN r)); [|lia].
  rewrite <- (be_enc_lenN k v) at 1 2. rewrite takeN_app, dropN_app, be_val_enc by assumption.
  reflexivity.
Qed.

Lemma head_split mt ai : ai < 32 -> (mt * 32 + ai) / 32 = mt /\ (mt * 32 + ai) mod 32 = ai.
Proof. intros H. split; lia. Qed.

Lemma dec_enc_head mt v r : v < 2 ^ 64 -> dec_head (enc_head mt v ++ r) = Some (mt, v, r).
Proof.
  intros Hv. unfold enc_head.
  destruct (N.ltb_spec v 24) as [H1|H1]; [|
  destruct (N.ltb_spec v (2 ^ 8)) as [H2|H2]; [|
  destruct (N.ltb_spec v (2 ^ 16)) as [H3|H3]; [|
  destruct (N.ltb_spec v (2 ^ 32)) as [H4|H4]]]]; cbn [app]; unfold dec_head.
  - destruct (head_split mt v ltac:(lia)) as [-> ->].
    destruct (N.ltb_spec v 24); [reflexivity|lia].
  - destruct (head_split mt 24 ltac:(lia)) as [-> ->].
    change (24 <? 24) with false. cbn iota. change (1 =? 0) with false. cbn iota.
    rewrite (dec_arg_enc 1) by exact H2. reflexivity.
  - destruct (head_split mt 25 ltac:(lia)) as [-> ->].
    change (25 <? 24) with false. cbn iota. change (2 =? 0) with false. cbn iota.
    rewrite (dec_arg_enc 2) by exact H3. reflexivity.
  - destruct (head_split mt 26 ltac:(lia)) as [-> ->].
    change (26 <? 24) with false. cbn iota. change (4 =? 0) with false. cbn iota.
    rewrite (dec_arg_enc 4) by exact H4. reflexivity.
  - destruct (head_split mt 27 ltac:(lia)) as [-> ->].
    change (27 <? 24) with false. cbn iota. change (8 =? 0) with false. cbn iota.
    rewrite (dec_arg_enc 8) by exact Hv. reflexivity.
Qed.

Lemma enc_head_inj mt v r mt' v' r' :
  v < 2 ^ 64 -> v' < 2 ^ 64 -> enc_head mt v ++ r = enc_head mt' v' ++ r' ->
  mt = mt' /\ v = v' /\ r = r'.
Proof.
  intros Hv Hv' H. apply (f_equal dec_head) in H.
  rewrite !dec_enc_head in H by assumption. injection H. auto.
Qed.

Lemma dec_enc_bstr b r : lenN b < 2 ^ 64 -> dec_bstr (enc_bstr b ++ r) = Some (b, r).
Proof.
  intros Hb. unfold dec_bstr, enc_bstr. rewrite <- app_assoc, dec_enc_head by assumption.
  rewrite lenN_app. destruct (N.leb_spec (lenN b) (lenN b + lenN r)); [|lia].
  rewrite takeN_app, dropN_app. reflexivity.
Qed.

Lemma dec_enc_tstr b r : lenN b < 2 ^ 64 -> dec_tstr (enc_tstr b ++ r) = Some (b, r).
Proof.
  intros Hb. unfold dec_tstr, enc_tstr. rewrite <- app_assoc, dec_enc_head by assumption.
  rewrite lenN_app. destruct (N.leb_spec (lenN b) (lenN b + lenN r)); [|lia].
  rewrite takeN_app, dropN_app. reflexivity.
Qed.

Lemma dec_enc_uint v r : v < 2 ^ 32 -> dec_uint (enc_uint v ++ r) = Some (v, r).
Proof.
  intros Hv. unfold dec_uint, enc_uint. rewrite dec_enc_head by lia.
  destruct (N.ltb_spec v (2 ^ 32)); [reflexivity|lia].
Qed.

Definition is_int32 (z : Z) : Prop := (- 2 ^ 31 <= z < 2 ^ 31)%Z.

Lemma dec_enc_int z r : is_int32 z -> dec_int (enc_int z ++ r) = Some (z, r).
Proof.
  unfold is_int32. intros Hz. unfold dec_int, enc_int.
  destruct (Z.leb_spec 0 z); rewrite dec_enc_head by lia.
  - destruct (N.ltb_spec (Z.to_N z) (2 ^ 31)); [|lia]. do 2 f_equal. lia.
  - destruct (N.ltb_spec (Z.to_N (-1 - z)) (2 ^ 31)); [|lia]. do 2 f_equal. lia.
Qed.

Lemma enc_bstr_inj b r b' r' :
  lenN b < 2 ^ 64 -> lenN b' < 2 ^ 64 -> enc_bstr b ++ r = enc_bstr b' ++ r' -> b = b' /\ r = r'.
Proof.
  intros Hb Hb' H. apply (f_equal dec_bstr) in H. rewrite !dec_enc_bstr in H by assumption.
  injection H. auto.
Qed.

Lemma enc_tstr_inj b r b' r' :
  lenN b < 2 ^ 64 -> lenN b' < 2 ^ 64 -> enc_tstr b ++ r = enc_tstr b' ++ r' -> b = b' /\ r = r'.
Proof.
  intros Hb Hb' H. apply (f_equal dec_tstr) in H. rewrite !dec_enc_tstr in H by assumption.
  injection H. auto.
Qed.

Lemma enc_int_inj z r z' r' :
  is_int32 z -> is_int32 z' -> enc_int z ++ r = enc_int z' ++ r' -> z = z' /\ r = r'.
Proof.
  intros Hz Hz' H. apply (f_equal dec_int) in H. rewrite !dec_enc_int in H by assumption.
  injection H. auto.
Qed.

Lemma enc_uint_inj z r z' r' :
  z < 2 ^ 32 -> z' < 2 ^ 32 -> enc_uint z ++ r = enc_uint z' ++ r' -> z = z' /\ r = r'.
Proof.
  intros Hz Hz' H. apply (f_equal dec_uint) in H. rewrite !dec_enc_uint in H by assumption.
  injection H. auto.
Qed.

Definition head_len (v : N) : N :=
  if v <? 24 then 1 else if v <? 2 ^ 8 then 2 else if v <? 2 ^ 16 then 3
  else if v <? 2 ^ 32 then 5 else 9.

Lemma enc_head_len mt v : lenN (enc_head mt v) = head_len v.
Proof.
  unfold enc_head, head_len.
  destruct (v <? 24); [reflexivity|].
  destruct (v <? 2 ^ 8); [rewrite lenN_cons, be_enc_lenN; reflexivity|].
  destruct (v <? 2 ^ 16); [rewrite lenN_cons, be_enc_lenN; reflexivity|].
  destruct (v <? 2 ^ 32); rewrite lenN_cons, be_enc_lenN; reflexivity.
Qed.

Lemma enc_head_bytes mt v : mt < 8 -> is_bytes (enc_head mt v).
Proof.
  intros Hm. unfold enc_head, is_bytes.
  destruct (N.ltb_spec v 24); [constructor; [unfold is_byte; lia|constructor]|].
  destruct (v <? 2 ^ 8); [constructor; [unfold is_byte; lia|apply be_enc_bytes]|].
  destruct (v <? 2 ^ 16); [constructor; [unfold is_byte; lia|apply be_enc_bytes]|].
  destruct (v <? 2 ^ 32); (constructor; [unfold is_byte; lia|apply be_enc_bytes]).
Qed.

Lemma enc_bstr_len b : lenN (enc_bstr b) = head_len (lenN b) + lenN b.
Proof. unfold enc_bstr. rewrite lenN_app, enc_head_len. reflexivity. Qed.

Lemma enc_bstr_bytes b : is_bytes b -> is_bytes (enc_bstr b).
Proof. intros H. apply is_bytes_app. split; [apply enc_head_bytes; lia|exact H]. Qed.

Lemma cbor_put_ok cap b b' : cbor_put cap b = Ok b' <-> b' = b /\ lenN b <= cap.
Proof.
  unfold cbor_put. destruct (N.leb_spec (lenN b) cap); split; intros H'.
  - injection H' as <-. auto.
  - destruct H' as [-> _]. reflexivity.
  - discriminate.
  - lia.
Qed.
