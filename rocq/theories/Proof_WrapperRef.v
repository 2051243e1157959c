(** The functions of crypto_wrapper.c compute the operations of Model_Crypto.v *)
From Coq Require Import ZArith.
From Verif Require Import Base Proof_Base Model_Cbor Proof_Cbor Model_Crypto Model_EdhocCfg Model_P256 Spec_P256 Proof_P256Dh Prop_P256 Spec_Uecc
  Model_Wrapper Spec_Wrapper.

Definition has (id : N) (k : slot) (s : psa) : Prop := lookup id (keys s) = Some k.
Definition uses (s s1 : psa) : Prop := incl (faults s1) (faults s).
Lemma right_uses {A} s s1 (r E : res A) : uses s s1 -> right s1 r E -> right s r E.
Proof. intros U [H|[H R]]; [now left|right]. split; [now apply U|exact R]. Qed.
Lemma fault_spec s : let (b, s1) := fault s in uses s s1 /\ keys s1 = keys s /\ (b = true -> In true (faults s)).
Proof.
  unfold fault. destruct (faults s) as [|b l] eqn:F; [split; [apply incl_refl|split; [reflexivity|discriminate]]|].
  unfold uses. cbn [faults keys]. rewrite F. split; [apply incl_tl, incl_refl|]. split; [reflexivity|]. intros ->. now left.
Qed.
Lemma right_init {B} s (k : unit -> psa -> res B * psa) E :
  (forall u s1, uses s s1 -> right s1 (fst (k u s1)) E) -> right s (fst (try_psa (psa_crypto_init s) 0 unexpected_result_from_ext_lib k)) E.
Proof.
  intros HK. unfold psa_crypto_init. pose proof (fault_spec s) as F. destruct (fault s) as [b s1]. destruct F as (U & _ & T). destruct b; cbn [try_psa].
  - right. split; [now apply T|reflexivity].
  - apply (right_uses s s1); [exact U|]. now apply HK.
Qed.
Section Pr.
Variable pr : prims.
Lemma right_import {B} a data s (k : N -> psa -> res B * psa) E :
  (key_ok pr a data = false -> E = Err unexpected_result_from_ext_lib) ->
  (forall id s1, key_ok pr a data = true -> uses s s1 -> (1 <= next s -> id =? 0 = false) -> has id {| k_attr := a; k_data := data |} s1 -> right s1 (fst (k id s1)) E) ->
  right s (fst (try_import pr a data s k)) E.
Proof.
  intros HE HK. unfold try_import, psa_import_key. pose proof (fault_spec s) as F.
  assert (NX : next (snd (fault s)) = next s) by (unfold fault; now destruct (faults s)).
  destruct (fault s) as [b s1]. cbn [snd] in NX. destruct F as (U & _ & T). destruct b; cbn [try_psa].
  - right. split; [now apply T|reflexivity].
  - destruct (key_ok pr a data); cbn [try_psa]; [|left; now rewrite HE].
    match goal with |- right s (fst (k ?i ?s2)) E => set (s9 := s2); set (i9 := i) end.
    apply (right_uses s s9); [exact U|]. apply HK; [reflexivity|exact U| |].
    + intros P. unfold i9. apply N.eqb_neq. lia.
    + unfold has, s9, i9. cbn [keys lookup fst]. now rewrite N.eqb_refl.
Qed.
Lemma right_op {A B} id u g ty (f : bytes -> option A) s e (k : A -> psa -> res B * psa) a d E :
  has id {| k_attr := a; k_data := d |} s -> has_usage u a && alg_eqb g (a_alg a) && ty (a_type a) = true -> e = unexpected_result_from_ext_lib ->
  (f d = None -> E = Err e) ->
  (forall x s1, f d = Some x -> uses s s1 -> has id {| k_attr := a; k_data := d |} s1 -> right s1 (fst (k x s1)) E) ->
  right s (fst (try_psa (with_key id u g ty f s) id e k)) E.
Proof.
  intros H HU -> HE HK. unfold with_key. pose proof (fault_spec s) as F. destruct (fault s) as [b s1]. destruct F as (U & KS & T). destruct b; cbn [try_psa fst].
  - right. split; [now apply T|reflexivity].
  - unfold has in H. rewrite KS, H. cbn [k_attr k_data]. rewrite HU. destruct (f d) as [x|] eqn:Fd; cbn [try_psa fst]; [|left; now rewrite HE].
    apply (right_uses s s1); [exact U|]. apply HK; [reflexivity|exact U|]. unfold has. now rewrite KS.
Qed.
Lemma right_destroy {B} id s (r E : res B) k : has id k s -> r = E -> right s (fst (try_expect (psa_destroy_key id s) (fun _ s => (r, s)))) E.
Proof.
  intros H ->. unfold psa_destroy_key. pose proof (fault_spec s) as F. destruct (fault s) as [b s1]. destruct F as (U & KS & T).
  unfold has in H. rewrite KS, H. destruct b; cbn [try_expect fst]; [right|now left]. split; [now apply T|reflexivity].
Qed.

Variable scalar : bytes -> nat.
Hypothesis PO : prims_ok pr scalar.
Lemma aead_key key t : key_ok pr (aead_attr (lenN key) t) key = aes_len key.
Proof. unfold key_ok, aead_attr, aes_len. cbn [a_bits a_type]. now rewrite N.eqb_refl, orb_true_r. Qed.
Lemma attr_ok u g ty a : has_usage u a = true -> alg_eqb g (a_alg a) = true -> ty (a_type a) = true -> has_usage u a && alg_eqb g (a_alg a) && ty (a_type a) = true.
Proof. now intros -> -> ->. Qed.
Lemma encrypt_right inp key nonce aad t s : right s (fst (w_encrypt pr inp key nonce aad t s))
  (ext (option_map (fun c => (c, dropN (lenN inp) c)) (cr_aead_enc (mbed_crypto pr) key nonce aad t inp))).
Proof.
  unfold w_encrypt. apply right_init. intros _ s1 _. cbn [cr_aead_enc mbed_crypto]. apply right_import; rewrite aead_key.
  { now intros ->. }
  intros id s2 -> U _ H. eapply right_op; [exact H|apply attr_ok; [reflexivity|apply N.eqb_refl|reflexivity]|reflexivity| |].
  - destruct (pr_ccm_enc pr key nonce aad t inp) as [c|] eqn:C; [|reflexivity]. apply (pok_ccm pr scalar PO) in C as (_ & L & _).
    rewrite L, N.ltb_irrefl. discriminate.
  - intros c s3 Hc _ H3. destruct (pr_ccm_enc pr key nonce aad t inp) as [c'|] eqn:C; [|discriminate Hc]. apply (pok_ccm pr scalar PO) in C as (_ & L & _).
    rewrite L, N.ltb_irrefl in Hc. injection Hc as ->. eapply right_destroy; [exact H3|]. cbn [option_map ext].
    replace (lenN c - t) with (lenN inp) by lia. rewrite takeN_all; [reflexivity|]. rewrite lenN_dropN. lia.
Qed.
Lemma decrypt_right inp key nonce aad t o s : lenN inp <= o + t -> right s (fst (w_decrypt pr inp key nonce aad t o s))
  (ext (cr_aead_dec (mbed_crypto pr) key nonce aad t inp)).
Proof.
  intros HO. unfold w_decrypt. apply right_init. intros _ s1 _. cbn [cr_aead_dec mbed_crypto]. apply right_import; rewrite aead_key.
  { now intros ->. }
  intros id s2 -> U _ H. eapply right_op; [exact H|apply attr_ok; [reflexivity|apply N.eqb_refl|reflexivity]|reflexivity| |].
  - destruct (pr_ccm_dec pr key nonce aad t inp) as [c|] eqn:C; [|reflexivity]. apply (pok_ccm_dec pr scalar PO) in C as (L & _).
    destruct (N.ltb_spec o (lenN c)); [lia|discriminate].
  - intros c s3 Hc _ H3. destruct (pr_ccm_dec pr key nonce aad t inp) as [c'|] eqn:C; [|discriminate Hc].
    destruct (o <? lenN c'); [discriminate Hc|]. injection Hc as ->. eapply right_destroy; [eassumption|reflexivity].
Qed.
Lemma sign_right alg sk pk msg s : right s (fst (w_sign pr true alg sk pk msg s)) (ext (cr_sign (mbed_crypto pr) (sign_sel alg) sk pk msg)).
Proof.
  unfold w_sign. destruct alg; [|now left]. apply right_init. intros _ s1 _. change (cr_sign (mbed_crypto pr) (sign_sel ES256) sk pk msg) with (if ec_sk pr sk then pr_ec_sign pr sk msg else None).
  assert (KO : key_ok pr (sign_attr (lenN sk)) sk = ec_sk pr sk).
  { unfold key_ok, sign_attr, ec_sk. cbn [a_bits a_type]. now rewrite N.eqb_refl, orb_true_r. }
  apply right_import; rewrite KO. { now intros ->. }
  intros id s2 -> U _ H. eapply right_op; [exact H|reflexivity|reflexivity| |].
  - destruct (pr_ec_sign pr sk msg) as [c|] eqn:C; [|reflexivity]. apply (pok_ec_sign pr scalar PO) in C as (L & _).
    rewrite L. discriminate.
  - intros c s3 Hc _ H3. destruct (pr_ec_sign pr sk msg) as [c'|] eqn:C; [|discriminate Hc]. apply (pok_ec_sign pr scalar PO) in C as (L & _).
    rewrite L in Hc. change (64 <? 64) with false in Hc. injection Hc as ->. rewrite L. cbn [try_psa N.eqb Pos.eqb]. eapply right_destroy; [eassumption|reflexivity].
Qed.
(** A failure of the library during the verification itself counts as an invalid signature *)
Lemma verify_right alg pk msg sgn s : let r := fst (w_verify pr true alg pk msg sgn s) in
  right s r (ext (cr_verify (mbed_crypto pr) (sign_sel alg) pk msg sgn)) \/ (In true (faults s) /\ r = Ok false).
Proof.
  cbv zeta. destruct alg; [|now left; left]. unfold w_verify, psa_crypto_init. pose proof (fault_spec s) as F. destruct (fault s) as [b s1]. destruct F as (U & _ & T). destruct b; cbn [try_psa].
  { left. right. split; [now apply T|reflexivity]. }
  change (cr_verify (mbed_crypto pr) (sign_sel ES256) pk msg sgn) with (if ec_pk pr pk then Some (pr_ec_verify pr pk msg sgn) else None).
  unfold try_import, psa_import_key. pose proof (fault_spec s1) as F. destruct (fault s1) as [b s2]. destruct F as (U2 & _ & T2). destruct b; cbn [try_psa].
  { left. right. split; [now apply U, T2|reflexivity]. }
  change (key_ok pr verify_attr pk) with (ec_pk pr pk). destruct (ec_pk pr pk); cbn [try_psa]; [|now left; left].
  match goal with |- context [psa_verify_message pr _ _ _ _ ?s] => set (s3 := s) end.
  assert (U3 : uses s s3) by (unfold s3; eapply incl_tran; eassumption).
  assert (H3 : has (next s2) {| k_attr := verify_attr; k_data := pk |} s3) by (unfold has, s3; cbn [keys lookup fst]; now rewrite N.eqb_refl).
  clearbody s3. unfold psa_verify_message, with_key. pose proof (fault_spec s3) as F. destruct (fault s3) as [b s4]. destruct F as (U4 & K4 & T4). destruct b.
  - unfold has in H3. rewrite <- K4 in H3. unfold psa_destroy_key. pose proof (fault_spec s4) as F. destruct (fault s4) as [b s5]. destruct F as (U5 & K5 & T5).
    rewrite K5, H3. destruct b; cbn [try_expect fst].
    + left. right. split; [now apply U3, U4, T5|reflexivity].
    + right. split; [now apply U3, T4|reflexivity].
  - unfold has in H3. rewrite K4, H3. cbn [k_attr k_data]. change (has_usage VerifyMessage verify_attr && alg_eqb EcdsaSha256 (a_alg verify_attr) && is_public (a_type verify_attr)) with true. cbv iota.
    left. apply (right_uses s s4); [eapply incl_tran; eassumption|]. eapply right_destroy; [unfold has; rewrite K4; exact H3|]. now destruct (pr_ec_verify pr pk msg sgn).
Qed.
Lemma hmac_key k : k <> [] -> key_ok pr hmac_attr k = true.
Proof. intros H. unfold key_ok, hmac_attr. cbn [a_bits a_type]. destruct k; [contradiction|]. destruct (N.eqb_spec (lenN (n :: k)) 0) as [E|]; [|reflexivity]. rewrite lenN_cons in E. lia. Qed.
Lemma extract_right salt ikm s : right s (fst (w_hkdf_extract pr salt ikm s)) (Ok (hkdf_extract (mbed_crypto pr) salt ikm)).
Proof.
  unfold w_hkdf_extract, hkdf_extract. cbn [cr_hmac mbed_crypto]. set (k := match salt with [] => repeat 0 32 | _ => salt end).
  assert (K : k <> []) by (unfold k; destruct salt; discriminate). apply right_init. intros _ s1 _. apply right_import; rewrite (hmac_key k K); [discriminate|].
  intros id s2 _ U _ H. eapply right_op; [exact H|reflexivity|reflexivity|discriminate|]. intros x s3 E _ H3. injection E as <-. eapply right_destroy; [eassumption|reflexivity].
Qed.
Lemma iter_bound l : let it := u32 (l + 31) / 32 in l < 2 ^ 32 -> forall i, i <= it -> 1 <= i -> (i - 1) * 32 < l /\ (l <? i * 32 = true -> (i - 1) * 32 + l mod 32 = l).
Proof.
  cbv zeta. intros HL i Hi H1. change (2 ^ 32) with 4294967296 in HL. unfold u32 in Hi.
  assert (M : (l + 31) mod 2 ^ 32 <= l + 31) by (apply N.mod_le; discriminate). change (2 ^ 32) with 4294967296 in *.
  assert (D : 32 * ((l + 31) mod 4294967296 / 32) <= (l + 31) mod 4294967296) by (apply N.mul_div_le; discriminate).
  assert (Q : (i - 1) * 32 < l) by nia. split; [exact Q|]. intros B. apply N.ltb_lt in B.
  assert (l / 32 = i - 1) by (symmetry; apply (N.div_unique l 32 (i - 1) (l - (i - 1) * 32)); lia).
  pose proof (N.div_mod' l 32). nia.
Qed.
Lemma loop_right id prk info l : forall n i t acc s fuel, let it := u32 (l + 31) / 32 in l < 2 ^ 32 -> it <= 255 -> 1 <= i -> N.of_nat n + i = it + 1 -> (n <= fuel)%nat ->
  lenN t = 32 -> has id {| k_attr := hmac_attr; k_data := prk |} s ->
  let E := hkdf_expand_loop (mbed_crypto pr) u32 fuel prk info l it i t acc in
  match w_expand_loop pr n id info l i (if i =? 1 then 32 else 0) t acc s with
  | (Ok out, s1) => E = Ok out /\ uses s s1 /\ has id {| k_attr := hmac_attr; k_data := prk |} s1
  | (r, s1) => In true (faults s) /\ r = Err unexpected_result_from_ext_lib
  end.
Proof.
  cbv zeta. induction n as [|n IH]; intros i t acc s fuel HL IT H1 Hn Hf Lt H; cbn [w_expand_loop].
  - split; [|split; [apply incl_refl|exact H]]. destruct fuel; cbn [hkdf_expand_loop]; (destruct (N.ltb_spec (u32 (l + 31) / 32) i); [reflexivity|lia]).
  - destruct fuel as [|fuel]; [lia|]. cbn [hkdf_expand_loop]. destruct (N.ltb_spec (u32 (l + 31) / 32) i) as [?|Hi]; [lia|].
    destruct (N.eqb_spec i 0) as [?|_]; [lia|]. cbn [cr_hmac mbed_crypto]. cbv zeta.
    assert (DR : dropN (if i =? 1 then 32 else 0) (t ++ info ++ [u8 i]) = (if 1 <? i then t else []) ++ info ++ [u8 i]).
    { destruct (N.eqb_spec i 1) as [-> |Ni].
      - rewrite <- Lt at 1. rewrite dropN_app. reflexivity.
      - destruct (N.ltb_spec 1 i); [|lia]. now rewrite dropN_0. }
    rewrite DR. set (m := (if 1 <? i then t else []) ++ info ++ [u8 i]). unfold psa_mac_compute, with_key.
    pose proof (fault_spec s) as F. destruct (fault s) as [b s1]. destruct F as (U & KS & T). destruct b; cbn [try_psa fst].
    { split; [now apply T|reflexivity]. }
    unfold has in H. rewrite KS, H. cbn [k_attr k_data]. change (has_usage SignMessage hmac_attr && alg_eqb HmacSha256 (a_alg hmac_attr) && is_hmac (a_type hmac_attr)) with true.
    cbv iota. cbn [try_psa]. set (t' := pr_hmac pr prk m). assert (Lt' : lenN t' = 32) by apply (pok_hmac_len pr scalar PO).
    destruct (iter_bound l HL i Hi H1) as [B1 B2].
    set (blk := if l <? i * 32 then takeN (l mod 32) t' else takeN 32 t').
    assert (LB : (l <? (i - 1) * 32 + lenN blk) = false).
    { apply N.ltb_ge. unfold blk. destruct (l <? i * 32) eqn:BB.
      - rewrite lenN_takeN. specialize (B2 eq_refl). lia.
      - apply N.ltb_ge in BB. rewrite lenN_takeN. lia. }
    rewrite LB.
    assert (U1 : u32 (i + 1) = i + 1) by (unfold u32; apply N.mod_small; change (2 ^ 32) with 4294967296; lia). rewrite U1.
    assert (HS1 : has id {| k_attr := hmac_attr; k_data := prk |} s1) by (unfold has; now rewrite KS).
    specialize (IH (i + 1) t' (acc ++ blk) s1 fuel HL IT ltac:(lia) ltac:(lia) ltac:(lia) Lt' HS1).
    destruct (N.eqb_spec (i + 1) 1) as [?|_]; [lia|].
    destruct (w_expand_loop pr n id info l (i + 1) 0 t' (acc ++ blk) s1) as [[out|e|u] s2].
    + destruct IH as (E & U2 & H2). split; [exact E|]. split; [eapply incl_tran; eassumption|exact H2].
    + destruct IH as (E & ->). split; [now apply U|reflexivity].
    + destruct IH as (_ & E). discriminate E.
Qed.
Lemma loop_t cr w fuel prk info l it acc : forall t t', hkdf_expand_loop cr w fuel prk info l it 1 t acc = hkdf_expand_loop cr w fuel prk info l it 1 t' acc.
Proof. intros t t'. destruct fuel; reflexivity. Qed.
Lemma expand_right cap prk info l s : prk <> [] -> l < 2 ^ 32 -> right s (fst (w_hkdf_expand pr cap prk info l s)) (hkdf_expand_psa (mbed_crypto pr) cap prk info l).
Proof.
  intros HP HL. unfold w_hkdf_expand, hkdf_expand_psa. cbv zeta. destruct (N.ltb_spec 255 (u32 (l + 31) / 32)) as [?|IT]; [now left|].
  apply right_init. intros _ s1 _. apply right_import; rewrite (hmac_key prk HP); [discriminate|]. intros id s2 _ U _ H.
  replace (cap + 33 <? 32 + lenN info + 1) with (cap <? lenN info) by (destruct (N.ltb_spec cap (lenN info)), (N.ltb_spec (cap + 33) (32 + lenN info + 1)); lia || reflexivity).
  destruct (cap <? lenN info); cbn [try_psa fst]; [now left|].
  pose proof (loop_right id prk info l (N.to_nat (u32 (l + 31) / 32)) 1 (repeat 0 32) [] s2 300 HL IT ltac:(lia) ltac:(lia) ltac:(lia) eq_refl H) as Q.
  cbn [N.eqb Pos.eqb] in Q. destruct (w_expand_loop _ _ _ _ _ _ _ _ _ _) as [[out|e|u] s3].
  - destruct Q as (E & U3 & H3). apply (right_uses s2 s3); [exact U3|]. eapply right_destroy; [exact H3|]. rewrite <- E. apply loop_t.
  - destruct Q as (E & ->). right. now split.
  - destruct Q as (_ & E). discriminate E.
Qed.
Lemma hash_right m s : right s (fst (w_hash pr m s)) (Ok (cr_hash (mbed_crypto pr) m)).
Proof.
  unfold w_hash, psa_hash_compute. pose proof (fault_spec s) as F. destruct (fault s) as [b s1]. destruct F as (U & KS & T). destruct b; cbn [try_expect fst].
  - right. split; [now apply T|reflexivity].
  - rewrite (pok_hash_len pr scalar PO). now left.
Qed.
Lemma derive_right mi j1 j2 j3 sk pk s : words j1 -> words j2 -> words j3 -> is_bytes pk -> 1 <= next s ->
  right s (fst (w_derive pr true mi j1 j2 j3 P256 sk pk s)) (ext (cr_dh (mbed_crypto pr) 1 sk pk)).
Proof.
  intros W1 W2 W3 HB NX. unfold w_derive. change (cr_dh (mbed_crypto pr) 1 sk pk) with (if ec_sk pr sk then match point_of pk with Some pt => if pr_ec_pk_ok pr pt then pr_ec_agree pr sk pt else None | None => None end else None).
  assert (Z : words (repeat 0 8)) by (split; [repeat constructor|reflexivity]).
  rewrite (C50_deterministic mi MulC j1 j2 j3 _ _ _ pk 65 W1 W2 W3 Z Z Z HB). fold (point_of pk).
  unfold psa_crypto_init. pose proof (fault_spec s) as F. assert (NX1 : next (snd (fault s)) = next s) by (unfold fault; now destruct (faults s)).
  destruct (fault s) as [b s1]. cbn [snd] in NX1. destruct F as (U & _ & T). destruct b; cbn [try_psa].
  { right. split; [now apply T|reflexivity]. }
  apply (right_uses s s1); [exact U|]. change (key_ok pr dh_attr sk) with (ec_sk pr sk).
  apply right_import; change (key_ok pr dh_attr sk) with (ec_sk pr sk). { now intros ->. }
  intros id s2 SK U2 I0 H. rewrite SK. rewrite (I0 ltac:(lia)).
  assert (D : forall r E s3, uses s2 s3 -> has id {| k_attr := dh_attr; k_data := sk |} s3 -> r = E \/ (In true (faults s2) /\ r = Err unexpected_result_from_ext_lib) ->
    right s2 (fst (try_expect (psa_destroy_key id s3) (fun _ s => (r, s)))) (E : res bytes)).
  { intros r E s3 U3 H3 [-> |[T3 ->]].
    - apply (right_uses s2 s3); [exact U3|]. eapply right_destroy; [eassumption|reflexivity].
    - right. split; [exact T3|]. destruct (psa_destroy_key id s3) as [[u|] s4]; reflexivity. }
  destruct (point_of pk) as [pt|]; [|apply D; [apply incl_refl|exact H|now left]].
  unfold psa_raw_key_agreement, with_key. pose proof (fault_spec s2) as F. destruct (fault s2) as [b s3]. destruct F as (U3 & K3 & T3).
  assert (H3 : has id {| k_attr := dh_attr; k_data := sk |} s3) by (unfold has in *; now rewrite K3).
  destruct b. { apply D; [exact U3|exact H3|right]. split; [now apply T3|reflexivity]. }
  unfold has in H. rewrite K3, H. cbn [k_attr k_data]. change (has_usage Derive dh_attr && alg_eqb Ecdh (a_alg dh_attr) && is_pair (a_type dh_attr)) with true. cbv iota.
  destruct (pr_ec_pk_ok pr pt); [|apply D; [exact U3|exact H3|now left]].
  destruct (pr_ec_agree pr sk pt) as [c|] eqn:C; [|apply D; [exact U3|exact H3|now left]].
  apply (pok_ec_agree_len pr scalar PO) in C as [L _]. unfold ec_sk in SK. apply andb_prop in SK as [SL _]. apply N.eqb_eq in SL.
  rewrite L, SL. change (32 <? 32) with false. cbv iota. apply D; [exact U3|exact H3|now left].
Qed.

(** The operations meet the assumptions of the other theorems *)
Lemma sec1_len x y : lenN (sec1 x y) = 65.
Proof. unfold sec1. rewrite lenN_cons, lenN_app. assert (forall v, lenN (be_enc 32 v) = 32) by (intros; apply be_enc_lenN). rewrite !H. reflexivity. Qed.
Lemma sec1_x x y : takeN 32 (dropN 1 (sec1 x y)) = be_enc 32 (Z.to_N x).
Proof.
  unfold sec1. change (dropN 1 (4 :: ?l)) with l. assert (L : lenN (be_enc 32 (Z.to_N x)) = 32) by apply be_enc_lenN.
  change (dropN 1 (4 :: be_enc 32 (Z.to_N x) ++ be_enc 32 (Z.to_N y))) with (be_enc 32 (Z.to_N x) ++ be_enc 32 (Z.to_N y)).
  set (ex := be_enc 32 (Z.to_N x)) in *. rewrite <- L. apply takeN_app.
Qed.
Lemma x_val x : (0 <= x < P256p)%Z -> Z.of_N (be_val (be_enc 32 (Z.to_N x))) = x.
Proof.
  intros Hz. rewrite be_val_enc; [lia|]. assert (P256p < 2 ^ 256)%Z by reflexivity. change (256 ^ N.of_nat 32) with (2 ^ 256). lia.
Qed.
Lemma dh_valid a x y : ec_sk pr a = true -> on_p256 x y -> cr_dh (mbed_crypto pr) 1 a (be_enc 32 (Z.to_N x)) = pr_ec_agree pr a (sec1 x y).
Proof.
  intros SA O. change (cr_dh (mbed_crypto pr) 1 a (be_enc 32 (Z.to_N x))) with (if ec_sk pr a then match point_of (be_enc 32 (Z.to_N x)) with Some pt => if pr_ec_pk_ok pr pt then pr_ec_agree pr a pt else None | None => None end else None).
  rewrite SA. pose proof (x_val x (proj1 O)) as XV. assert (Z : words (repeat 0 8)) by (split; [repeat constructor|reflexivity]).
  assert (HB : is_bytes (be_enc 32 (Z.to_N x))) by apply be_enc_bytes. assert (HL : lenN (be_enc 32 (Z.to_N x)) = 32) by apply be_enc_lenN.
  assert (O' : on_p256 (Z.of_N (be_val (be_enc 32 (Z.to_N x)))) y) by (rewrite XV; exact O).
  destruct (proj2 (C50_accepts MulC (repeat 0 8) (repeat 0 8) (repeat 0 8) _ 65 Z Z Z HB)) as [out E]; [split; [exact HL|split; [lia|now exists y]]|].
  destruct (C50_output _ _ _ _ _ _ _ Z Z Z HB E) as (y' & Y' & -> & _). rewrite XV in Y'.
  unfold point_of. cbv zeta. rewrite E. fold (sec1 x y'). rewrite (pok_ec_pk pr scalar PO x y' Y').
  rewrite (pok_ec_agree pr scalar PO a x y' Y'), (pok_ec_agree pr scalar PO a x y O). unfold secret_of. now rewrite (same_x (scalar a) x y y' O Y').
Qed.
Lemma mbed_ok : crypto_ok (mbed_crypto pr).
Proof.
  constructor.
  - apply (pok_hmac_len pr scalar PO).
  - apply (pok_hash_len pr scalar PO).
  - intros k n a t p c. cbn [cr_aead_enc cr_aead_dec mbed_crypto]. destruct (aes_len k); [|discriminate]. intros H. now apply (pok_ccm pr scalar PO) in H.
  - intros k n a t p c. cbn [cr_aead_enc mbed_crypto]. destruct (aes_len k); [|discriminate]. intros H. now apply (pok_ccm pr scalar PO) in H.
  - intros k n a t p c. cbn [cr_aead_dec mbed_crypto]. destruct (aes_len k); [|discriminate]. intros H. now apply (pok_ccm_dec pr scalar PO) in H.
  - intros g a b. destruct (N.eqb_spec g 1) as [-> |N1].
    + assert (PE : forall z, cr_pub (mbed_crypto pr) 1 z = if ec_sk pr z then takeN 32 (dropN 1 (pr_ec_pub pr z)) else []) by reflexivity. rewrite !PE.
      assert (DN : forall z, cr_dh (mbed_crypto pr) 1 z [] = None) by (intros z; cbn [cr_dh mbed_crypto N.eqb Pos.eqb]; destruct (ec_sk pr z); reflexivity).
      assert (DI : forall z p, ec_sk pr z = false -> cr_dh (mbed_crypto pr) 1 z p = None) by (intros z p E; cbn [cr_dh mbed_crypto N.eqb Pos.eqb]; now rewrite E).
      destruct (ec_sk pr a) eqn:SA, (ec_sk pr b) eqn:SB.
      * destruct (pok_ec_pub pr scalar PO a SA) as (xa & ya & OA & EA). destruct (pok_ec_pub pr scalar PO b SB) as (xb & yb & OB & EB).
        rewrite EA, EB, !sec1_x, (dh_valid a xb yb SA OB), (dh_valid b xa ya SB OA), <- EA, <- EB. apply (pok_ec_comm pr scalar PO); assumption.
      * rewrite DN. symmetry. now apply DI.
      * rewrite DN. now apply DI.
      * now rewrite !DN.
    + cbn [cr_dh cr_pub mbed_crypto]. destruct (N.eqb_spec g 1); [contradiction|]. destruct (g =? 4); [|reflexivity]. f_equal. apply (pok_x_comm pr scalar PO).
  - intros g sk m s. cbn [cr_sign cr_verify cr_pub mbed_crypto]. destruct (N.eqb_spec g 7) as [-> |N7].
    + change (7 =? 1) with false. change (7 =? 4) with false. cbv iota. destruct (ec_sk pr sk) eqn:SK; [|discriminate]. intros H.
      apply (pok_ec_sign pr scalar PO) in H as (_ & _ & V). destruct (pok_ec_pub pr scalar PO sk SK) as (x & y & O & E). unfold ec_pk.
      rewrite (V SK), E, sec1_len, (pok_ec_pk pr scalar PO x y O). reflexivity.
    + destruct (N.eqb_spec g 8) as [-> |]; [|discriminate]. change (8 =? 1) with false. change (8 =? 4) with false. cbv iota. intros H. injection H as <-. f_equal. apply (pok_ed_verify pr scalar PO).
  - intros k n a t p c. cbn [cr_aead_enc mbed_crypto]. destruct (aes_len k); [|discriminate]. intros H. now apply (pok_ccm pr scalar PO) in H.
  - apply (pok_hmac_bytes pr scalar PO).
  - apply (pok_hash_bytes pr scalar PO).
  - intros k n a t p c. cbn [cr_aead_dec mbed_crypto]. destruct (aes_len k); [|discriminate]. intros H. now apply (pok_ccm_dec pr scalar PO) in H.
  - intros g sk pk m s. cbn [cr_sign mbed_crypto]. destruct (g =? 7); [destruct (ec_sk pr sk); [|discriminate]; intros H; now apply (pok_ec_sign pr scalar PO) in H|].
    destruct (g =? 8); [|discriminate]. intros H. injection H as <-. apply (pok_ed_sign pr scalar PO).
  - intros g sk pk m s. cbn [cr_sign mbed_crypto]. destruct (g =? 7); [destruct (ec_sk pr sk); [|discriminate]; intros H; now apply (pok_ec_sign pr scalar PO) in H|].
    destruct (g =? 8); [|discriminate]. intros H. injection H as <-. apply (pok_ed_sign pr scalar PO).
  - intros g a b s. cbn [cr_dh mbed_crypto]. destruct (g =? 1).
    + destruct (ec_sk pr a); [|discriminate]. destruct (point_of b) as [pt|]; [|discriminate]. destruct (pr_ec_pk_ok pr pt); [|discriminate]. intros H. now apply (pok_ec_agree_len pr scalar PO) in H.
    + destruct (g =? 4); [|discriminate]. intros H. injection H as <-. apply (pok_x_len pr scalar PO).
  - intros g a b s. cbn [cr_dh mbed_crypto]. destruct (g =? 1).
    + destruct (ec_sk pr a); [|discriminate]. destruct (point_of b) as [pt|]; [|discriminate]. destruct (pr_ec_pk_ok pr pt); [|discriminate]. intros H. now apply (pok_ec_agree_len pr scalar PO) in H.
    + destruct (g =? 4); [|discriminate]. intros H. injection H as <-. apply (pok_x_len pr scalar PO).
Qed.
End Pr.
