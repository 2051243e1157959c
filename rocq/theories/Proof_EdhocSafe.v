(** Functions of the EDHOC part that do not run into undefined behaviour. *)
From Verif Require Import Base Proof_Base Model_Common Model_Cbor Proof_Cbor Model_Crypto
  Spec_CborTree Proof_CborTree Spec_Hkdf Proof_Hkdf Spec_Edhoc Model_EdhocCfg Model_EdhocCbor Model_EdhocKeys
  Proof_EdhocBase Model_EdhocCert Model_EdhocMsg Model_EdhocRun Proof_EdhocMsg1 Proof_EdhocMsg Proof_EdhocRun.

Definition no_ub {A} (r : res A) : Prop := forall u, r <> UB u.
Lemma no_ub_ok {A} (a : A) : no_ub (Ok a). Proof. discriminate. Qed.
Lemma no_ub_err {A} e : no_ub (@Err A e). Proof. discriminate. Qed.
Lemma no_ub_bind {A B} (r : res A) (k : A -> res B) : no_ub r -> (forall a, r = Ok a -> no_ub (k a)) -> no_ub (bind r k).
Proof. intros H1 H2 u. destruct r as [a|e|v]; cbn; [apply (H2 a eq_refl)|discriminate|]. intros Q. now apply (H1 v). Qed.
Lemma no_ub_check a b : no_ub (check_buffer_size a b).
Proof. unfold check_buffer_size. destruct (a <? b); discriminate. Qed.
Lemma no_ub_new a b : no_ub (byte_array_new a b). Proof. apply no_ub_check. Qed.
Lemma no_ub_put cap b : no_ub (cbor_put cap b). Proof. unfold cbor_put. destruct (_ <=? _); discriminate. Qed.
Lemma no_ub_encode b cap : no_ub (encode_bstr b cap). Proof. apply no_ub_put. Qed.
Lemma no_ub_append cap a b : no_ub (append cap a b). Proof. unfold append. destruct (_ <? _); discriminate. Qed.
Lemma no_ub_ext {A} (o : option A) : no_ub (ext o). Proof. destruct o; discriminate. Qed.
Lemma no_ub_copy cap b : no_ub (copy_null cap b).
Proof. unfold copy_null. destruct (_ =? _); [discriminate|]. destruct (_ =? _); [discriminate|]. apply no_ub_bind; [apply no_ub_check|discriminate]. Qed.
Lemma no_ub_copy_to cap b : no_ub (copy_to cap b).
Proof. unfold copy_to. destruct (_ =? _); [discriminate|]. apply no_ub_bind; [apply no_ub_check|discriminate]. Qed.

Ltac safe := repeat first [apply no_ub_ok | apply no_ub_err | apply no_ub_new | apply no_ub_check | apply no_ub_put
  | apply no_ub_encode | apply no_ub_append | apply no_ub_ext | apply no_ub_copy | apply no_ub_copy_to
  | match goal with |- forall _, _ = _ -> no_ub _ => intros ? ? end | match goal with |- no_ub (bind _ _) => apply no_ub_bind end].

Section Safe.
Variable cr : crypto.
Variable cf : cfg.
Hypothesis K : crypto_ok cr.

Lemma no_ub_kdf prk label ctx len : len <= 8128 -> no_ub (edhoc_kdf cr cf prk label ctx len).
Proof.
  intros HL. unfold edhoc_kdf, create_hkdf_info. safe.
  rewrite expand_tc_correct; [apply no_ub_ok|exact (ok_hmac_len cr K)|exact HL].
Qed.
Lemma no_ub_aad th : no_ub (associated_data_encode th).
Proof. unfold associated_data_encode, cose_enc_structure_encode. safe. Qed.
Lemma no_ub_ssd32 alg sk pk : (alg = X25519 -> 32 <= lenN sk /\ 32 <= lenN pk) -> no_ub (shared_secret_derive cr alg sk pk).
Proof.
  intros H. unfold shared_secret_derive. destruct alg; [safe|]. destruct (H eq_refl).
  destruct (N.ltb_spec (lenN sk) 32); [lia|]. destruct (N.ltb_spec (lenN pk) 32); [lia|]. safe.
Qed.
Lemma no_ub_th34 th pt cred : lenN th = 32 -> no_ub (th34_calculate cr cf th pt cred).
Proof.
  intros HT. unfold th34_calculate. apply no_ub_bind; [safe|]. intros [] E. apply check_ok in E.
  change (as_bstr_size get_hash_len) with 34 in *.
  apply no_ub_bind; [|safe]. unfold th34_input_encode. apply no_ub_bind; [safe|]. intros e EE.
  apply encode_bstr_ok in EE as [-> _]. rewrite (enc_bstr32 th HT).
  apply no_ub_bind.
  - destruct (_ =? 0); [safe|]. apply no_ub_bind; [safe|]. intros [] _.
    destruct (N.ltb_spec (TH34_INPUT_SIZE cf) (34 + lenN pt)); [lia|safe].
  - intros [] _. apply no_ub_bind; [|safe]. destruct (_ =? 0); [safe|]. apply no_ub_bind; [safe|]. intros [] _.
    destruct (N.ltb_spec (TH34_INPUT_SIZE cf) (34 + lenN pt + lenN cred)); [lia|safe].
Qed.
Lemma no_ub_th2 h g : no_ub (th2_calculate cr h g).
Proof. unfold th2_calculate, th2_input_encode. safe. Qed.
Lemma no_ub_mac prk c_r th id cred ead label sdh l st : get_suite l = Ok st -> c_r_is_raw_int c_r = false ->
  no_ub (mac cr cf prk c_r th id cred ead label sdh st).
Proof.
  intros HL HC. unfold mac. rewrite HC.
  assert (no_ub_if : forall (b : bool) (x y : res bytes), no_ub x -> no_ub y -> no_ub (if b then x else y)) by (intros []; auto).
  safe; try (apply no_ub_if; safe). apply no_ub_kdf. apply suite_lens in HL. destruct sdh; [lia|]. vm_compute. discriminate.
Qed.
Lemma no_ub_tbs th id cred ead m : no_ub (to_be_signed cf th id cred ead m).
Proof. unfold to_be_signed, signature_struct_gen, cose_sig_structure_encode. safe. Qed.
Lemma no_ub_generate sdh l st sk pk prk c_r th id cred ead label : get_suite l = Ok st -> c_r_is_raw_int c_r = false ->
  no_ub (sig_or_mac_generate cr cf sdh st sk pk prk c_r th id cred ead label).
Proof.
  intros HL HC. unfold sig_or_mac_generate. apply no_ub_bind; [now apply (no_ub_mac _ _ _ _ _ _ _ _ l)|]. intros m _.
  destruct sdh; [safe|]. apply no_ub_bind; [apply no_ub_tbs|]. intros t _. unfold sign. safe.
Qed.
Lemma plaintext_gen_le c id sig ead cap p : plaintext_gen cf c id sig ead cap = Ok p -> lenN p <= cap.
Proof.
  unfold plaintext_gen. intros E. apply bind_ok in E as ([] & _ & E). apply bind_ok in E as (se & _ & E).
  apply bind_ok in E as (p1 & _ & E). apply bind_ok in E as (k & _ & E). apply bind_ok in E as (p2 & _ & E).
  apply bind_ok in E as (p3 & E3 & E). destruct (0 <? lenN ead).
  - apply append_inv in E as [-> L]. rewrite lenN_app. exact L.
  - apply append_inv in E3 as [E3 L]. injection E as <-. rewrite E3, lenN_app. exact L.
Qed.
Lemma no_ub_plaintext c i sig ead cap : cid_ok i -> no_ub (plaintext_gen cf c (rfc_id_cred i) sig ead cap).
Proof.
  intros HI. unfold plaintext_gen.
  assert (no_ub_if : forall (b : bool) (x y : res bytes), no_ub x -> no_ub y -> no_ub (if b then x else y)) by (intros []; auto).
  safe.
  - destruct c as [c|]; [|safe]. apply no_ub_if; safe.
  - rewrite cid_kid by exact HI. safe.
  - apply no_ub_if; safe.
Qed.

Lemma msg3_only_gen_total (c : initiator) l st si a msg prk_len id_i :
  get_suite l = Ok st -> i_id_cred c = rfc_id_cred id_i -> cid_ok id_i -> lenN (a2_th3 a) = 32 -> prk_len <= 8128 ->
  no_ub (snd (msg3_only_gen cr cf c st si a msg prk_len)).
Proof.
  intros HL EI HI HT HP. pose proof (suite_lens l st HL) as (S1 & S2 & S3 & S4 & S5).
  unfold msg3_only_gen. match goal with |- no_ub (snd (match ?f with _ => _ end)) => assert (NF : no_ub f) end.
  { apply no_ub_bind; [safe|]. intros [] _. apply no_ub_bind; [safe|]. intros [] E2. apply check_ok in E2.
    apply no_ub_bind; [now apply (no_ub_generate _ l)|]. intros sg _. apply no_ub_bind.
    - unfold ciphertext3_gen. rewrite EI in *. apply no_ub_bind; [now apply no_ub_plaintext|]. intros p EP.
      apply plaintext_gen_le in EP. apply no_ub_bind; [safe|]. intros [] _. apply no_ub_bind.
      + unfold key_gen_3. rewrite S2, S3. safe; apply no_ub_kdf; lia.
      + intros [k iv] _. apply no_ub_bind; [apply no_ub_aad|]. intros aad _.
        match type of E2 with as_bstr_size ?z + _ <= _ => pose proof (as_bstr_lower z) end.
        match goal with |- no_ub (if ?b then _ else _) => destruct b eqn:Q end; [|safe].
        apply N.ltb_lt in Q. lia.
    - intros [p ct] _. safe. }
  match goal with |- no_ub (snd (match ?f with _ => _ end)) => destruct f as [[p m3]|e|u] end; cbn [snd].
  - apply no_ub_bind; [now apply no_ub_th34|]. intros th4 _. now apply no_ub_kdf.
  - safe.
  - exfalso. now apply (NF u).
Qed.
End Safe.
