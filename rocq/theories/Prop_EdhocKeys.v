(** Properties C31 (suite and method tables), C40 (transcript hash inputs) and C41
    (key derivation inputs). *)
From Verif Require Import Base Proof_Base Model_Common Model_Cbor Proof_Cbor Model_Crypto
  Spec_CborTree Proof_CborTree Proof_CborUnique Spec_Hkdf Proof_Hkdf Spec_Edhoc
  Model_EdhocCfg Model_EdhocCbor Model_EdhocKeys Proof_EdhocBase Model_Toy Proof_Toy.

(* ---------- C31 ---------- *)

(** the algorithm numbers of a suite *)
Definition suite_numbers (s : suite) : Z * N * N * Z * Z :=
  (aead_id (edhoc_aead s), edhoc_mac_len_static_dh s, ecdh_id (edhoc_ecdh s), sign_id (edhoc_sign s),
   aead_id (app_aead s)).

(** get_suite succeeds exactly for the registered suites 0..3, with the registered
    algorithms, and refuses every other label. *)
Theorem C31_suite_table : forall (label : N) (s : suite),
  (get_suite label = Ok s <-> suite_label s = label /\ In (label, suite_numbers s) rfc_suites) /\
  (3 < label -> get_suite label = Err unsupported_cipher_suite).
Proof.
  intros label s. split.
  - split.
    + intros H. unfold get_suite in H.
      destruct label as [|[[p|p|]|[p|p|]|]]; try discriminate; injection H as <-;
        (split; [reflexivity|cbn; tauto]).
    + intros [HL HI]. destruct s as [l a m e sg ap]. cbn in HL. subst l.
      cbn in HI. unfold suite_numbers in HI. cbn in HI.
      destruct HI as [E|[E|[E|[E|[]]]]];
        injection E as E1 E2 E3 E4 E5 E6; subst label m;
        destruct a, e, sg, ap; try discriminate; reflexivity.
  - intros HL. unfold get_suite. destruct label as [|[[p|p|]|[p|p|]|]]; try lia; try reflexivity.
Qed.
Print Assumptions C31_suite_table.

(** The tag, key and nonce lengths used with a suite are those of its AEAD, and the
    MAC for static DH is as long as the tag. *)
Theorem C31_suite_lengths : forall (label : N) (s : suite), get_suite label = Ok s ->
  cose_aead_lens (aead_id (edhoc_aead s)) =
    Some (get_aead_mac_len (edhoc_aead s), get_aead_key_len (edhoc_aead s), get_aead_iv_len (edhoc_aead s)) /\
  edhoc_mac_len_static_dh s = get_aead_mac_len (edhoc_aead s) /\
  get_signature_len (edhoc_sign s) = 64 /\ get_ecdh_pk_len (edhoc_ecdh s) = 32.
Proof.
  intros label s H. unfold get_suite in H.
  destruct label as [|[[p|p|]|[p|p|]|]]; try discriminate; injection H as <-; repeat split.
Qed.
Print Assumptions C31_suite_lengths.

(** Method m: the initiator authenticates with static DH for 2 and 3, the responder
    for 1 and 3 (RFC 9528 table 2); other numbers change nothing. *)
Theorem C31_methods : forall (m : N) (old : bool * bool),
  authentication_type_get m old = if m <=? 3 then (2 <=? m, N.odd m) else old.
Proof.
  intros m old. destruct m as [|[[p|p|]|[p|p|]|]]; try reflexivity;
    unfold authentication_type_get; destruct (N.leb_spec (Npos _) 3); try lia; try reflexivity.
Qed.
Print Assumptions C31_methods.

Example C31_example :
  (exists s, get_suite 1 = Ok s /\ suite_numbers s = (30%Z, 16, 4, (-8)%Z, 10%Z)) /\
  get_suite 4 = Err unsupported_cipher_suite /\ authentication_type_get 1 (false, false) = (false, true).
Proof. split; [eexists; split; reflexivity|]. split; reflexivity. Qed.

(* ---------- C40 ---------- *)

(** TH_2: the hashed string determines G_Y and H(message_1). *)
Theorem C40_th2_input_injective : forall (h g h' g' : bytes) (cap cap' : N) (i : bytes),
  lenN h < 2 ^ 64 -> lenN h' < 2 ^ 64 -> lenN g < 2 ^ 64 -> lenN g' < 2 ^ 64 ->
  th2_input_encode h g cap = Ok i -> th2_input_encode h' g' cap' = Ok i -> g = g' /\ h = h'.
Proof.
  intros h g h' g' cap cap' i H1 H2 H3 H4 E E'.
  apply cbor_put_ok in E as [-> _]. apply cbor_put_ok in E' as [E _]. unfold enc_th2 in E.
  apply enc_bstr_inj in E as [-> E]; [|assumption|assumption]. split; [reflexivity|].
  rewrite <- (app_nil_r (enc_bstr h)), <- (app_nil_r (enc_bstr h')) in E.
  apply enc_bstr_inj in E as [-> _]; auto.
Qed.
Print Assumptions C40_th2_input_injective.

Lemma th34_input_eq th p c th' p' c' :
  lenN th < 2 ^ 64 -> lenN th' < 2 ^ 64 ->
  rfc_th34_input th p c = rfc_th34_input th' p' c' -> th = th' /\ p ++ c = p' ++ c'.
Proof.
  unfold rfc_th34_input. rewrite !cbor_bytes. intros H H' E.
  apply enc_bstr_inj in E as [-> E]; auto.
Qed.
Lemma seq_tail ps c ps' c' : Forall wf_item ps -> Forall wf_item ps' -> wf_item c -> wf_item c' ->
  cbor_seq ps ++ cbor c = cbor_seq ps' ++ cbor c' -> ps = ps' /\ c = c'.
Proof.
  intros W W' Wc Wc' E.
  assert (Q : forall l i, cbor_seq l ++ cbor i = cbor_seq (l ++ [i])).
  { intros l i. unfold cbor_seq. rewrite flat_map_app. cbn [flat_map]. rewrite app_nil_r. reflexivity. }
  rewrite !Q in E. apply seq_items_unique in E; [apply app_inj_tail in E; exact E| |];
    apply Forall_app; split; auto.
Qed.

(** TH_3 and TH_4: for plaintexts that are CBOR sequences and credentials that are
    one CBOR item, the hashed string determines transcript hash, plaintext and
    credential. *)
Theorem C40_th34_input_injective :
  forall (th th' : bytes) (ps ps' : list item) (c c' : item) (b cap b' cap' : N) (i : bytes),
  lenN th < 2 ^ 64 -> lenN th' < 2 ^ 64 ->
  Forall wf_item ps -> Forall wf_item ps' -> wf_item c -> wf_item c' ->
  th34_input_encode th (cbor_seq ps) (cbor c) b cap = Ok i ->
  th34_input_encode th' (cbor_seq ps') (cbor c') b' cap' = Ok i ->
  th = th' /\ ps = ps' /\ c = c'.
Proof.
  intros th th' ps ps' c c' b cap b' cap' i H1 H2 W1 W2 W3 W4 E E'.
  assert (Q : forall th p c b cap i, th34_input_encode th p c b cap = Ok i -> i = rfc_th34_input th p c).
  { clear. intros th p c b cap i E. unfold th34_input_encode in E. apply bind_ok in E as (e & EE & E).
    apply encode_bstr_ok in EE as [-> _]. apply bind_ok in E as ([] & _ & E).
    apply bind_ok in E as ([] & _ & E). injection E as <-. unfold rfc_th34_input. now rewrite cbor_bytes. }
  apply Q in E, E'. subst i. apply th34_input_eq in E' as [-> E]; [|assumption|assumption].
  apply seq_tail in E as [-> ->]; auto.
Qed.
Print Assumptions C40_th34_input_injective.

(** For arbitrary byte strings the border between plaintext and credential is lost:
    different pairs have the same transcript hash, whatever the hash function. *)
Theorem C40_th34_border_refuted : forall (cr : crypto) (cf : cfg) (th : bytes), lenN th = 32 ->
  exists x, th34_calculate cr cf th [1] [2; 3] = Ok x /\ th34_calculate cr cf th [1; 2] [3] = Ok x.
Proof.
  intros cr cf th H.
  assert (37 <= TH34_INPUT_SIZE cf).
  { unfold TH34_INPUT_SIZE. change (as_bstr_size HASH_SIZE) with 34.
    unfold PLAINTEXT23_MAX_SIZE, PLAINTEXT3_SIZE. change (as_bstr_size SIG_OR_MAC_SIZE) with 66. lia. }
  exists (rfc_th34 (cr_hash cr) th [1] [2; 3]).
  assert (L : lenN [1] = 1 /\ lenN [2; 3] = 2 /\ lenN [1; 2] = 2 /\ lenN [3] = 1) by (repeat split).
  destruct L as (L1 & L2 & L3 & L4).
  split; (rewrite th34_fits; [reflexivity|exact H|discriminate|discriminate| |]);
    rewrite ?L1, ?L2, ?L3, ?L4; lia.
Qed.
Print Assumptions C40_th34_border_refuted.

(** The transcript hash TH_4 of a run, as the code chains it. *)
Definition transcript (cr : crypto) (cf : cfg) (m1 g_y p2 c2 p3 c3 th4 : bytes) : Prop :=
  exists th2 th3, th2_calculate cr (cr_hash cr m1) g_y = Ok th2 /\
  th34_calculate cr cf th2 p2 c2 = Ok th3 /\ th34_calculate cr cf th3 p3 c3 = Ok th4.
Definition collide (cr : crypto) (a b : bytes) : Prop := a <> b /\ cr_hash cr a = cr_hash cr b.

(** Two runs with the same TH_4 agree on message_1, G_Y, both plaintexts and both
    credentials, unless one of the four pairs of hashed strings is a hash
    collision. *)
Theorem C40_transcript_agreement :
  forall (cr : crypto) (cf cf' : cfg) (m1 g_y m1' g_y' : bytes) (p2 p3 p2' p3' : list item)
    (c2 c3 c2' c3' : item) (th4 : bytes),
  (forall m, lenN (cr_hash cr m) = 32) -> lenN g_y < 2 ^ 64 -> lenN g_y' < 2 ^ 64 ->
  Forall wf_item p2 -> Forall wf_item p2' -> Forall wf_item p3 -> Forall wf_item p3' ->
  wf_item c2 -> wf_item c2' -> wf_item c3 -> wf_item c3' ->
  transcript cr cf m1 g_y (cbor_seq p2) (cbor c2) (cbor_seq p3) (cbor c3) th4 ->
  transcript cr cf' m1' g_y' (cbor_seq p2') (cbor c2') (cbor_seq p3') (cbor c3') th4 ->
  (m1 = m1' /\ g_y = g_y' /\ p2 = p2' /\ c2 = c2' /\ p3 = p3' /\ c3 = c3') \/
  (let th2 := rfc_th2 (cr_hash cr) g_y m1 in let th2' := rfc_th2 (cr_hash cr) g_y' m1' in
   let th3 := rfc_th34 (cr_hash cr) th2 (cbor_seq p2) (cbor c2) in
   let th3' := rfc_th34 (cr_hash cr) th2' (cbor_seq p2') (cbor c2') in
   collide cr m1 m1' \/
   collide cr (rfc_th2_input g_y (cr_hash cr m1)) (rfc_th2_input g_y' (cr_hash cr m1')) \/
   collide cr (rfc_th34_input th2 (cbor_seq p2) (cbor c2)) (rfc_th34_input th2' (cbor_seq p2') (cbor c2')) \/
   collide cr (rfc_th34_input th3 (cbor_seq p3) (cbor c3)) (rfc_th34_input th3' (cbor_seq p3') (cbor c3'))).
Proof.
  intros cr cf cf' m1 g_y m1' g_y' p2 p3 p2' p3' c2 c3 c2' c3' th4 HL G G' W1 W2 W3 W4 W5 W6 W7 W8
    (th2 & th3 & A1 & A2 & A3) (th2' & th3' & B1 & B2 & B3).
  apply th2_ok in A1, B1. apply th34_ok in A2, A3, B2, B3. cbv zeta.
  fold (rfc_th2 (cr_hash cr) g_y m1) in A1. fold (rfc_th2 (cr_hash cr) g_y' m1') in B1.
  rewrite <- A1, <- B1, <- A2, <- B2. rewrite B3 in A3. unfold rfc_th34 in A3.
  assert (dec : forall a b : bytes, {a = b} + {a <> b}) by (apply list_eq_dec; apply N.eq_dec).
  assert (L2 : lenN th2 = 32) by (rewrite A1; apply HL).
  assert (L2' : lenN th2' = 32) by (rewrite B1; apply HL).
  assert (L3 : lenN th3 = 32) by (rewrite A2; apply HL).
  assert (L3' : lenN th3' = 32) by (rewrite B2; apply HL).
  destruct (dec (rfc_th34_input th3 (cbor_seq p3) (cbor c3)) (rfc_th34_input th3' (cbor_seq p3') (cbor c3')))
    as [E3|N3]; [|right; right; right; right; split; [assumption|symmetry; assumption]].
  apply th34_input_eq in E3 as [E3 S3]; try lia. apply seq_tail in S3 as [-> ->]; try assumption.
  rewrite E3 in A2. rewrite A2 in B2. unfold rfc_th34 in B2.
  destruct (dec (rfc_th34_input th2 (cbor_seq p2) (cbor c2)) (rfc_th34_input th2' (cbor_seq p2') (cbor c2')))
    as [E2|N2]; [|right; right; right; left; split; assumption].
  apply th34_input_eq in E2 as [E2 S2]; try lia. apply seq_tail in S2 as [-> ->]; try assumption.
  rewrite E2 in A1. rewrite A1 in B1. unfold rfc_th2 in B1.
  destruct (dec (rfc_th2_input g_y (cr_hash cr m1)) (rfc_th2_input g_y' (cr_hash cr m1')))
    as [E1|N1]; [|right; right; left; split; assumption].
  unfold rfc_th2_input in E1. repeat rewrite ?cbor_seq_cons, ?cbor_seq_nil, ?cbor_bytes in E1.
  apply enc_bstr_inj in E1 as [-> E1]; [|assumption|assumption].
  apply enc_bstr_inj in E1 as [E1 _]; [|rewrite HL; lia|rewrite HL; lia].
  destruct (dec m1 m1') as [->|N0]; [left|right; left; split; assumption].
  repeat split.
Qed.
Print Assumptions C40_transcript_agreement.

Definition ex_p2 := [CInt (-1); CInt 5; CBytes (repeat 1 8)].
Definition ex_c2 := CBytes [1; 2; 3].
Definition ex_p3 := [CMap [(CInt 34, CArr [CInt (-15); CBytes [9; 9]])]; CBytes (repeat 2 8)].
Definition ex_c3 := CMap [(CInt 2, CText [65])].
Example C40_example :
  exists th4, transcript toy_crypto default_cfg [0; 1; 2] (repeat 7 32)
    (cbor_seq ex_p2) (cbor ex_c2) (cbor_seq ex_p3) (cbor ex_c3) th4.
Proof.
  assert (Q : forall cr cf m1 g p2 c2 p3 c3,
    is_ok (let* t2 := th2_calculate cr (cr_hash cr m1) g in
           let* t3 := th34_calculate cr cf t2 p2 c2 in th34_calculate cr cf t3 p3 c3) = true ->
    exists th4, transcript cr cf m1 g p2 c2 p3 c3 th4).
  { intros cr cf m1 g p2 c2 p3 c3 H.
    destruct (th2_calculate cr (cr_hash cr m1) g) as [t2| |] eqn:E2; try discriminate. cbn [bind] in H.
    destruct (th34_calculate cr cf t2 p2 c2) as [t3| |] eqn:E3; try discriminate. cbn [bind] in H.
    destruct (th34_calculate cr cf t3 p3 c3) as [t4| |] eqn:E4; try discriminate.
    exists t4, t2, t3. auto. }
  apply Q. vm_compute. reflexivity.
Qed.

(* ---------- C41 ---------- *)

(** The info string of EDHOC_KDF determines label, context and length. *)
Theorem C41_info_injective : forall (l l' : N) (c c' : bytes) (n n' cap cap' : N) (i : bytes),
  l < 2 ^ 32 -> l' < 2 ^ 32 -> lenN c < 2 ^ 64 -> lenN c' < 2 ^ 64 -> n < 2 ^ 32 -> n' < 2 ^ 32 ->
  create_hkdf_info l c n cap = Ok i -> create_hkdf_info l' c' n' cap' = Ok i -> l = l' /\ c = c' /\ n = n'.
Proof.
  intros l l' c c' n n' cap cap' i H1 H2 H3 H4 H5 H6 E E'.
  apply cbor_put_ok in E as [-> _]. apply cbor_put_ok in E' as [E _]. unfold enc_edhoc_info in E.
  apply enc_uint_inj in E as [-> E]; [|assumption|assumption].
  apply enc_bstr_inj in E as [-> E]; [|assumption|assumption].
  rewrite <- (app_nil_r (enc_uint n)), <- (app_nil_r (enc_uint n')) in E.
  apply enc_uint_inj in E as [-> _]; auto.
Qed.
Print Assumptions C41_info_injective.

(** Every derived key is HKDF-Expand of the RFC 9528 info for its label. *)
Theorem C41_kdf_is_rfc : forall (cr : crypto) (cf : cfg) (prk : bytes) (l : N) (c : bytes) (n : N) (k : bytes),
  (forall k m, lenN (cr_hmac cr k m) = 32) -> n <= 254 * 32 ->
  edhoc_kdf cr cf prk l c n = Ok k -> k = rfc_kdf (cr_hmac cr) prk l c n /\ lenN k = n.
Proof. intros cr cf prk l c n k HL Hn H. eapply kdf_ok; eassumption. Qed.
Print Assumptions C41_kdf_is_rfc.

(** Keys of at least 32 bytes derived from the same PRK for different (label,
    context, length) differ, unless HMAC with that PRK collides on the two first
    blocks. *)
Theorem C41_keys_differ : forall (cr : crypto) (cf cf' : cfg) (prk : bytes) (l l' : N) (c c' : bytes) (n n' : N) (k : bytes),
  (forall k m, lenN (cr_hmac cr k m) = 32) ->
  l < 2 ^ 32 -> l' < 2 ^ 32 -> lenN c < 2 ^ 64 -> lenN c' < 2 ^ 64 -> 32 <= n <= 254 * 32 -> 32 <= n' <= 254 * 32 ->
  edhoc_kdf cr cf prk l c n = Ok k -> edhoc_kdf cr cf' prk l' c' n' = Ok k ->
  (l = l' /\ c = c' /\ n = n') \/
  (let b := rfc_edhoc_info l c n ++ [1] in let b' := rfc_edhoc_info l' c' n' ++ [1] in
   b <> b' /\ cr_hmac cr prk b = cr_hmac cr prk b').
Proof.
  intros cr cf cf' prk l l' c c' n n' k HL H1 H2 H3 H4 H5 H6 E E'.
  apply kdf_ok in E as [E LE]; [|assumption|lia]. apply kdf_ok in E' as [E' LE']; [|assumption|lia].
  assert (T : forall l c n, 32 <= n -> takeN 32 (rfc_kdf (cr_hmac cr) prk l c n) =
              cr_hmac cr prk (rfc_edhoc_info l c n ++ [1])).
  { clear - HL. intros l c n Hn. unfold rfc_kdf, hkdf_okm, hkdf_stream.
    replace (N.to_nat ((n + 31) / 32)) with (S (N.to_nat ((n + 31) / 32) - 1)) by lia.
    cbn [seq map concat]. set (rest := concat _). cbn [hkdf_T app].
    change (N.of_nat 1 mod 256) with 1. set (t := cr_hmac cr prk _).
    assert (Lt : lenN t = 32) by apply HL.
    unfold takeN. rewrite firstn_firstn. replace (Nat.min (N.to_nat 32) (N.to_nat n)) with (N.to_nat 32) by lia.
    change (takeN 32 (t ++ rest) = t). rewrite <- Lt. apply takeN_app. }
  pose proof (T l c n ltac:(lia)) as T1. pose proof (T l' c' n' ltac:(lia)) as T2.
  rewrite <- E in T1. rewrite <- E' in T2. rewrite T2 in T1. cbv zeta.
  destruct (list_eq_dec N.eq_dec (rfc_edhoc_info l c n) (rfc_edhoc_info l' c' n')) as [Q|Q].
  - left. rewrite <- !info_rfc in Q.
    eapply (C41_info_injective l l' c c' n n' (lenN (enc_edhoc_info l c n)) (lenN (enc_edhoc_info l c n))
      (enc_edhoc_info l c n)); try assumption; try lia.
    + apply put_fits. lia.
    + unfold create_hkdf_info. rewrite <- Q. apply put_fits. lia.
  - right. split; [|symmetry; exact T1]. intros Q'. apply Q. apply app_inj_tail in Q'. apply Q'.
Qed.
Print Assumptions C41_keys_differ.

(** The twelve labels are those of RFC 9528 and pairwise different. *)
Theorem C41_labels :
  [KEYSTREAM_2; SALT_3e2m; MAC_2; K_3; IV_3; SALT_4e3m; MAC_3; PRK_out; K_4; IV_4; PRK_exporter; PRK_out_update_label] =
  [L_KEYSTREAM_2; L_SALT_3e2m; L_MAC_2; L_K_3; L_IV_3; L_SALT_4e3m; L_MAC_3; L_PRK_out; L_K_4; L_IV_4; L_PRK_exporter;
   L_PRK_out_update] /\
  NoDup [KEYSTREAM_2; SALT_3e2m; MAC_2; K_3; IV_3; SALT_4e3m; MAC_3; PRK_out; K_4; IV_4; PRK_exporter; PRK_out_update_label].
Proof.
  split; [reflexivity|].
  repeat constructor; cbn; intros H; repeat (destruct H as [H|H]; [discriminate|]); assumption.
Qed.
Print Assumptions C41_labels.

(** The exporter's labels are not different from them: what separates exported keys
    from the others is the key PRK_exporter, not the label. *)
Theorem C41_exporter_labels_refuted : forall (cr : crypto) (cf : cfg) (prk : bytes) (n : N),
  edhoc_exporter cr cf OSCORE_MASTER_SECRET prk n = edhoc_kdf cr cf prk KEYSTREAM_2 [] n /\
  edhoc_exporter cr cf OSCORE_MASTER_SALT prk n = edhoc_kdf cr cf prk SALT_3e2m [] n.
Proof. intros. split; reflexivity. Qed.
Print Assumptions C41_exporter_labels_refuted.

(** The exporter: PRK_exporter, the updated PRK_out and every exported key are the
    ones of RFC 9528 sections 4.2.1 and appendix H, and are always available for
    labels below 24. *)
Theorem C41_exporter_is_rfc :
  forall (cr : crypto) (cf : cfg) (prk_out prk_exporter ctx : bytes) (label n : N),
  (forall k m, lenN (cr_hmac cr k m) = 32) -> label < 24 -> n <= 254 * 32 -> lenN ctx < 2 ^ 32 ->
  6 <= INFO_MAX_SIZE cf -> as_bstr_size (lenN ctx) + 4 <= INFO_MAX_SIZE cf ->
  prk_out2exporter cr cf prk_out n = Ok (rfc_kdf (cr_hmac cr) prk_out 10 [] n) /\
  prk_out_update cr cf prk_out ctx n = Ok (rfc_kdf (cr_hmac cr) prk_out 11 ctx n) /\
  edhoc_exporter cr cf label prk_exporter n = Ok (rfc_kdf (cr_hmac cr) prk_exporter label [] n) /\
  OSCORE_MASTER_SECRET = 0 /\ OSCORE_MASTER_SALT = 1.
Proof.
  intros cr cf prk_out prk_exporter ctx label n HL Hl Hn Hc Hi Hi'.
  assert (E : as_bstr_size (lenN (@nil N)) + 4 <= INFO_MAX_SIZE cf) by (etransitivity; [|exact Hi]; apply N.leb_le; reflexivity).
  repeat split; (apply kdf_fits; try assumption; apply N.ltb_lt; reflexivity).
Qed.
Print Assumptions C41_exporter_is_rfc.

Example C41_example :
  (exists k, edhoc_kdf toy_crypto default_cfg (repeat 3 32) K_3 (repeat 4 32) 32 = Ok k /\ lenN k = 32) /\
  edhoc_kdf toy_crypto default_cfg (repeat 3 32) K_3 (repeat 4 32) 32 <>
  edhoc_kdf toy_crypto default_cfg (repeat 3 32) K_4 (repeat 4 32) 32.
Proof.
  split; [eexists; split; vm_compute; reflexivity|]. vm_compute. discriminate.
Qed.
