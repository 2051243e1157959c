(** What of a message gets into the plaintext, for every message within the limits of the
    parser and the option buffers: all of it, or all but the payload. *)
From Verif Require Import Base Proof_Base Model_Common Model_Crypto Model_OscorePrims Proof_OscorePrims
  Model_Coap Spec_Coap Proof_Coap Model_Interactions Model_Context Spec_Options Proof_Options
  Spec_UriPath Model_Send Model_Recv Model_Run Spec_Interactions Proof_Send Proof_Run Proof_Session
  Spec_RoundTrip Proof_RoundTrip Spec_Protect Proof_Protect.

Lemma plaintext_ok code e payload elen g pt :
  opt_sum e <= 100 -> lenN (ser_opts e) = elen + g -> lenN payload < 2 ^ 16 ->
  plaintext_setup code e payload (if lenN payload =? 0 then 1 + elen else u32 (1 + elen + 1 + lenN payload)) = Ok pt ->
  (g = 0 /\ pt = code :: ser_opts e ++ marked payload) \/
  (negb (lenN payload =? 0) && (g =? lenN payload + 1) = true /\ pt = code :: ser_opts e).
Proof.
  change (2 ^ 16) with 65536. intros HO HS HP H.
  destruct (N.le_gt_cases (lenN payload) 922) as [L|L].
  { rewrite (plaintext_total code e payload elen g HO HS L) in H.
    destruct (N.eqb_spec g 0) as [G|G]; [injection H as <-; auto|].
    destruct (negb _ && _); [injection H as <-; auto|discriminate]. }
  pose proof (ser_opts_le e) as LE. unfold plaintext_setup, options_serialize in H.
  rewrite (serialize_fits E_OPTIONS_BUFF_MAX_LEN E_OPTIONS_BUFF_MAX_LEN e []) in H by
    (unfold E_OPTIONS_BUFF_MAX_LEN; change (2 ^ 32) with 4294967296; rewrite ?lenN_nil; lia).
  cbn [bind app] in H.
  assert (U : u32 (1 + elen + 1 + lenN payload) = 2 + elen + lenN payload) by (unfold u32; change (2 ^ 32) with 4294967296; rewrite N.mod_small; lia).
  rewrite U in H. destruct (N.eqb_spec (lenN payload) 0) as [Z|Z]; [lia|]. cbn [negb andb].
  assert (M : marked payload = 255 :: payload) by (destruct payload; [destruct Z; reflexivity|reflexivity]). rewrite M.
  apply bind_ok in H as (_ & _ & H). unfold MAX_PLAINTEXT_LEN in H. rewrite lenN_cons in H.
  destruct (N.leb_spec 1024 (1 + lenN (ser_opts e))); [discriminate|].
  apply bind_ok in H as (w & H1 & H2). apply bind_ok in H1 as (tt' & C & H1). unfold check_buffer_size in C. destruct (N.ltb_spec (sub32 (2 + elen + lenN payload) (1 + lenN (ser_opts e) + 1)) (lenN payload)) as [|C']; [discriminate|]. clear C.
  destruct (N.ltb_spec 1024 (1 + lenN (ser_opts e) + 1 + lenN payload)); [discriminate|]. injection H1 as <-.
  change ((code :: ser_opts e) ++ [255] ++ payload) with (code :: ser_opts e ++ 255 :: payload) in H2.
  rewrite lenN_cons, lenN_app, lenN_cons in H2.
  destruct (N.ltb_spec (1 + (lenN (ser_opts e) + (1 + lenN payload))) (2 + elen + lenN payload)); [discriminate|]. injection H2 as <-.
  rewrite sub32_small in C' by lia. assert (g = 0) by lia. left. split; [assumption|].
  apply takeN_all. rewrite lenN_cons, lenN_app, lenN_cons. lia.
Qed.

Lemma plaintext_sent m input k e u elen pt :
  rfc_message m input -> nearly_supported m input -> is_bytes input -> coap_deserialize input = Ok k ->
  inner_outer_option_split k = Ok (e, u, elen) ->
  plaintext_setup (h_code (k_hdr k)) e (k_payload k)
    (if lenN (k_payload k) =? 0 then 1 + elen else u32 (1 + elen + 1 + lenN (k_payload k))) = Ok pt ->
  pt = m_code m :: ser_opts e ++ marked (arriving m) /\ (growth m = 0 \/ squeezed_out m = true).
Proof.
  intros HM SUP HB EK ES EP.
  destruct (coap_parse_rfc m input HM (proj1 SUP)) as (k' & EK' & EM & TK & DC).
  rewrite EK in EK'. injection EK' as <-.
  destruct SUP as ((PD & PV & PN & PC & PB) & DI & LI & N9 & ND & SZ).
  assert (EO : map nv (k_opts k) = m_opts m) by (rewrite <- EM; reflexivity).
  assert (EPL : k_payload k = m_payload m) by (rewrite <- EM; reflexivity).
  assert (ECD : h_code (k_hdr k) = m_code m) by (rewrite <- EM; reflexivity).
  assert (FN : Forall (fun o => o_num o < 2 ^ 16) (k_opts k)) by (apply (forall_nums (fun n => n < 2 ^ 16)); rewrite EO; exact PN).
  assert (LI32 : lenN input < 2 ^ 32) by (change (2^32) with 4294967296; change (2 ^ 16) with 65536 in PB; lia).
  destruct (coap_parse_sound _ _ EK HB LI32) as (W & HWk & L19 & OW & NC & PBY & _).
  pose proof ES as ES'. unfold inner_outer_option_split in ES'. destruct (_ <? _) in ES'; [discriminate|]. injection ES' as ES'.
  destruct (split_loop_spec (is_request k) (k_opts k) 0 0 0 0 e u elen NC eq_refl eq_refl eq_refl ES') as (inner & SI & EI & SU & _ & _).
  rewrite EO in SI, SU.
  apply (selects_filter _ (fun p => negb (is_class_u (fst p)))) in SI; [|intros x; apply inside_dec].
  fold (inside_opts m) in SI. subst inner.
  assert (SK : opt_sum (k_opts k) <= 100) by (rewrite opt_sum_size, EO; exact SZ).
  destruct (split_exact (is_request k) (k_opts k) 0 0 0 0 e u elen DC FN ltac:(reflexivity) ltac:(lia) ltac:(lia)
    ltac:(change (2 ^ 16) with 65536; lia) ES') as [LE LL].
  rewrite EO in LE. fold (growth m) in LE. rewrite N.add_0_r in LE.
  assert (FSZ : forall f l, opts_size (filter f l) <= opts_size l).
  { intros f l. induction l as [|p l IH]; [reflexivity|]. cbn [filter]. unfold opts_size in *. destruct (f p); cbn [fold_right]; lia. }
  assert (OE : opt_sum e <= 100).
  { rewrite opt_sum_size, EI. pose proof (opts_size_inner (is_request k) (inside_opts m)).
    pose proof (FSZ (fun p => negb (is_class_u (fst p))) (m_opts m)). unfold inside_opts in *. lia. }
  rewrite EPL, ECD in EP.
  assert (LP : lenN (m_payload m) < 2 ^ 16).
  { destruct HM as (_ & _ & _ & _ & _ & body & (ob & _ & ->) & ->). rewrite !lenN_app in PB.
    change (2 ^ 16) with 65536 in *. unfold marked in PB. destruct (m_payload m) eqn:E0; [reflexivity|]. rewrite !lenN_cons in *. lia. }
  destruct (plaintext_ok _ _ _ _ _ _ OE LE LP EP) as [[G ->]|[G ->]]; unfold arriving.
  - rewrite G. change (0 =? 0) with true. auto.
  - fold (squeezed_out m) in G. split; [|auto]. unfold squeezed_out in G. apply andb_prop in G as [_ G]. apply N.eqb_eq in G.
    destruct (N.eqb_spec (growth m) 0); [lia|]. cbn [marked]. rewrite app_nil_r. reflexivity.
Qed.

Lemma arriving_le m : lenN (arriving m) <= lenN (m_payload m).
Proof. unfold arriving. destruct (_ =? 0); [lia|]. rewrite lenN_nil. lia. Qed.

(** The encoding without the payload. *)
Lemma without_payload m input : rfc_message m input ->
  exists input2, rfc_message (with_payload m (arriving m)) input2 /\ lenN input2 <= lenN input.
Proof.
  unfold arriving. destruct (growth m =? 0); [intros H; exists input; rewrite with_own; split; [exact H|lia]|].
  intros (H1 & H2 & H3 & H4 & H5 & body & (ob & HO & ->) & ->). eexists. split.
  - unfold rfc_message. cbn [with_payload m_ver m_type m_code m_mid m_token m_opts m_payload].
    do 5 (split; [assumption|]). eexists. split; [|reflexivity]. exists ob. split; [exact HO|reflexivity].
  - cbn [marked]. rewrite !lenN_app, !lenN_nil. lia.
Qed.
