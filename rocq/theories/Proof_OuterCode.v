(** A request that was decrypted is decrypted again when its outer code is that of a
    response: the branch for responses finds the entry that the request left behind. *)
From Verif Require Import Base Proof_Base Model_Common Model_Crypto Model_OscorePrims Model_Coap Spec_Coap Proof_Coap
  Model_Interactions Spec_Interactions Proof_Interactions Model_Context Model_Send Proof_Send
  Model_Recv Proof_Recv Model_Replay Model_Run Proof_Options Spec_Session Proof_Run Proof_Session Proof_Echo Spec_OuterCode.

Lemma set_nth_id {A} (l : list A) n x : nth_error l n = Some x -> set_nth l n x = l.
Proof. revert n. induction l as [|y l IH]; intros [|n] H; cbn in *; try discriminate; [congruence|]. f_equal. auto. Qed.

Lemma set_record_again t r t' : table_ok t -> set_record t r = Ok t' -> set_record t' r = Ok t'.
Proof.
  intros HT H. destruct (set_record_held _ _ _ HT H) as (HT' & SZ & HH).
  rewrite set_record_eq. apply sizes_dec in SZ. rewrite SZ.
  assert (Hr : held t' r) by (apply HH; auto).
  destruct (slot_of t' r) as [i|] eqn:Hi.
  - pose proof (token_clash t' r i HT' Hi) as TC. destruct ((find_by_token t' (i_token r) <? 3)%nat && _).
    + destruct (proj1 TC eq_refl) as (s & Hs & Et & NS). apply HH in Hs as [->|[Hs _]]; [destruct NS; split; reflexivity|].
      exfalso. destruct HT' as (_ & _ & HU). assert (Hs' : held t' s) by (apply HH; auto).
      apply In_nth_error in Hs' as (a & Ha). apply In_nth_error in Hr as (b & Hb).
      assert (a = b) by (eapply HU; [exact Ha|exact Hb|left; exact Et]). subst. rewrite Ha in Hb. injection Hb as ->. apply NS. split; reflexivity.
    + f_equal. apply set_nth_id. destruct (slot_of_spec _ _ _ HT' Hi) as (_ & [(s & Hs & HR)|(_ & NR)]).
      * apply In_nth_error in Hr as (b & Hb). destruct HT' as (_ & _ & HU).
        assert (i = b) by (eapply HU; [exact Hs|exact Hb|right; exact HR]). congruence.
      * destruct (NR r Hr). split; reflexivity.
  - apply slot_of_none in Hi as [_ NR]; [|exact HT']. destruct (NR r Hr). split; reflexivity.
Qed.

Lemma update_again ty tok uri t piv kid t' : table_ok t -> ty = MREQUEST \/ ty = MREGISTRATION \/ ty = MCANCELLATION ->
  update_wrapper ty tok uri t piv kid = Ok t' ->
  update_wrapper ty tok uri t' piv kid = Ok t' /\ exists s, get_record t' tok = Ok s /\ i_piv s = piv /\ i_kid s = kid.
Proof.
  intros HT TY H. split.
  - unfold update_wrapper in *. destruct TY as [-> | [-> | ->]];
      (apply bind_ok in H as ([] & E1 & H); apply bind_ok in H as ([] & E2 & H);
       apply bind_ok in H as ([] & E3 & H); apply bind_ok in H as ([] & E4 & H);
       rewrite E1; cbn [bind]; rewrite E2; cbn [bind]; rewrite E3; cbn [bind]; rewrite E4; cbn [bind];
       eapply set_record_again; eassumption).
  - destruct (update_wrapper_sets _ _ _ _ _ _ _ HT H TY) as (s & Hs & P & K & T).
    apply update_wrapper_ok in H; [|exact HT]. exists s. split; [|auto]. apply get_record_held; auto.
Qed.

Definition set_code (code : N) (k : cpkt) : cpkt :=
  {| k_hdr := {| h_ver := h_ver (k_hdr k); h_type := h_type (k_hdr k); h_tkl := h_tkl (k_hdr k); h_code := code; h_mid := h_mid (k_hdr k) |};
     k_token := k_token k; k_opts := k_opts k; k_payload := k_payload k |}.

Lemma recode_parse code input k : coap_deserialize input = Ok k -> coap_deserialize (recode code input) = Ok (set_code code k).
Proof.
  unfold coap_deserialize. destruct input as [|a [|b [|x [|y r]]]]; try discriminate.
  assert (L : lenN (recode code (a :: b :: x :: y :: r)) = lenN (a :: b :: x :: y :: r)) by reflexivity. rewrite L.
  destruct (_ <? _); [discriminate|]. cbn [recode].
  unfold rd. change (N.to_nat 0) with 0%nat. change (N.to_nat 1) with 1%nat. change (N.to_nat 2) with 2%nat. change (N.to_nat 3) with 3%nat.
  cbn [nth_error bind].
  change (dropN 4 (a :: code :: x :: y :: r)) with r. change (dropN 4 (a :: b :: x :: y :: r)) with r.
  destruct (_ <? _); [discriminate|]. destruct (_ <? _); [discriminate|].
  destruct (options_deserialize _ _) as [[opts payload]|e|u]; cbn [bind]; try discriminate. intros E. injection E as <-. reflexivity.
Qed.

Lemma is_request_code' k : is_request k = (h_code (k_hdr k) <? 32).
Proof.
  destruct (is_request k) eqn:E; symmetry.
  - apply is_request_spec in E. apply N.ltb_lt. exact E.
  - apply N.ltb_ge. destruct (N.lt_ge_cases (h_code (k_hdr k)) 32) as [L|L]; [|exact L]. apply is_request_spec in L. congruence.
Qed.

Section Replay.
Variable cr : crypto.

Lemma ctx_again c : set_inter (set_nonce c (c_nonce c)) (c_inter c) = c.
Proof. destruct c. reflexivity. Qed.

Lemma decrypt_again c o k pt out c1 code w e : table_ok (c_inter c) ->
  decrypt_wrapper cr c (Some o) k = (c1, Ok (pt, out)) -> is_request k = true -> is_request out = true -> 32 <= code ->
  decrypt_wrapper cr (set_echo (set_win c1 w) e) (Some o) (set_code code k) = (set_echo (set_win c1 w) e, Ok (pt, out)).
Proof.
  intros HT H RQ RO HC. pose proof H as HE. apply decrypt_wrapper_effect in HE as ((SK & SR & _) & _ & _).
  apply decrypt_wrapper_ok in H as (rpiv & rkid & nonce & aad & uri & (RD & NO & AA & DE) & CN & PG & UP & UW).
  apply type_request in RO. apply type_request in RQ.
  assert (ER : rpiv = co_piv o /\ rkid = takeN (co_kid_len o) (co_kid_mem o)).
  { destruct RQ as [T|[T|T]]; rewrite T in RD; cbn [read_wrapper] in RD; injection RD as <- <-; auto. }
  destruct (update_again _ _ _ _ _ _ _ HT RO UW) as (UW2 & s & GR & SP & SI).
  set (d := set_echo (set_win c1 w) e).
  assert (D1 : c_inter d = c_inter c1) by reflexivity. assert (D2 : c_nonce d = c_nonce c1) by reflexivity.
  assert (D3 : c_iv d = c_iv c) by (unfold same_keys in SK; cbn; tauto). assert (D4 : c_alg d = c_alg c) by (unfold same_keys in SK; cbn; tauto).
  assert (D5 : c_rkey d = c_rkey c) by (unfold same_keys in SK; cbn; tauto).
  destruct NO as (kid & KV & NO).
  unfold decrypt_wrapper. cbn [set_code k_token k_payload k_opts].
  assert (RW : read_wrapper (coap_get_message_type (set_code code k)) (k_token k) (c_inter d)
    (Some (co_piv o, takeN (co_kid_len o) (co_kid_mem o))) = Ok (rpiv, rkid)).
  { assert (F : is_request (set_code code k) = false) by (rewrite is_request_code'; apply N.ltb_ge; exact HC).
    apply type_response in F as [T|T]; rewrite T; cbn [read_wrapper]; rewrite D1, GR; cbn [bind]; congruence. }
  fold (set_code code k). rewrite RW. cbn [tryc]. rewrite KV. cbn [bind]. rewrite D3, NO. cbn [tryc]. rewrite D4, AA. cbn [tryc].
  rewrite D5, DE. cbn [tryc].
  assert (PG' : o_coap_pkg_generate pt (set_code code k) = Ok out) by exact PG.
  rewrite PG'. cbn [tryc]. rewrite UP. cbn [tryc].
  assert (I : c_inter (set_nonce d nonce) = c_inter c1) by reflexivity. rewrite I, UW2. cbn [tryc].
  f_equal. rewrite <- D1, <- CN, <- D2. apply ctx_again.
Qed.

Lemma delivered_code input k pt out buf : crypto_ok cr -> is_bytes input -> lenN input < 2 ^ 32 -> lenN buf < 2 ^ 32 -> coap_deserialize input = Ok k ->
  is_bytes pt -> lenN pt < 2 ^ 32 -> o_coap_pkg_generate pt k = Ok out ->
  forall w, coap_serialize out (lenN buf) = (w, Ok tt) -> is_request_message (takeN (lenN w) (written w buf)) -> is_request out = true.
Proof.
  intros OK HB HL HBL EK PB PL PG w HS (b & E & Hb).
  destruct (pkg_generate_wf _ _ _ _ HB HL EK PB PL PG) as (W1 & (H1 & H2 & H3 & H4 & H5) & _).
  apply coap_serialize_ok in HS as (-> & _ & _); [|assumption..].
  assert (TK : takeN (lenN (pkt_bytes out)) (written (pkt_bytes out) buf) = pkt_bytes out).
  { unfold written, takeN. unfold lenN. rewrite Nnat.Nat2N.id, firstn_app, Nat.sub_diag, firstn_O, app_nil_r. apply firstn_all. }
  rewrite TK in E. unfold pkt_bytes, header_bytes in E. cbn [app nth_error] in E. injection E as E.
  rewrite is_request_code'. apply N.ltb_lt. unfold u8 in E. rewrite N.mod_small in E by (change 256 with (2 ^ 8); unfold is_byte in *; assumption). lia.
Qed.
End Replay.
