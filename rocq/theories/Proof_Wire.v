(** The bytes coap2oscore puts on the wire. *)
From Verif Require Import Base Proof_Base Model_Common Model_Crypto Model_Cbor Model_OscorePrims Spec_OscorePrims Proof_OscorePrims
  Model_Coap Spec_Coap Proof_Coap Model_Interactions Model_Context Spec_Options Proof_Options
  Model_Send Model_Recv Model_Run Spec_Interactions Proof_Interactions Proof_Send Proof_Recv
  Spec_Session Proof_Run Proof_Session Proof_Nonce.

Lemma insert_oscore_wf val : lenN val < 2 ^ 16 -> forall u placed s,
  Forall (fun o => lenN (o_val o) < 2 ^ 16) u ->
  Forall (fun o => lenN (o_val o) < 2 ^ 16) (insert_oscore u placed val s) /\
  lenN (insert_oscore u placed val s) <= lenN u + 1.
Proof.
  intros HV. induction u as [|o u IH]; intros placed s F.
  - cbn [insert_oscore]. destruct placed; [split; [constructor|rewrite !lenN_nil; lia]|].
    split; [repeat constructor; exact HV|]. rewrite lenN_cons, !lenN_nil. lia.
  - inversion F; subst. cbn [insert_oscore]. destruct (negb placed && (OPT_OSCORE <? o_num o)).
    + destruct (IH true (u8 (u8 (s + u16 (OPT_OSCORE + 2 ^ 16 - s)) + u16 (o_num o + 2 ^ 16 - u8 (s + u16 (OPT_OSCORE + 2 ^ 16 - s)))))) as [A B]; [assumption|].
      split; [repeat constructor; assumption|]. cbn [o_delta]. rewrite !lenN_cons.
      assert (C : forall s', lenN (insert_oscore u true val s') <= lenN u).
      { clear. induction u as [|x u IH]; intros s'; cbn [insert_oscore negb andb]; [reflexivity|]. rewrite !lenN_cons. specialize (IH (u8 (s' + o_delta
          {| o_delta := u16 (o_num x + 2 ^ 16 - s'); o_num := o_num x; o_val := o_val x; o_tail := o_tail x |}))). lia. }
      match goal with |- context [insert_oscore u true val ?x] => specialize (C x) end. lia.
    + match goal with |- context [insert_oscore u placed val ?x] => destruct (IH placed x) as [A B]; [assumption|] end.
      split; [constructor; assumption|]. rewrite !lenN_cons. lia.
Qed.

(** The new options depend only on numbers and values of the old ones. *)
Lemma insert_oscore_ext val : forall u v placed s, map nv u = map nv v -> Forall (fun o => o_tail o = []) u -> Forall (fun o => o_tail o = []) v ->
  insert_oscore u placed val s = insert_oscore v placed val s.
Proof.
  induction u as [|o u IH]; intros [|o' v] placed s E Fu Fv; try discriminate; [reflexivity|].
  cbn [map] in E. injection E as E1 E2 E3. inversion Fu as [|? ? T1 F1]; inversion Fv as [|? ? T2 F2]; subst.
  cbn [insert_oscore]. rewrite E1, E2, T1, T2. rewrite !(IH v) by assumption. reflexivity.
Qed.

Lemma split_loop_tails req opts : forall nr esum usum elen E U l, split_loop req opts nr esum usum elen = (E, U, l) ->
  Forall (fun o => o_tail o = []) E /\ Forall (fun o => o_tail o = []) U.
Proof.
  induction opts as [|o opts IH]; intros nr esum usum elen E U l H; cbn [split_loop] in H.
  - injection H as <- <- <-. auto.
  - destruct (_ =? OPT_OBSERVE); [|destruct (is_class_e _)];
      destruct (split_loop _ _ _ _ _ _) as [[e u] l'] eqn:R in H; injection H as <- <- <-; apply IH in R as [A B]; auto.
Qed.

Lemma split_loop_elen req opts : forall nr esum usum elen E U l, elen < 2 ^ 16 ->
  split_loop req opts nr esum usum elen = (E, U, l) -> l < 2 ^ 16.
Proof.
  induction opts as [|o opts IH]; intros nr esum usum elen E U l HE H; cbn [split_loop] in H.
  - injection H as <- <- <-. exact HE.
  - destruct (_ =? OPT_OBSERVE); [|destruct (is_class_e _)];
      destruct (split_loop _ _ _ _ _ _) as [[e u] l'] eqn:R in H; injection H as <- <- <-; apply IH in R; auto using u16_lt.
    destruct req; apply u16_lt.
Qed.

Lemma coap_payload_len d k : coap_deserialize d = Ok k -> is_bytes d -> lenN (k_payload k) <= lenN d.
Proof.
  intros H HB. unfold coap_deserialize in H. destruct (_ <? _) in H; [discriminate|].
  apply bind_ok in H as (b0 & _ & H). apply bind_ok in H as (b1 & _ & H). apply bind_ok in H as (b2 & _ & H). apply bind_ok in H as (b3 & _ & H).
  destruct (_ <? _) in H; [discriminate|]. destruct (_ <? _) in H; [discriminate|].
  apply bind_ok in H as ([o p] & HO & H). injection H as <-. cbn [k_payload].
  apply options_parse_sound in HO as (_ & _ & _ & _ & L & _); [|auto using is_bytes_dropN]. rewrite !lenN_dropN in L. lia.
Qed.

Lemma option_generate_len piv kid ctx v : oscore_option_generate piv kid ctx = Ok v -> lenN v <= 23.
Proof.
  unfold oscore_option_generate. set (len := u8 _). intros H. apply bind_ok in H as ([] & HC & H).
  unfold check_buffer_size, OSCORE_OPT_VALUE_LEN in HC. destruct (N.ltb_spec 23 len); [discriminate|].
  destruct (len =? 0); [injection H as <-; rewrite lenN_nil; lia|].
  apply bind_ok in H as (w1 & _ & H). apply bind_ok in H as (w2 & _ & H). apply bind_ok in H as (w3 & _ & H).
  injection H as <-. rewrite lenN_takeN. lia.
Qed.

Lemma plaintext_setup_len code e p plen pt : plaintext_setup code e p plen = Ok pt -> lenN pt = plen.
Proof.
  intros H. unfold plaintext_setup in H. apply bind_ok in H as (s & _ & H). apply bind_ok in H as ([] & _ & H).
  apply bind_ok in H as (w & _ & H). destruct (N.ltb_spec (lenN w) plen); [discriminate|]. injection H as <-. rewrite lenN_takeN. lia.
Qed.

Lemma selects_fun {A} (P : A -> Prop) l : forall r r', selects P l r -> selects P l r' -> r = r'.
Proof.
  induction l as [|x l IH]; intros r r' H H'; inversion H; inversion H'; subst; auto; try contradiction. f_equal. auto.
Qed.

(** Outside the message-layer exception. *)
Definition empty_ack (k : cpkt) : Prop := h_type (k_hdr k) = 2 /\ h_code (k_hdr k) = 0.

Section WithCrypto.
Variable cr : crypto.
Variable nw : N -> res unit.

(** Everything about a protected message that was sent. *)
Definition protected (c : ctx) (k : cpkt) (s : sstate) (wire : bytes) : Prop :=
  exists e u elen pt ct opt nonce aad piv kid kctx rpiv rkid out,
    inner_outer_option_split k = Ok (e, u, elen) /\
    plaintext_setup (h_code (k_hdr k)) e (k_payload k)
      (if lenN (k_payload k) =? 0 then 1 + elen else u32 (1 + elen + 1 + lenN (k_payload k))) = Ok pt /\
    lenN pt <= 1024 /\
    wire_ids (uses_new_piv c k) c piv kid kctx /\
    (if uses_new_piv c k then create_nonce (c_sid c) piv (c_iv c) = Ok nonce else nonce = c_nonce c) /\
    oscore_option_generate piv kid kctx = Ok opt /\
    read_wrapper (coap_get_message_type k) (k_token k) (c_inter c) (Some (piv, kid)) = Ok (rpiv, rkid) /\
    create_aad (c_alg c) rkid rpiv MAX_AAD_LEN = Ok aad /\
    s_enc s = Some (nonce, aad, pt) /\
    oscore_cose_encrypt cr pt nonce aad (c_skey c) = Ok ct /\
    cr_aead_enc cr (c_skey c) nonce (rfc_aad (c_alg c) rkid rpiv) 8 pt = Some ct /\
    oscore_pkg_generate k u ct opt = Ok out /\
    pkt_wf out /\ hdr_wf (k_hdr out) /\ wire = pkt_bytes out.

Lemma pkg_out_wf input k e u elen ct opt out : is_bytes input -> lenN input < 2 ^ 32 -> coap_deserialize input = Ok k ->
  inner_outer_option_split k = Ok (e, u, elen) -> lenN ct < 2 ^ 32 -> lenN opt <= 23 ->
  oscore_pkg_generate k u ct opt = Ok out -> pkt_wf out /\ hdr_wf (k_hdr out).
Proof.
  intros HB HL EK ES HC HO EG. destruct (coap_parse_sound _ _ EK HB HL) as (W & HW & L19 & OW & NC & _).
  unfold inner_outer_option_split in ES. destruct (_ <? _) in ES; [discriminate|]. injection ES as ES.
  destruct (split_loop_spec (is_request k) (k_opts k) 0 0 0 0 e u elen NC eq_refl eq_refl eq_refl ES) as (_ & _ & _ & SU & _).
  assert (FU : Forall (fun o => lenN (o_val o) < 2 ^ 16) u).
  { rewrite Forall_forall in *. intros o Ho. assert (I : In (nv o) (map nv (k_opts k))) by (eapply selects_incl; [exact SU|apply in_map; exact Ho]).
    apply in_map_iff in I as (y & E & Hy). unfold nv in E. injection E as _ E. rewrite <- E. apply (OW y Hy). }
  assert (LU : lenN u <= 19).
  { pose proof (selects_len _ _ _ SU) as L. rewrite !map_length in L. unfold lenN in *. lia. }
  unfold oscore_pkg_generate in EG. destruct (_ <? _) in EG; [discriminate|]. injection EG as <-.
  destruct W as (W1 & W2 & W3 & W4 & W5). destruct HW as (H1 & H2 & H3 & H4 & H5).
  destruct (insert_oscore_wf opt ltac:(change (2 ^ 16) with 65536; lia) u false 0 FU) as [A B].
  split.
  - unfold pkt_wf; cbn [k_hdr k_token k_opts k_payload h_tkl]. repeat split; try assumption. lia.
  - unfold hdr_wf; cbn [k_hdr h_ver h_type h_tkl h_code h_mid]. repeat split; try assumption.
    destruct (is_request k), (is_observe u); reflexivity.
Qed.

Lemma send_result c input k buf s b n : crypto_ok cr -> is_bytes input -> lenN input < 2 ^ 32 -> lenN buf < 2 ^ 32 ->
  coap_deserialize input = Ok k -> coap2oscore cr nw c input buf = (s, b, Ok n) ->
  c_ssn c < OSCORE_SSN_OVERFLOW_VALUE /\
  ((empty_ack k /\ s = s0 c /\ b = written input buf /\ n = lenN input /\ lenN input <= lenN buf) \/
   (~ empty_ack k /\ exists wire, protected c k s wire /\ b = written wire buf /\ n = lenN wire /\ lenN wire <= lenN buf)).
Proof.
  intros OK HB HL HBL EK H. unfold coap2oscore in H. destruct (coap2oscore_core cr nw c input) as [s' rc] eqn:C.
  assert (SL : c_ssn c < OSCORE_SSN_OVERFLOW_VALUE).
  { destruct (N.lt_ge_cases (c_ssn c) OSCORE_SSN_OVERFLOW_VALUE) as [L|L]; [exact L|].
    unfold coap2oscore_core, check_context_freshness in C. destruct (N.leb_spec OSCORE_SSN_OVERFLOW_VALUE (c_ssn c)); [|lia].
    injection C as <- <-. discriminate H. }
  split; [exact SL|].
  destruct rc as [[out|w]|e|u]; try discriminate.
  - right. destruct (coap_serialize out (lenN buf)) as [w [[]|er|ur]] eqn:SR; try discriminate. injection H as <- <- <-.
    apply core_inl in C as (k' & e & u & elen & pt & s1 & ct & opt & _ & EK' & NA & ES & EP & EE & EW & EG & PL).
    rewrite EK in EK'. injection EK' as <-. split.
    { intros [A1 A2]. rewrite A1, A2 in NA. discriminate. }
    apply echo_stage_spec in EE as (_ & _ & EE).
    assert (I : c_inter (s_ctx s1) = c_inter c /\ c_sid (s_ctx s1) = c_sid c /\ c_ssn (s_ctx s1) = c_ssn c /\ c_iv (s_ctx s1) = c_iv c /\
      c_alg (s_ctx s1) = c_alg c /\ c_skey (s_ctx s1) = c_skey c /\ c_id_context (s_ctx s1) = c_id_context c /\ c_nonce (s_ctx s1) = c_nonce c /\
      c_echo (s_ctx s1) = c_echo c).
    { destruct EE as [->|(bb & m & _ & _ & ->)]; cbn; auto 12. }
    destruct I as (I1 & I2 & I3 & I4 & I5 & I6 & I7 & I8 & I9).
    apply encrypt_wrapper_ok in EW as (piv & kid & kctx & nonce & rpiv & rkid & aad & uri & t & WI & NN & OG & RW & AA & CE & _ & _ & _ & SE).
    unfold wire_ids, uses_new_piv in *. rewrite I1, I2, I3, I4, I5, I6, I7, I8, I9 in *.
    pose proof (plaintext_setup_len _ _ _ _ _ EP) as LP.
    pose proof (cose_encrypt_rfc cr _ _ _ _ _ _ _ _ AA CE) as AE.
    pose proof (ok_aead_enc_len _ OK _ _ _ _ _ _ AE) as LC.
    destruct (pkg_out_wf _ _ _ _ _ _ _ _ HB HL EK ES ltac:(rewrite LC, LP; lia) (option_generate_len _ _ _ _ OG) EG) as [W HW].
    apply coap_serialize_ok in SR as (-> & LW & _); [|assumption..].
    exists (pkt_bytes out). split; [|auto].
    exists e, u, elen, pt, ct, opt, nonce, aad, piv, kid, kctx, rpiv, rkid, out.
    unfold wire_ids, uses_new_piv. conj; try assumption; try reflexivity. lia.
  - left. apply core_inr in C as (-> & -> & k' & EK' & T1 & T2). rewrite EK in EK'. injection EK' as <-.
    destruct (N.ltb_spec (lenN buf) (lenN input)); [discriminate|]. injection H as <- <- <-. repeat split; auto.
Qed.
End WithCrypto.
