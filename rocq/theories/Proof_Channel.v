(** Who sealed a message that oscore2coap accepts. *)
From Verif Require Import Base Proof_Base Model_Common Model_Crypto Model_Cbor Proof_Cbor Model_OscorePrims Spec_OscorePrims Proof_OscorePrims
  Spec_CborTree Proof_CborTree
  Model_Coap Spec_Coap Proof_Coap Model_Interactions Model_Context Spec_Options Proof_Options
  Spec_OscoreOption Proof_OscoreOption
  Model_Send Model_Recv Model_Run Spec_Interactions Proof_Interactions Proof_Send Proof_Recv
  Spec_Session Proof_Run Proof_Session Proof_Nonce Proof_Wire Proof_Echo Spec_RoundTrip Proof_RoundTrip Proof_EdhocSame Spec_Channel.

(** ** AAD *)
Lemma aad_inj alg kid piv a kid' piv' a' : is_int32 alg ->
  create_aad alg kid piv MAX_AAD_LEN = Ok a -> create_aad alg kid' piv' MAX_AAD_LEN = Ok a' ->
  cbor (rfc_enc_structure a) = cbor (rfc_enc_structure a') -> kid = kid' /\ piv = piv'.
Proof.
  intros HA H1 H2 H.
  assert (SH : forall k p x, create_aad alg k p MAX_AAD_LEN = Ok x -> lenN k < 2 ^ 32 /\ lenN p < 2 ^ 32 /\ lenN x < 2 ^ 32).
  { intros k p x E. pose proof (create_aad_len _ _ _ _ _ E) as L. unfold create_aad in E. apply cbor_put_ok in E as [-> _].
    rewrite !lenN_app in L. pose proof (enc_bstr_ge k). pose proof (enc_bstr_ge p).
    unfold MAX_AAD_LEN in L. change (2 ^ 32) with 4294967296. rewrite !lenN_app. lia. }
  destruct (SH _ _ _ H1) as (A1 & A2 & A3). destruct (SH _ _ _ H2) as (B1 & B2 & B3).
  assert (E : a = a').
  { assert (F : forall x, oscore_enc_structure x (lenN (cbor (rfc_enc_structure x))) = Ok (cbor (rfc_enc_structure x))).
    { intros x. rewrite enc_structure_is_rfc. unfold cbor_put. rewrite N.leb_refl. reflexivity. }
    eapply enc_structure_inj; [exact A3|exact B3|apply F|rewrite H; apply F]. }
  subst a'. destruct (create_aad_inj _ _ _ _ _ _ _ _ _ HA HA A1 B1 A2 B2 H1 H2) as (_ & ? & ?). auto.
Qed.

Section WithCrypto.
Variable cr : crypto.

(** ** Sending *)
Lemma encrypt_wrapper_sealed nw s pt k s' r nonce a p : s_enc s = None ->
  encrypt_wrapper cr nw s pt k = (s', r) -> s_enc s' = Some (nonce, a, p) ->
  p = pt /\ exists piv kid kctx rpiv rkid,
    wire_ids (uses_new_piv (s_ctx s) k) (s_ctx s) piv kid kctx /\
    read_wrapper (coap_get_message_type k) (k_token k) (c_inter (s_ctx s)) (Some (piv, kid)) = Ok (rpiv, rkid) /\
    create_aad (c_alg (s_ctx s)) rkid rpiv MAX_AAD_LEN = Ok a.
Proof.
  intros HE H HS. unfold encrypt_wrapper in H. unfold uses_new_piv.
  set (c := s_ctx s) in *. set (new := needs_new_piv (coap_get_message_type k) (c_echo c)) in *.
  apply callc_inv in H as [(s1 & x & HX & H)|[HX _]].
  2:{ exfalso. destruct new eqn:EN.
    - destruct (tryc s (ssn2piv (c_ssn c)) _) as [s1 r1] eqn:T in HX. cbn [fst] in HX. subst s1.
      apply tryc_inv in T as [(piv & EP & T)|[-> _]]; [|congruence].
      apply callc_inv in T as [(s1 & u & HG & T)|[HG _]].
      + apply generate_new_ssn_spec in HG as [G1 G2]. apply tryc_inv in T as [(n & _ & T)|[-> _]]; [|congruence].
        injection T as <- <-. congruence.
      + destruct (generate_new_ssn nw s) as [s1 r2] eqn:HG'. cbn [fst] in HG. subst s1.
        apply generate_new_ssn_spec in HG' as [G1 G2]. congruence.
    - cbn [fst] in HX. congruence. }
  destruct x as [[[n piv] kid] kctx].
  assert (S1 : c_inter (s_ctx s1) = c_inter c /\ c_alg (s_ctx s1) = c_alg c /\ s_enc s1 = None /\ wire_ids new c piv kid kctx).
  { destruct new.
    - apply tryc_ok in HX as (q & EP & HX). apply callc_ok in HX as (s2 & [] & HG & HX).
      apply generate_new_ssn_spec in HG as [G1 G2]. apply tryc_ok in HX as (n' & EN & HX).
      injection HX as <- <- <- <- <-. rewrite G1. conj; try reflexivity; [congruence|]. unfold wire_ids. auto.
    - injection HX as <- <- <- <- <-. fold c. conj; auto. unfold wire_ids. auto. }
  destruct S1 as (I1 & I2 & I3 & WI). rewrite I1, I2 in H.
  apply tryc_inv in H as [(opt & _ & H)|[X _]]; [|congruence].
  apply tryc_inv in H as [([rpiv rkid] & RW & H)|[X _]]; [|congruence].
  apply tryc_inv in H as [(aad & CA & H)|[X _]]; [|congruence].
  apply tryc_inv in H as [(ct & _ & H)|[X _]]; [|congruence].
  assert (E : s_enc s' = Some (n, aad, pt)).
  { apply tryc_inv in H as [(uri & _ & H)|[-> _]]; [|reflexivity].
    apply tryc_inv in H as [(t & EU & H)|[-> _]]; [|reflexivity]. injection H as <- _. reflexivity. }
  rewrite E in HS. injection HS as _ <- <-. split; [reflexivity|].
  exists piv, kid, kctx, rpiv, rkid. auto.
Qed.

Lemma core_sealed nw c input s r nonce a pt : coap2oscore_core cr nw c input = (s, r) -> s_enc s = Some (nonce, a, pt) ->
  exists k e u elen piv kid kctx rpiv rkid,
    c_ssn c < OSCORE_SSN_OVERFLOW_VALUE /\ coap_deserialize input = Ok k /\
    inner_outer_option_split k = Ok (e, u, elen) /\
    plaintext_setup (h_code (k_hdr k)) e (k_payload k)
      (if lenN (k_payload k) =? 0 then 1 + elen else u32 (1 + elen + 1 + lenN (k_payload k))) = Ok pt /\
    lenN pt <= 1024 /\
    wire_ids (uses_new_piv c k) c piv kid kctx /\
    read_wrapper (coap_get_message_type k) (k_token k) (c_inter c) (Some (piv, kid)) = Ok (rpiv, rkid) /\
    create_aad (c_alg c) rkid rpiv MAX_AAD_LEN = Ok a.
Proof.
  intros H HS. unfold coap2oscore_core in H.
  assert (F : forall t : sstate, s = s0 c -> False) by (intros _ ->; discriminate).
  apply tryc_inv in H as [([] & CF & H)|[X _]]; [|destruct (F s X)].
  apply tryc_inv in H as [(k & EK & H)|[X _]]; [|destruct (F s X)].
  destruct (_ && _); [injection H as <- <-; discriminate|].
  apply tryc_inv in H as [([[e u] elen] & ES & H)|[X _]]; [|destruct (F s X)].
  set (plen := if lenN (k_payload k) =? 0 then 1 + elen else u32 (1 + elen + 1 + lenN (k_payload k))) in *.
  apply tryc_inv in H as [([] & BL & H)|[X _]]; [|destruct (F s X)].
  apply tryc_inv in H as [(pt' & EP & H)|[X _]]; [|destruct (F s X)].
  apply tryc_inv in H as [([] & _ & H)|[X _]]; [|destruct (F s X)].
  change (match c_echo c with
          | ECHO_VERIFY => try (s0 c) let (b, n) := cache_echo_val (c_echo_buf c) (c_echo_len c) e in
              (s_set (s0 c) (set_echo_val c b n), Ok tt)
          | _ => (s0 c, Ok tt) end) with (echo_stage c e) in H.
  destruct (echo_stage c e) as [s1 r1] eqn:EE. apply echo_stage_spec in EE as (SE & _ & EE).
  assert (I1 : c_inter (s_ctx s1) = c_inter c /\ c_sid (s_ctx s1) = c_sid c /\ c_ssn (s_ctx s1) = c_ssn c /\ c_echo (s_ctx s1) = c_echo c /\
     c_alg (s_ctx s1) = c_alg c /\ c_id_context (s_ctx s1) = c_id_context c).
  { destruct EE as [->|(b & n & _ & _ & ->)]; cbn; auto 8. }
  destruct I1 as (I1 & I2 & I3 & I4 & I5 & I6).
  destruct r1 as [[]|er|ub]; cbn [callc] in H; [|injection H as <- <-; congruence..].
  destruct (encrypt_wrapper cr nw s1 pt' k) as [s2 r2] eqn:EW.
  assert (S2 : s = s2).
  { destruct r2 as [[ct opt]|er|ub]; cbn [callc] in H; [|injection H as <- <-; reflexivity..].
    apply tryc_inv in H as [(out & _ & H)|[-> _]]; [injection H as <- <-|]; reflexivity. }
  subst s2. destruct (encrypt_wrapper_sealed _ _ _ _ _ _ _ _ _ SE EW HS) as (-> & piv & kid & kctx & rpiv & rkid & WI & RW & CA).
  unfold uses_new_piv, wire_ids in WI. rewrite I1 in RW. rewrite I5 in CA. rewrite I2, I3, I4, I6 in WI.
  exists k, e, u, elen, piv, kid, kctx, rpiv, rkid. conj; auto.
  - unfold check_context_freshness in CF. destruct (N.leb_spec OSCORE_SSN_OVERFLOW_VALUE (c_ssn c)); [discriminate|assumption].
  - rewrite (plaintext_setup_len _ _ _ _ _ EP). fold plen.
    unfold byte_array_new, check_buffer_size in BL. destruct (_ <? _) eqn:L in BL; [discriminate|]. apply N.ltb_ge in L. exact L.
Qed.

(** Whose identifiers go into the AAD. *)
Lemma wrapper_refs c k piv kid rpiv rkid : table_ok (c_inter c) ->
  read_wrapper (coap_get_message_type k) (k_token k) (c_inter c) (Some (piv, kid)) = Ok (rpiv, rkid) ->
  if is_request k then rpiv = piv /\ rkid = kid
  else exists x, held (c_inter c) x /\ i_token x = k_token k /\ rpiv = i_piv x /\ rkid = i_kid x.
Proof.
  intros HT H. destruct (is_request k) eqn:RQ.
  - apply type_request in RQ as [T|[T|T]]; rewrite T in H; cbn in H; injection H as <- <-; auto.
  - assert (E : exists r, get_record (c_inter c) (k_token k) = Ok r /\ (rpiv, rkid) = (i_piv r, i_kid r)).
    { apply type_response in RQ as [T|T]; rewrite T in H; cbn [read_wrapper] in H;
        apply bind_ok in H as (r & G & H); exists r; (split; [exact G|congruence]). }
    destruct E as (r & G & E). injection E as -> ->. exists r. apply get_record_held in G; [|exact HT]. tauto.
Qed.

(** A new table entry belongs to a request sent with this call. *)
Lemma core_entry nw c input s r x : table_ok (c_inter c) -> coap2oscore_core cr nw c input = (s, r) ->
  held (c_inter (s_ctx s)) x ->
  held (c_inter c) x \/
  exists nonce a pt k, s_enc s = Some (nonce, a, pt) /\ coap_deserialize input = Ok k /\ k_token k = i_token x /\
    is_request k = true /\ i_kid x = c_sid c /\ ssn2piv (c_ssn c) = Ok (i_piv x).
Proof.
  intros HT H HX. unfold coap2oscore_core in H.
  apply tryc_inv in H as [([] & CF & H)|[-> _]]; [|auto].
  apply tryc_inv in H as [(k & EK & H)|[-> _]]; [|auto].
  destruct (_ && _); [injection H as <- <-; auto|].
  apply tryc_inv in H as [([[e u] elen] & _ & H)|[-> _]]; [|auto].
  apply tryc_inv in H as [([] & _ & H)|[-> _]]; [|auto].
  apply tryc_inv in H as [(pt & _ & H)|[-> _]]; [|auto].
  apply tryc_inv in H as [([] & _ & H)|[-> _]]; [|auto].
  change (match c_echo c with
          | ECHO_VERIFY => try (s0 c) let (b, n) := cache_echo_val (c_echo_buf c) (c_echo_len c) e in
              (s_set (s0 c) (set_echo_val c b n), Ok tt)
          | _ => (s0 c, Ok tt) end) with (echo_stage c e) in H.
  destruct (echo_stage c e) as [s1 r1] eqn:ES. apply echo_stage_spec in ES as (_ & _ & ES).
  assert (I1 : c_inter (s_ctx s1) = c_inter c /\ c_sid (s_ctx s1) = c_sid c /\ c_ssn (s_ctx s1) = c_ssn c /\ c_echo (s_ctx s1) = c_echo c).
  { destruct ES as [->|(b & n & _ & _ & ->)]; cbn; auto. }
  destruct I1 as (I1 & I2 & I3 & I4).
  destruct r1 as [[]|er|ub]; cbn [callc] in H; [|injection H as <- <-; rewrite I1 in HX; auto..].
  destruct (encrypt_wrapper cr nw s1 pt k) as [s2 r2] eqn:EW.
  assert (S2 : s = s2).
  { destruct r2 as [[ct opt]|er|ub]; cbn [callc] in H; [|injection H as <- <-; reflexivity..].
    apply tryc_inv in H as [(out & _ & H)|[-> _]]; [injection H as <- <-|]; reflexivity. }
  subst s2. destruct r2 as [[ct opt]|er|ub].
  2,3: apply encrypt_wrapper_table in EW; [|reflexivity]; rewrite EW, I1 in HX; auto.
  apply encrypt_wrapper_ok in EW as (piv & kid & kctx & nonce & rpiv & rkid & aad & uri & t & WI & _ & _ & RW & _ & _ & _ & UW & <- & EE).
  rewrite I1 in UW, RW. destruct (update_wrapper_held _ _ _ _ _ _ _ _ HT UW HX) as [X|(XP & XK & XT)]; [auto|].
  unfold uses_new_piv in WI. rewrite I4 in WI.
  destruct (is_request k) eqn:RQ.
  - right. assert (NP : needs_new_piv (coap_get_message_type k) (c_echo c) = true).
    { apply type_request in RQ as [-> | [-> | ->]]; reflexivity. }
    rewrite NP in WI. cbn [wire_ids] in WI. destruct WI as (WP & WK & _). rewrite I3 in WP. rewrite I2 in WK.
    pose proof (wrapper_refs _ _ _ _ _ _ HT RW) as WR. rewrite RQ in WR. destruct WR as [-> ->].
    exists nonce, aad, pt, k. conj; auto; congruence.
  - left. apply type_response in RQ as [TY|TY]; rewrite TY in UW; cbn [update_wrapper] in UW.
    + apply remove_record_held in UW as (_ & _ & G); [|assumption]. apply G in HX. tauto.
    + injection UW as UW. rewrite UW. exact HX.
Qed.

(** ** Receiving *)
Lemma rfc_aad_created alg kid piv a : create_aad alg kid piv MAX_AAD_LEN = Ok a -> rfc_aad alg kid piv = cbor (rfc_enc_structure a).
Proof. intros H. rewrite aad_is_rfc in H. apply cbor_put_ok in H as [-> _]. reflexivity. Qed.

Lemma opened_decrypts c input k o nn rpiv rkid nonce aad pt :
  lenN (c_iv c) = 13 -> table_ok (c_inter c) ->
  coap_deserialize input = Ok k -> oscore_option_parser (k_opts k) = Ok o ->
  (is_request k = true -> nn = Some o /\ kid_view o = Ok (c_rid c) /\ co_kid_len o = lenN (c_rid c)) ->
  (is_request k = false -> nn = resp_nn o) ->
  opened cr c nn k rpiv rkid nonce aad pt ->
  decrypts cr c input nonce (rfc_aad (c_alg c) rkid rpiv) pt /\ create_aad (c_alg c) rkid rpiv MAX_AAD_LEN = Ok aad /\
  if is_request k then rkid = c_rid c /\ rpiv = co_piv o
  else exists x, held (c_inter c) x /\ i_token x = k_token k /\ rkid = i_kid x /\ rpiv = i_piv x.
Proof.
  intros HI TL HP HO HQ HR (ER & EN & EA & ED).
  assert (R : if is_request k then rkid = c_rid c /\ rpiv = co_piv o
    else exists x, held (c_inter c) x /\ i_token x = k_token k /\ rkid = i_kid x /\ rpiv = i_piv x).
  { destruct (is_request k) eqn:RQ.
    - destruct (HQ eq_refl) as (-> & KV & KL).
      assert (EP : (rpiv, rkid) = (co_piv o, takeN (co_kid_len o) (co_kid_mem o))).
      { apply type_request in RQ as [T|[T|T]]; rewrite T in ER; cbn in ER; congruence. }
      injection EP as -> ->. split; [|reflexivity].
      unfold kid_view in KV. apply slice_ok in KV as (_ & _ & ->). rewrite dropN_0. reflexivity.
    - assert (ER' : exists r, get_record (c_inter c) (k_token k) = Ok r /\ (rpiv, rkid) = (i_piv r, i_kid r)).
      { apply type_response in RQ as [T|T]; rewrite T in ER; cbn [read_wrapper] in ER;
          apply bind_ok in ER as (r & G & ER); exists r; (split; [exact G|congruence]). }
      destruct ER' as (r & G & EP). injection EP as -> ->. exists r.
      apply get_record_held in G; [|exact TL]. tauto. }
  split; [|split; [exact EA|exact R]].
  exists k, o, rkid, rpiv. conj; auto; [eapply cose_decrypt_rfc; eassumption|].
  rewrite is_request_code in *. destruct (h_code (k_hdr k) <? 32).
  - destruct R as [-> ->]. conj; auto.
    destruct (HQ eq_refl) as (-> & KV & KL). destruct EN as (kid & KV' & EN). rewrite KV in KV'. injection KV' as <-.
    apply create_nonce_rfc in EN as (_ & _ & ->); [|exact HI]. reflexivity.
  - rewrite (HR eq_refl) in *. split; [exact R|].
    unfold resp_nn in EN. destruct (co_piv o) as [|b t] eqn:EB.
    + exact EN.
    + rewrite lenN_cons. destruct (N.eqb_spec (1 + lenN t) 0); [lia|].
      destruct EN as (kid & KV & EN). rewrite EB in EN. apply create_nonce_rfc in EN as (_ & _ & ->); [|exact HI].
      apply kid_view_len in KV as [_ ->]. reflexivity.
Qed.

(** What an accepted packet is. *)
Lemma core_opened c input c' out : lenN (c_iv c) = 13 -> table_ok (c_inter c) ->
  oscore2coap_core cr c input = (c', Ok out) ->
  exists k o rpiv rkid nonce a pt, coap_deserialize input = Ok k /\ oscore_option_parser (k_opts k) = Ok o /\
    decrypts cr c input nonce (rfc_aad (c_alg c) rkid rpiv) pt /\ create_aad (c_alg c) rkid rpiv MAX_AAD_LEN = Ok a /\
    o_coap_pkg_generate pt k = Ok out /\ cr_aead_dec cr (c_rkey c) nonce (rfc_aad (c_alg c) rkid rpiv) 8 (k_payload k) = Some pt /\
    if is_request k then rkid = c_rid c /\ rpiv = co_piv o
    else exists x, held (c_inter c) x /\ i_token x = k_token k /\ rkid = i_kid x /\ rpiv = i_piv x.
Proof.
  intros HI TL H. apply recv_core_inv in H as [[_ X]|(k & o & _ & EK & EO & H)]; [discriminate|].
  assert (D : exists nn c1 pt, decrypt_wrapper cr c nn k = (c1, Ok (pt, out)) /\
    (is_request k = true -> nn = Some o /\ kid_view o = Ok (c_rid c) /\ co_kid_len o = lenN (c_rid c)) /\
    (is_request k = false -> nn = resp_nn o)).
  { destruct (is_request k) eqn:RQ.
    - apply recv_request_inv in H as [[_ X]|(ssn & rd & KV & KL & _ & _ & c1 & D & H)]; [discriminate|].
      destruct H as [(_ & _ & X)|(pt & out' & -> & H)]; [discriminate|].
      exists (Some o), c1, pt. conj; auto; [|congruence]. rewrite D. do 3 f_equal. destruct (c_echo c).
      + destruct H as [_ X]; discriminate.
      + destruct H as [(_ & _ & X)|(_ & _ & X)]; [injection X as <-; reflexivity|discriminate].
      + destruct H as [(_ & _ & X)|(? & ? & _ & _ & X)]; [discriminate|injection X as <-; reflexivity].
    - apply recv_response_inv in H as [[_ X]|(c1 & rd & D & _ & H)]; [discriminate|].
      destruct H as [(_ & _ & X)|(pt & out' & -> & X & _)]; [discriminate|]. injection X as <-.
      exists (resp_nn o), c1, pt. conj; auto; congruence. }
  destruct D as (nn & c1 & pt & D & Q1 & Q2).
  apply decrypt_wrapper_ok in D as (rp & rk & n & a & uri & OP & _ & G & _).
  pose proof (opened_decrypts _ _ _ _ _ _ _ _ _ _ HI TL EK EO Q1 Q2 OP) as (D1 & D2 & D3).
  exists k, o, rp, rk, n, a, pt. conj; auto.
  destruct OP as (_ & _ & EA & ED). eapply cose_decrypt_rfc; eassumption.
Qed.

(** A new table entry belongs to the packet received with this call, or repeats one
    with the same token. *)
Lemma recv_entry c input c' r x : lenN (c_iv c) = 13 -> table_ok (c_inter c) -> oscore2coap_core cr c input = (c', r) ->
  held (c_inter c') x ->
  held (c_inter c) x \/
  (exists y, held (c_inter c) y /\ i_token x = i_token y /\ i_kid x = i_kid y /\ i_piv x = i_piv y) \/
  exists k o nonce a pt, coap_deserialize input = Ok k /\ oscore_option_parser (k_opts k) = Ok o /\ h_code (k_hdr k) < 32 /\
    k_token k = i_token x /\ i_kid x = c_rid c /\ i_piv x = co_piv o /\
    create_aad (c_alg c) (c_rid c) (co_piv o) MAX_AAD_LEN = Ok a /\
    decrypts cr c input nonce (rfc_aad (c_alg c) (c_rid c) (co_piv o)) pt.
Proof.
  intros HI HT H HX. apply recv_core_inv in H as [[-> _]|(k & o & _ & EK & EO & H)]; [auto|].
  assert (D : c' = c \/ exists nn c1 rd, decrypt_wrapper cr c nn k = (c1, rd) /\ c_inter c' = c_inter c1 /\
    (is_request k = true -> nn = Some o /\ kid_view o = Ok (c_rid c) /\ co_kid_len o = lenN (c_rid c)) /\
    (is_request k = false -> nn = resp_nn o)).
  { destruct (is_request k) eqn:RQ.
    - apply recv_request_inv in H as [[-> _]|(ssn & rd & KV & KL & _ & _ & c1 & D & H)]; [auto|]. right.
      exists (Some o), c1, rd. conj; auto; [|congruence].
      destruct H as [(_ & -> & _)|(pt & out & _ & H)]; [reflexivity|]. destruct (c_echo c).
      + destruct H as [-> _]; reflexivity.
      + destruct H as [(_ & -> & _)|(_ & -> & _)]; reflexivity.
      + destruct H as [(_ & -> & _)|(b & t & _ & -> & _)]; reflexivity.
    - apply recv_response_inv in H as [[-> _]|(c1 & rd & D & _ & H)]; [auto|]. right.
      exists (resp_nn o), c1, rd. conj; auto; [|congruence].
      destruct H as [(_ & -> & _)|(pt & out & _ & _ & H)]; [reflexivity|].
      destruct (is_observe (k_opts k)); [destruct H as (s & _ & ->)|subst c']; reflexivity. }
  destruct D as [->|(nn & c1 & rd & D & I1 & Q1 & Q2)]; [auto|]. rewrite I1 in HX.
  pose proof (decrypt_wrapper_table _ _ _ _ _ _ D) as D'.
  destruct rd as [[pt out]|e|u]; try (rewrite D' in HX by reflexivity; auto).
  apply decrypt_wrapper_ok in D as (rp & rk & n & a & uri & OP & _ & _ & _ & UW).
  destruct (update_wrapper_held _ _ _ _ _ _ _ _ HT UW HX) as [X|(XP & XK & XT)]; [auto|]. right.
  pose proof (opened_decrypts _ _ _ _ _ _ _ _ _ _ HI HT EK EO Q1 Q2 OP) as (D1 & D2 & D3).
  destruct (is_request k) eqn:RQ.
  - right. destruct D3 as [-> ->]. exists k, o, n, a, pt. conj; auto. apply is_request_spec. exact RQ.
  - left. destruct D3 as (y & Y1 & Y2 & Y3 & Y4). exists y. conj; congruence.
Qed.

(** ** Histories *)
Lemma run_app_noub c0 l : Forall (fun o => is_ub (ob_res o) = false) (snd (run cr c0 l)) \/ forall a, fst (run cr c0 (l ++ a)) = fst (run cr c0 l).
Proof.
  revert c0. induction l as [|x l IH]; intros c0; [left; constructor|]. cbn [run app].
  destruct (exec cr c0 x) as [c1 o] eqn:E. destruct (is_ub (ob_res o)) eqn:U; [right; reflexivity|].
  destruct (IH c1) as [F|F].
  - left. destruct (run cr c1 l). cbn [snd] in *. constructor; assumption.
  - right. intros a'. specialize (F a'). destruct (run cr c1 l), (run cr c1 (l ++ a')). cbn [fst] in *. exact F.
Qed.
Lemma run_after c0 l x r : Forall (fun o => is_ub (ob_res o) = false) (snd (run cr c0 l)) ->
  later cr (fst (exec cr (fst (run cr c0 l)) x)) (fst (run cr c0 (l ++ x :: r))).
Proof.
  revert c0. induction l as [|y l IH]; intros c0 F.
  - cbn [app run fst]. destruct (exec cr c0 x) as [c1 o] eqn:E. cbn [fst]. destruct (is_ub (ob_res o)); [exists []; reflexivity|].
    exists r. destruct (run cr c1 r); reflexivity.
  - cbn [run app] in *. destruct (exec cr c0 y) as [c1 o] eqn:E. destruct (is_ub (ob_res o)) eqn:U.
    { inversion F; subst. congruence. }
    destruct (run cr c1 l) as [c2 os] eqn:R1. destruct (run cr c1 (l ++ x :: r)) as [c3 os3] eqn:R3. cbn [fst snd] in *.
    specialize (IH c1). rewrite R1, R3 in IH. apply IH. inversion F; assumption.
Qed.
Lemma run_one c0 l x : Forall (fun o => is_ub (ob_res o) = false) (snd (run cr c0 l)) ->
  fst (run cr c0 (l ++ [x])) = fst (exec cr (fst (run cr c0 l)) x).
Proof.
  revert c0. induction l as [|y l IH]; intros c0 F.
  - cbn [app run fst]. destruct (exec cr c0 x) as [c1 o] eqn:E. destruct (is_ub (ob_res o)); reflexivity.
  - cbn [run app] in *. destruct (exec cr c0 y) as [c1 o] eqn:E. destruct (is_ub (ob_res o)) eqn:U.
    { inversion F; subst. congruence. }
    destruct (run cr c1 l) as [c2 os] eqn:R1. destruct (run cr c1 (l ++ [x])) as [c3 os3] eqn:R3. cbn [fst snd] in *.
    specialize (IH c1). rewrite R1, R3 in IH. apply IH. inversion F; assumption.
Qed.
Lemma happened_more c0 calls pre x c o more : happened cr c0 calls pre x c o -> happened cr c0 (calls ++ more) pre x c o.
Proof. intros ((post & ->) & H). split; [|exact H]. exists (post ++ more). rewrite <- app_assoc. reflexivity. Qed.

(** Induction over what a history leaves in the table. *)
Lemma entry_ind c0 (Q : list api_call -> inter -> Prop) :
  (forall x, ~ held (c_inter c0) x) ->
  (forall calls more x, Q calls x -> Q (calls ++ more) x) ->
  (forall calls x y, i_token x = i_token y -> i_kid x = i_kid y -> i_piv x = i_piv y -> Q calls y -> Q calls x) ->
  (forall calls a x, Forall (fun o => is_ub (ob_res o) = false) (snd (run cr c0 calls)) ->
     held (c_inter (fst (exec cr (fst (run cr c0 calls)) a))) x ->
     (exists y, held (c_inter (fst (run cr c0 calls))) y /\ i_token x = i_token y /\ i_kid x = i_kid y /\ i_piv x = i_piv y) \/
     Q (calls ++ [a]) x) ->
  forall calls x, held (c_inter (fst (run cr c0 calls))) x -> Q calls x.
Proof.
  intros H0 HM HE HS. induction calls as [|a calls IH] using rev_ind; intros x Hx; [destruct (H0 _ Hx)|].
  destruct (run_app_noub c0 calls) as [F|F].
  - rewrite (run_one _ _ _ F) in Hx. destruct (HS _ _ _ F Hx) as [(y & Y & Y1 & Y2 & Y3)|X]; [|exact X].
    apply HM. eapply HE; try eassumption. apply IH. exact Y.
  - rewrite F in Hx. apply HM. apply IH. exact Hx.
Qed.

Section History.
Variable c0 : ctx.
Hypothesis HIV : forall calls, lenN (c_iv (fst (run cr c0 calls))) = 13.
Hypothesis HT : forall calls, table_ok (c_inter (fst (run cr c0 calls))).
Hypothesis HK : forall calls, same_keys c0 (fst (run cr c0 calls)).
Hypothesis HE : forall x, ~ held (c_inter c0) x.
Hypothesis HID : c_sid c0 <> c_rid c0.

(** Entries with the recipient ID stem from request packets that decrypted. *)
Lemma received_entry calls x : held (c_inter (fst (run cr c0 calls))) x -> i_kid x = c_rid c0 ->
  exists pre input buf cx o k ob nonce a pt, happened cr c0 calls pre (ARecv input buf) cx ob /\
    coap_deserialize input = Ok k /\ oscore_option_parser (k_opts k) = Ok o /\ h_code (k_hdr k) < 32 /\
    k_token k = i_token x /\ i_piv x = co_piv o /\
    create_aad (c_alg cx) (c_rid cx) (co_piv o) MAX_AAD_LEN = Ok a /\
    decrypts cr cx input nonce (rfc_aad (c_alg cx) (c_rid cx) (co_piv o)) pt.
Proof.
  revert calls x. apply (entry_ind c0 (fun calls x => i_kid x = c_rid c0 ->
    exists pre input buf cx o k ob nonce a pt, happened cr c0 calls pre (ARecv input buf) cx ob /\
    coap_deserialize input = Ok k /\ oscore_option_parser (k_opts k) = Ok o /\ h_code (k_hdr k) < 32 /\
    k_token k = i_token x /\ i_piv x = co_piv o /\
    create_aad (c_alg cx) (c_rid cx) (co_piv o) MAX_AAD_LEN = Ok a /\
    decrypts cr cx input nonce (rfc_aad (c_alg cx) (c_rid cx) (co_piv o)) pt)).
  - exact HE.
  - intros calls more x Q E. destruct (Q E) as (pre & input & buf & cx & o & k & ob & nonce & a & pt & H & R).
    exists pre, input, buf, cx, o, k, ob, nonce, a, pt. split; [apply happened_more; exact H|exact R].
  - intros calls x y -> -> -> Q. exact Q.
  - intros calls a x F Hx. set (c := fst (run cr c0 calls)) in *. destruct (exec cr c a) as [c' ob] eqn:EX. cbn [fst] in Hx.
    pose proof (HK calls) as K. fold c in K.
    destruct a as [nw input buf|input buf].
    + pose proof EX as EX'. apply exec_send in EX as (s & r & H & -> & _).
      destruct (core_entry _ _ _ _ _ _ (HT calls) H Hx) as [X|(? & ? & ? & ? & _ & _ & _ & _ & X & _)]; [left; eauto 6|].
      right. intros E. exfalso. apply HID. unfold same_keys in K. destruct K as (_ & _ & _ & _ & K & _). fold c in X. rewrite K in X. congruence.
    + pose proof EX as EX'. apply exec_recv in EX as (_ & _ & r & H & _).
      destruct (recv_entry _ _ _ _ _ (HIV calls) (HT calls) H Hx) as [X|[X|(k & o & nonce & a & pt & X1 & X2 & X3 & X4 & X5 & X6 & X7 & X8)]];
        [left; eauto 6|left; exact X|right; intros _].
      exists calls, input, buf, c, o, k, ob, nonce, a, pt. split; [|auto 10]. split; [exists []; reflexivity|]. conj; auto. rewrite EX'. reflexivity.
Qed.

(** Entries with the sender ID stem from requests sent with their number. *)
Lemma sent_entry calls x : held (c_inter (fst (run cr c0 calls))) x -> i_kid x = c_sid c0 ->
  exists pre nw msg buf cs ob k nonce a pt, happened cr c0 calls pre (ASend nw msg buf) cs ob /\
    ob_enc ob = Some (nonce, a, pt) /\
    coap_deserialize msg = Ok k /\ is_request k = true /\ k_token k = i_token x /\ ssn2piv (c_ssn cs) = Ok (i_piv x).
Proof.
  revert calls x. apply (entry_ind c0 (fun calls x => i_kid x = c_sid c0 ->
    exists pre nw msg buf cs ob k nonce a pt, happened cr c0 calls pre (ASend nw msg buf) cs ob /\
    ob_enc ob = Some (nonce, a, pt) /\
    coap_deserialize msg = Ok k /\ is_request k = true /\ k_token k = i_token x /\ ssn2piv (c_ssn cs) = Ok (i_piv x))).
  - exact HE.
  - intros calls more x Q E. destruct (Q E) as (pre & nw & input & buf & cx & ob & k & nonce & a & pt & H & R).
    exists pre, nw, input, buf, cx, ob, k, nonce, a, pt. split; [apply happened_more; exact H|exact R].
  - intros calls x y -> -> -> Q. exact Q.
  - intros calls a x F Hx. set (c := fst (run cr c0 calls)) in *. destruct (exec cr c a) as [c' ob] eqn:EX. cbn [fst] in Hx.
    pose proof (HK calls) as K. fold c in K.
    destruct a as [nw input buf|input buf].
    + pose proof EX as EX'. apply exec_send in EX as (s & r & H & -> & EE & _).
      destruct (core_entry _ _ _ _ _ _ (HT calls) H Hx) as [X|(nonce & a & pt & k & X1 & X2 & X3 & X4 & X5 & X6)]; [left; eauto 6|].
      right. intros _. exists calls, nw, input, buf, c, ob, k, nonce, a, pt.
      split; [|conj; auto; congruence]. split; [exists []; reflexivity|]. conj; auto. rewrite EX'. reflexivity.
    + pose proof EX as EX'. apply exec_recv in EX as (_ & _ & r & H & _).
      destruct (recv_entry _ _ _ _ _ (HIV calls) (HT calls) H Hx) as [X|[X|(k & o & nonce & a & pt & X1 & X2 & X3 & X4 & X5 & X6 & X7 & X8)]];
        [left; eauto 6|left; exact X|right; intros E].
      exfalso. apply HID. unfold same_keys in K. destruct K as (_ & _ & _ & _ & _ & _ & K & _). fold c in X5. congruence.
Qed.
End History.

(** ** One request per number *)
Lemma request_number c nw msg buf c' ob nonce a pt k : exec cr c (ASend nw msg buf) = (c', ob) -> ob_enc ob = Some (nonce, a, pt) ->
  coap_deserialize msg = Ok k -> is_request k = true -> c_ssn c' = c_ssn c + 1.
Proof.
  intros H EE EK RQ. apply exec_send in H as (s & r & H & -> & E & _). rewrite E in EE.
  destruct (core_sealed _ _ _ _ _ _ _ _ H EE) as (k' & _ & _ & _ & _ & _ & _ & _ & _ & L & _).
  apply core_effect in H as (_ & _ & SE & _). unfold send_effect in SE. rewrite EE in SE.
  unfold msg_uses_new_piv in SE. rewrite EK in SE.
  assert (U : uses_new_piv c k = true).
  { unfold uses_new_piv. apply type_request in RQ as [-> | [-> | ->]]; reflexivity. }
  rewrite U in SE. destruct SE as (_ & -> & _). unfold u64. apply N.mod_small. unfold OSCORE_SSN_OVERFLOW_VALUE in L. lia.
Qed.
Lemma split_two {A} (l1 l2 : list A) x1 x2 r1 r2 : l1 ++ x1 :: r1 = l2 ++ x2 :: r2 ->
  (l1 = l2 /\ x1 = x2) \/ (exists m, l2 = l1 ++ x1 :: m) \/ (exists m, l1 = l2 ++ x2 :: m).
Proof.
  revert l2. induction l1 as [|y l1 IH]; intros [|z l2] H; cbn [app] in H.
  - injection H as <- _. auto.
  - injection H as <- _. right; left. exists l2. reflexivity.
  - injection H as -> _. right; right. exists l1. reflexivity.
  - injection H as <- H. apply IH in H as [[-> ->]|[[m ->]|[m ->]]]; [auto|right; left; exists m; reflexivity|right; right; exists m; reflexivity].
Qed.
Lemma number_earlier c0 calls pre1 nw1 msg1 buf1 c1 o1 n1 a1 p1 k1 m post c2 :
  happened cr c0 calls pre1 (ASend nw1 msg1 buf1) c1 o1 -> ob_enc o1 = Some (n1, a1, p1) ->
  coap_deserialize msg1 = Ok k1 -> is_request k1 = true ->
  fst (run cr c0 (pre1 ++ ASend nw1 msg1 buf1 :: post)) = c2 -> m = c_ssn c1 -> c_ssn c2 = m -> False.
Proof.
  intros (_ & E & F & X) EE EK RQ R -> N. pose proof (run_after c0 pre1 (ASend nw1 msg1 buf1) post F) as L.
  rewrite R, E in L. destruct (exec cr c1 (ASend nw1 msg1 buf1)) as [c' ob] eqn:EX. cbn [fst snd] in *. subst ob.
  apply later_ssn in L. rewrite (request_number _ _ _ _ _ _ _ _ _ _ EX EE EK RQ) in L. lia.
Qed.
Lemma number_unique c0 calls pre1 nw1 msg1 buf1 c1 o1 n1 a1 p1 k1 pre2 nw2 msg2 buf2 c2 o2 n2 a2 p2 k2 :
  happened cr c0 calls pre1 (ASend nw1 msg1 buf1) c1 o1 -> ob_enc o1 = Some (n1, a1, p1) ->
  coap_deserialize msg1 = Ok k1 -> is_request k1 = true ->
  happened cr c0 calls pre2 (ASend nw2 msg2 buf2) c2 o2 -> ob_enc o2 = Some (n2, a2, p2) ->
  coap_deserialize msg2 = Ok k2 -> is_request k2 = true ->
  c_ssn c1 = c_ssn c2 -> pre1 = pre2 /\ ASend nw1 msg1 buf1 = ASend nw2 msg2 buf2 /\ o1 = o2.
Proof.
  intros H1 E1 K1 R1 H2 E2 K2 R2 N. pose proof H1 as ((post1 & P1) & C1 & _ & X1). pose proof H2 as ((post2 & P2) & C2 & _ & X2).
  rewrite P1 in P2. apply split_two in P2 as [[-> E]|[[m ->]|[m ->]]].
  - conj; auto. rewrite E in X1. congruence.
  - exfalso. refine (number_earlier _ _ _ _ _ _ _ _ _ _ _ _ _ m _ H1 E1 K1 R1 C2 eq_refl _). congruence.
  - exfalso. refine (number_earlier _ _ _ _ _ _ _ _ _ _ _ _ _ m _ H2 E2 K2 R2 C1 eq_refl _). congruence.
Qed.
End WithCrypto.

(** ** Reading the plaintext *)
Lemma plaintext_code code e payload plen pt : plaintext_setup code e payload plen = Ok pt -> 0 < plen -> exists body, pt = code :: body.
Proof.
  intros H L. unfold plaintext_setup in H.
  apply bind_ok in H as (s & ES & H). apply bind_ok in H as ([] & EC & H). apply bind_ok in H as (w & EW & H).
  destruct (N.ltb_spec (lenN w) plen); [discriminate|].
  assert (E : forall a b : bytes, Ok a = Ok b -> b = a) by (intros a b Q; inversion Q; reflexivity).
  apply E in H. subst pt.
  assert (W : exists t, w = code :: t).
  { destruct (lenN payload =? 0); [apply E in EW; subst w; eauto|]. destruct (_ <=? _) in EW; [discriminate|].
    apply bind_ok in EW as ([] & _ & EW). destruct (_ <? _) in EW; [discriminate|]. apply E in EW. subst w. cbn [app]. eauto. }
  destruct W as [t ->]. unfold takeN. destruct (N.to_nat plen) eqn:EN; [lia|]. cbn [firstn]. eauto.
Qed.

Lemma plaintext_reads m input k e u elen pt :
  rfc_message m input -> supported m input -> is_bytes input -> coap_deserialize input = Ok k ->
  inner_outer_option_split k = Ok (e, u, elen) ->
  plaintext_setup (h_code (k_hdr k)) e (k_payload k)
      (if lenN (k_payload k) =? 0 then 1 + elen else u32 (1 + elen + 1 + lenN (k_payload k))) = Ok pt ->
  lenN pt <= 1024 ->
  msg_of k = m /\
  exists body eo, pt = m_code m :: body /\ options_deserialize body MAX_E_OPTION_COUNT = Ok (eo, m_payload m) /\
    map nv eo = inside_opts (received m).
Proof.
  intros HM SUP HB EK ES EP LPT.
  destruct SUP as (PA & DI & LI & N9 & ND & SZ & PL).
  destruct (coap_parse_rfc m input HM PA) as (k0 & EK0 & EM & TK & DC). rewrite EK in EK0. injection EK0 as <-.
  split; [exact EM|].
  destruct PA as (PD & PV & PN & PC & PB).
  assert (EO : map nv (k_opts k) = m_opts m) by (rewrite <- EM; reflexivity).
  assert (EPL : k_payload k = m_payload m) by (rewrite <- EM; reflexivity).
  assert (ECD : h_code (k_hdr k) = m_code m) by (rewrite <- EM; reflexivity).
  assert (FN : Forall (fun o => o_num o < 2 ^ 16) (k_opts k)) by (apply (forall_nums (fun n => n < 2 ^ 16)); rewrite EO; exact PN).
  destruct (coap_parse_sound _ _ EK HB ltac:(change (2^32) with 4294967296; change (2 ^ 16) with 65536 in PB; lia)) as (W & HWk & L19 & OW & NC & _).
  unfold inner_outer_option_split in ES. destruct (_ <? _) in ES; [discriminate|]. injection ES as ES.
  destruct (split_loop_spec (is_request k) (k_opts k) 0 0 0 0 e u elen NC eq_refl eq_refl eq_refl ES) as (inner & SI & EI & SU & _ & _).
  rewrite EO in SI.
  apply (selects_filter _ (fun p => negb (is_class_u (fst p)))) in SI; [|intros x; apply inside_dec].
  fold (inside_opts m) in SI. subst inner.
  destruct (split_loop_asc (is_request k) (k_opts k) 0 0 0 0 e u elen DC FN ltac:(reflexivity) ltac:(lia) ltac:(lia) ES) as [DE DU].
  assert (SK : opt_sum (k_opts k) <= 100) by (rewrite opt_sum_size, EO; exact SZ).
  assert (PT : pt = m_code m :: ser_opts e ++ marked (m_payload m)).
  { rewrite <- ECD, <- EPL.
    pose proof (split_elen (is_request k) (k_opts k) 0 0 0 0 e u elen DC FN ltac:(reflexivity) ltac:(lia) ltac:(lia)
      ltac:(left; reflexivity) ltac:(change (2 ^ 16) with 65536; lia) ES) as SL.
    rewrite EO in SL. change (0 =? 0) with true in SL. cbv iota in SL. 
    eapply plaintext_exact with (nu := lenN (class_u_opts m)) (elen := elen); [unfold class_u_opts; lia| | | |exact EP].
    - eapply split_loop_elen; [|exact ES]. reflexivity.
    - pose proof (coap_payload_len _ _ EK HB). change (2 ^ 31) with 2147483648. change (2 ^ 16) with 65536 in PB. lia.
    - rewrite EPL. exact PL. }
  assert (FE : Forall (fun p : N * bytes => len_ok (lenN (snd p)) /\ fst p < 2 ^ 16) (map nv e)).
  { rewrite EI, Forall_map, Forall_forall. intros [n v] Hp. rewrite inner_fst. apply filter_In in Hp as [Hp _].
    rewrite Forall_forall in PV, PN. specialize (PV _ Hp). specialize (PN _ Hp). cbn [fst snd] in *. split; [|exact PN].
    unfold inner_value. cbn [fst]. destruct (_ && _); [left; reflexivity|exact PV]. }
  assert (LEN_E : lenN (map nv e) <= 10). { rewrite EI. unfold lenN in *. rewrite map_length. exact LI. }
  destruct (options_parse (map nv e) (m_payload m) (ser_opts e ++ marked (m_payload m)) MAX_E_OPTION_COUNT) as (eo & EEO & NEO & DEO).
  { exists (ser_opts e). split; [|reflexivity]. apply ser_opts_rfc; [exact DE|].
    assert (X : Forall (fun p : N * bytes => fst p < 2 ^ 16 /\ lenN (snd p) < 2 ^ 16) (map nv e)); [|rewrite Forall_map in X; exact X].
    rewrite EI, Forall_map, Forall_forall. intros [n v] Hp. rewrite inner_fst. apply filter_In in Hp as [Hp _].
    rewrite Forall_forall in PN. specialize (PN _ Hp). cbn [fst] in *. split; [exact PN|].
    assert (LV : lenN v < 2 ^ 16).
    { rewrite <- EO in Hp. apply in_map_iff in Hp as (y & Ey & Hy). rewrite Forall_forall in OW. destruct (OW y Hy) as (? & ? & ? & ?).
      unfold nv in Ey. injection Ey as _ <-. assumption. }
    unfold inner_value; cbn [fst]. destruct (_ && _); [reflexivity|exact LV]. }
  { rewrite EI, deltas_map_inner. exact DI. }
  { eapply Forall_impl; [|exact FE]. cbn. tauto. }
  { eapply Forall_impl; [|exact FE]. cbn. tauto. }
  { rewrite PT in LPT. rewrite lenN_cons in LPT. change (2 ^ 16) with 65536. lia. }
  { lia. }
  { exact LEN_E. }
  exists (ser_opts e ++ marked (m_payload m)), eo. conj; auto.
  rewrite NEO, EI. rewrite is_request_code, ECD. unfold inside_opts, received. cbn [m_opts].
  generalize (m_code m <? 32) as b. intros b. clear. induction (m_opts m) as [|p l IH]; [reflexivity|]. cbn [map filter]. rewrite inner_fst.
  destruct (negb (is_class_u (fst p))); [cbn [map]; f_equal|]; apply IH.
Qed.
