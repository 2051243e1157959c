(** Properties C18, C27, C44 and the wire-level part of C16: what coap2oscore sends.
    The output of a successful call is [takeN n b]. *)
From Verif Require Import Base Proof_Base Model_Common Model_Crypto Model_Cbor Model_OscorePrims Spec_OscorePrims Proof_OscorePrims
  Model_Coap Spec_Coap Proof_Coap Model_Interactions Model_Context Spec_Options Proof_Options
  Model_Send Model_Recv Model_Run Model_Toy Proof_Toy Model_ToyRun Spec_Interactions Proof_Interactions Proof_Send Proof_Recv
  Spec_Session Proof_Run Proof_Session Proof_Nonce Proof_Wire.

(** ** C18 *)

(** The second byte of a protected message is 0.02 POST or 0.05 FETCH for requests,
    2.04 or 2.05 for responses, according to the presence of Observe only. *)
Definition has_observe (k : cpkt) : Prop := exists o, In o (k_opts k) /\ o_num o = 6.
Theorem C18_outer_code :
  forall (cr : crypto) (nw : N -> res unit) (c : ctx) (input buf b : bytes) (k : cpkt) (s : sstate) (n : N),
  crypto_ok cr -> is_bytes input -> lenN input < 2 ^ 32 -> lenN buf < 2 ^ 32 ->
  coap_deserialize input = Ok k -> ~ empty_ack k ->
  coap2oscore cr nw c input buf = (s, b, Ok n) ->
  exists b0 code rest, takeN n b = b0 :: code :: rest /\
    (h_code (k_hdr k) < 32 -> has_observe k -> code = 0x05) /\
    (h_code (k_hdr k) < 32 -> ~ has_observe k -> code = 0x02) /\
    (32 <= h_code (k_hdr k) -> has_observe k -> code = 0x45) /\
    (32 <= h_code (k_hdr k) -> ~ has_observe k -> code = 0x44).
Proof.
  intros cr nw c input buf b k s n OK HB HL HBL EK NA H.
  destruct (send_result cr nw c input k buf s b n OK HB HL HBL EK H) as (_ & [(A & _)|(_ & wire & P & -> & -> & _)]); [contradiction|].
  rewrite written_take.
  destruct P as (e & u & elen & pt & ct & opt & nonce & aad & piv & kid & kctx & rpiv & rkid & out & ES & _ & _ & _ & _ & _ & _ & _ & _ & _ & _ & EG & _ & HW & ->).
  assert (OB : is_observe u = true <-> has_observe k).
  { unfold inner_outer_option_split in ES. destruct (_ <? _) in ES; [discriminate|]. injection ES as ES.
    destruct (coap_parse_sound _ _ EK HB HL) as (_ & _ & _ & _ & NC & _).
    destruct (split_loop_spec (is_request k) (k_opts k) 0 0 0 0 e u elen NC eq_refl eq_refl eq_refl ES) as (_ & _ & _ & SU & _).
    rewrite is_observe_spec. unfold has_observe. split; intros (o & I & E).
    - assert (I' : In (nv o) (map nv (k_opts k))) by (eapply selects_incl; [exact SU|apply in_map; exact I]).
      apply in_map_iff in I' as (y & Ey & Hy). exists y. split; [exact Hy|]. unfold nv in Ey. congruence.
    - assert (I' : In (nv o) (map nv u)).
      { eapply selects_in; [exact SU|apply in_map; exact I|]. left. exact E. }
      apply in_map_iff in I' as (y & Ey & Hy). exists y. split; [exact Hy|]. unfold nv in Ey. congruence. }
  unfold oscore_pkg_generate in EG. destruct (_ <? _) in EG; [discriminate|]. injection EG as <-.
  unfold pkt_bytes. rewrite header_bytes_rfc by (destruct HW as (H1 & H2 & H3 & H4 & H5); cbn [k_hdr h_ver h_type h_tkl h_code h_mid] in *; lia).
  cbn [k_hdr h_ver h_type h_tkl h_code h_mid app]. do 3 eexists. split; [reflexivity|].
  assert (RQ : is_request k = true <-> h_code (k_hdr k) < 32) by apply is_request_spec.
  destruct (is_request k), (is_observe u); repeat split; intros L O; try reflexivity; exfalso;
    try (apply RQ in L; discriminate); try (apply OB in O; discriminate); try (apply O, OB; reflexivity);
    try (assert (h_code (k_hdr k) < 32) by (apply RQ; reflexivity); lia).
Qed.
Print Assumptions C18_outer_code.

(** DELETE and GET give the same outer code. *)
Example C18_example :
  nth 1 (snd (toy_send toy_client (toy_get 5))) 0 = 0x02 /\
  nth 1 (snd (toy_send toy_client [0x41; 4; 0; 5; 5; 0xb1; 97])) 0 = 0x02 /\
  nth 1 (snd (toy_send toy_client (toy_observe 5))) 0 = 0x05.
Proof. vm_compute. auto. Qed.

(** ** C16 *)

(** On the wire: for every well-formed message [m] the protected message has the
    header fields and token of [m] apart from the code, exactly the outer options of
    [m] with one OSCORE option between them in ascending order, and as payload the
    AEAD ciphertext. *)
Theorem C16_on_the_wire :
  forall (cr : crypto) (nw : N -> res unit) (c : ctx) (m : message) (input buf b : bytes) (s : sstate) (n : N),
  crypto_ok cr -> is_bytes input -> lenN buf < 2 ^ 32 ->
  rfc_message m input -> parsable m input -> ~ (m_type m = 2 /\ m_code m = 0) ->
  coap2oscore cr nw c input buf = (s, b, Ok n) ->
  exists m' before after v nonce aad a pt,
    rfc_message m' (takeN n b) /\
    m_ver m' = m_ver m /\ m_type m' = m_type m /\ m_mid m' = m_mid m /\ m_token m' = m_token m /\
    m_opts m' = before ++ (9, v) :: after /\
    selects (fun p => goes_outside (fst p)) (m_opts m) (before ++ after) /\
    s_enc s = Some (nonce, aad, pt) /\ cr_aead_enc cr (c_skey c) nonce a 8 pt = Some (m_payload m').
Proof.
  intros cr nw c m input buf b s n OK HB HBL HM HP NA H.
  destruct (coap_parse_rfc m input HM HP) as (k & EK & <- & TK & DC).
  assert (HL : lenN input < 2 ^ 32).
  { destruct HP as (_ & _ & _ & _ & L). change (2 ^ 16) with 65536 in L. lia. }
  destruct (coap_parse_sound _ _ EK HB HL) as (_ & _ & L19 & OW & NC & _).
  destruct (send_result cr nw c input k buf s b n OK HB HL HBL EK H) as (_ & [(A & _)|(_ & wire & P & -> & -> & _)]); [contradiction|].
  rewrite written_take.
  destruct P as (e & u & elen & pt & ct & opt & nonce & aad & piv & kid & kctx & rpiv & rkid & out & ES & _ & _ & _ & _ & _ & _ & _ & SE & _ & AE & EG & W & HW & ->).
  unfold inner_outer_option_split in ES. destruct (_ <? _) in ES; [discriminate|]. injection ES as ES.
  destruct (split_loop_spec (is_request k) (k_opts k) 0 0 0 0 e u elen NC eq_refl eq_refl eq_refl ES) as (_ & _ & _ & SU & _).
  assert (NS : Forall (fun o => o_num o < 2 ^ 16) (k_opts k)).
  { eapply Forall_impl; [|exact OW]. intros o (_ & X & _). exact X. }
  destruct (split_loop_asc (is_request k) (k_opts k) 0 0 0 0 e u elen DC NS eq_refl ltac:(lia) ltac:(lia) ES) as (_ & DU).
  assert (FU : Forall (fun o => o_num o < 256) u).
  { pose proof (selects_forall _ _ _ SU) as F. rewrite Forall_forall in *. intros o Ho. apply outside_small.
    apply (F (nv o)). apply in_map. exact Ho. }
  destruct (insert_oscore_spec u opt 0 DU FU ltac:(lia)) as (bf & af & -> & _ & _ & NV & DI).
  unfold oscore_pkg_generate in EG. destruct (_ <? _) in EG; [discriminate|]. injection EG as <-.
  cbn [k_hdr] in HW.
  exists (msg_of {| k_hdr := {| h_ver := h_ver (k_hdr k); h_type := h_type (k_hdr k); h_tkl := h_tkl (k_hdr k);
                         h_code := if is_request k then if is_observe (bf ++ af) then CODE_REQ_FETCH else CODE_REQ_POST
                                   else if is_observe (bf ++ af) then CODE_RESP_CONTENT else CODE_RESP_CHANGED;
                         h_mid := h_mid (k_hdr k) |}; k_token := k_token k; k_opts := insert_oscore (bf ++ af) false opt 0; k_payload := ct |}),
    (map nv bf), (map nv af), opt, nonce, aad, (rfc_aad (c_alg c) rkid rpiv), pt.
  split.
  { apply pkt_bytes_rfc; [exact W|exact HW|exact DI|]. cbn [k_opts].
    apply Forall_forall. intros o Ho. assert (I : In (nv o) (map nv bf ++ (9, opt) :: map nv af)) by (rewrite <- NV; apply in_map; exact Ho).
    apply in_app_iff in I. change (2 ^ 16) with 65536.
    assert (G : forall x, In x (bf ++ af) -> nv x = nv o -> o_num o < 65536).
    { intros x Hx E. rewrite Forall_forall in FU. specialize (FU x Hx). unfold nv in E. injection E as E _. lia. }
    destruct I as [I|[I|I]].
    - apply in_map_iff in I as (x & E & Hx). apply (G x); [apply in_app_iff; auto|exact E].
    - unfold nv in I. injection I as I _. lia.
    - apply in_map_iff in I as (x & E & Hx). apply (G x); [apply in_app_iff; auto|exact E]. }
  unfold msg_of. cbn [m_ver m_type m_mid m_token m_opts m_payload k_hdr k_token k_opts k_payload h_ver h_type h_mid] in *.
  rewrite <- map_app. auto 10.
Qed.
Print Assumptions C16_on_the_wire.

(** ** C27 *)

(** An empty ACK is passed through; the context is not changed, nothing is encrypted
    or stored. *)
Theorem C27_ack_passes :
  forall (cr : crypto) (nw : N -> res unit) (c : ctx) (input buf : bytes) (k : cpkt),
  c_ssn c < 0x7FFFFF -> coap_deserialize input = Ok k -> h_type (k_hdr k) = 2 -> h_code (k_hdr k) = 0 ->
  lenN input <= lenN buf ->
  coap2oscore cr nw c input buf = (s0 c, input ++ dropN (lenN input) buf, Ok (lenN input)).
Proof.
  intros cr nw c input buf k HS EK HT HC HB. unfold coap2oscore, coap2oscore_core, check_context_freshness.
  change OSCORE_SSN_OVERFLOW_VALUE with 0x7FFFFF. destruct (N.leb_spec 0x7FFFFF (c_ssn c)); [lia|]. cbn [tryc].
  rewrite EK. cbn [tryc]. rewrite HT, HC. cbn [N.eqb andb].
  change ((2 =? 2) && (0 =? 0)) with true. cbn iota. destruct (N.ltb_spec (lenN buf) (lenN input)); [lia|]. reflexivity.
Qed.
Print Assumptions C27_ack_passes.

(** The size of the output buffer is not checked on this path: whenever the buffer is too small
    the function writes behind it. *)
Theorem C27_ack_capacity_refuted :
  forall (cr : crypto) (nw : N -> res unit) (c : ctx) (input buf : bytes) (k : cpkt),
  c_ssn c < 0x7FFFFF -> coap_deserialize input = Ok k -> h_type (k_hdr k) = 2 -> h_code (k_hdr k) = 0 ->
  lenN buf < lenN input ->
  snd (coap2oscore cr nw c input buf) = UB OobWrite.
Proof.
  intros cr nw c input buf k HS EK HT HC HB. unfold coap2oscore, coap2oscore_core, check_context_freshness.
  change OSCORE_SSN_OVERFLOW_VALUE with 0x7FFFFF. destruct (N.leb_spec 0x7FFFFF (c_ssn c)); [lia|]. cbn [tryc].
  rewrite EK. cbn [tryc]. rewrite HT, HC.
  change ((2 =? 2) && (0 =? 0)) with true. cbn iota. destruct (N.ltb_spec (lenN buf) (lenN input)); [reflexivity|lia].
Qed.
Print Assumptions C27_ack_capacity_refuted.
Example C27_ack_capacity_example :
  exists k, reachable toy_crypto toy_server /\ c_ssn toy_server < 0x7FFFFF /\ coap_deserialize [0x60; 0; 0; 1] = Ok k /\ h_type (k_hdr k) = 2 /\ h_code (k_hdr k) = 0 /\ lenN [0; 0; 0] < lenN [0x60; 0; 0; 1].
Proof.
  eexists. split.
  { exists (toy_params [2] [1] true), (Ok 0), (repeat 0 13), (repeat 0 12), 0, toy_server, []. split; vm_compute; reflexivity. }
  split; [vm_compute; reflexivity|]. split; [vm_compute; reflexivity|]. repeat split; vm_compute; reflexivity.
Qed.

(** Every other output carries an AEAD ciphertext under the sender key as its payload
    and an OSCORE option: code and payload of the message are not copied. *)
Theorem C27_nothing_else :
  forall (cr : crypto) (nw : N -> res unit) (c : ctx) (input buf b : bytes) (k : cpkt) (s : sstate) (n : N),
  crypto_ok cr -> is_bytes input -> lenN input < 2 ^ 31 -> lenN buf < 2 ^ 32 ->
  coap_deserialize input = Ok k -> ~ (h_type (k_hdr k) = 2 /\ h_code (k_hdr k) = 0) ->
  coap2oscore cr nw c input buf = (s, b, Ok n) ->
  exists hdr opts nonce aad a pt ct,
    takeN n b = header_bytes hdr ++ k_token k ++ ser_opts opts ++ 255 :: ct /\
    (exists o, In o opts /\ o_num o = 9) /\
    (forall o, In o opts -> o_num o = 9 \/ goes_outside (o_num o)) /\
    s_enc s = Some (nonce, aad, pt) /\ cr_aead_enc cr (c_skey c) nonce a 8 pt = Some ct /\
    exists rest, pt = h_code (k_hdr k) :: rest.
Proof.
  intros cr nw c input buf b k s n OK HB HL31 HBL EK NA H.
  assert (HL : lenN input < 2 ^ 32) by (change (2 ^ 31) with 2147483648 in HL31; lia).
  destruct (send_result cr nw c input k buf s b n OK HB HL HBL EK H) as (_ & [(A & _)|(_ & wire & P & -> & -> & _)]); [contradiction|].
  rewrite written_take.
  destruct P as (e & u & elen & pt & ct & opt & nonce & aad & piv & kid & kctx & rpiv & rkid & out & ES & EP & PL & _ & _ & _ & _ & _ & SE & _ & AE & EG & W & HW & ->).
  unfold inner_outer_option_split in ES. destruct (_ <? _) in ES; [discriminate|]. injection ES as ES.
  destruct (coap_parse_sound _ _ EK HB HL) as (_ & _ & _ & _ & NC & _).
  pose proof (split_loop_elen (is_request k) (k_opts k) 0 0 0 0 e u elen eq_refl ES) as LE.
  destruct (split_loop_spec (is_request k) (k_opts k) 0 0 0 0 e u elen NC eq_refl eq_refl eq_refl ES) as (_ & _ & _ & SU & _).
  unfold oscore_pkg_generate in EG. destruct (_ <? _) in EG; [discriminate|]. injection EG as <-.
  pose proof (ok_aead_enc_len _ OK _ _ _ _ _ _ AE) as LC.
  assert (IO : forall v l placed z o, In o (insert_oscore l placed v z) -> o_num o = 9 \/ exists x, In x l /\ o_num o = o_num x).
  { clear. intros v. induction l as [|x l IH]; intros placed z o Ho; cbn [insert_oscore] in Ho.
    - destruct placed; [destruct Ho|]. destruct Ho as [<-|[]]. auto.
    - destruct (_ && _) in Ho.
      + destruct Ho as [<-|[<-|Ho]]; [auto|right; exists x; cbn; auto|]. apply IH in Ho as [E|(y & Y & E)]; [auto|]. right. exists y. cbn. auto.
      + destruct Ho as [<-|Ho]; [right; exists x; cbn; auto|]. apply IH in Ho as [E|(y & Y & E)]; [auto|]. right. exists y. cbn. auto. }
  assert (IN : forall v l z, exists o, In o (insert_oscore l false v z) /\ o_num o = 9).
  { clear. intros v. induction l as [|x l IH]; intros z; cbn [insert_oscore].
    - eexists. split; [left; reflexivity|reflexivity].
    - destruct (_ && _); [eexists; split; [left; reflexivity|reflexivity]|].
      match goal with |- context [insert_oscore l false v ?y] => destruct (IH y) as (o & I & E) end.
      exists o. split; [right; exact I|exact E]. }
  eexists _, (insert_oscore u false opt 0), nonce, aad, (rfc_aad (c_alg c) rkid rpiv), pt, ct. split.
  { unfold pkt_bytes. cbn [k_hdr k_token k_opts k_payload]. destruct ct; [rewrite lenN_nil in LC; lia|]. reflexivity. }
  split; [apply IN|]. split.
  { intros o Ho. apply IO in Ho as [E|(x & X & E)]; [auto|]. right. rewrite E.
    pose proof (selects_forall _ _ _ SU) as F. rewrite Forall_forall in F. apply (F (nv x)). apply in_map. exact X. }
  split; [exact SE|]. split; [exact AE|].
  unfold plaintext_setup in EP. apply bind_ok in EP as (es & _ & EP). apply bind_ok in EP as ([] & _ & EP).
  apply bind_ok in EP as (w & EW & EP). destruct (_ <? _) in EP; [discriminate|].
  assert (X : exists r, w = h_code (k_hdr k) :: r).
  { destruct (_ =? 0) in EW; [injection EW as <-; eauto|]. destruct (_ <=? _) in EW; [discriminate|].
    apply bind_ok in EW as ([] & _ & EW). destruct (_ <? _) in EW; [discriminate|]. injection EW as <-. cbn [app]. eauto. }
  destruct X as (r & ->).
  assert (PP : pt = takeN (lenN pt) (h_code (k_hdr k) :: r)).
  { injection EP as EP. rewrite <- EP at 2. rewrite lenN_takeN. rewrite <- EP. unfold takeN.
    rewrite N2Nat.inj_min. unfold lenN. rewrite Nat2N.id. rewrite <- firstn_firstn, firstn_all. reflexivity. }
  destruct pt as [|p0 pt].
  - exfalso. injection EP as EP. assert (Z : lenN (@nil N) = 0) by reflexivity. rewrite <- EP in Z. rewrite lenN_takeN, lenN_cons in Z.
    destruct (lenN (k_payload k) =? 0); [lia|].
    pose proof (coap_payload_len _ _ EK HB) as LPL. unfold u32 in Z. change (2 ^ 31) with 2147483648 in HL31. change (2 ^ 16) with 65536 in LE.
    rewrite N.mod_small in Z by (change (2 ^ 32) with 4294967296; lia). lia.
  - rewrite PP. rewrite lenN_cons. unfold takeN. rewrite N2Nat.inj_add. cbn [N.to_nat Pos.to_nat]. change (N.to_nat 1) with 1%nat.
    cbn [plus firstn]. eauto.
Qed.
Print Assumptions C27_nothing_else.

(** A protected POST whose payload is visible nowhere in the output. *)
Example C27_example :
  coap2oscore toy_crypto toy_nw toy_server [0x60; 0; 0; 1] toy_out = (s0 toy_server, [0x60; 0; 0; 1] ++ dropN 4 toy_out, Ok 4) /\
  exists k s b n, coap_deserialize [0x41; 2; 0; 5; 5; 0xb1; 97; 255; 1; 2; 3] = Ok k /\ h_code (k_hdr k) = 2 /\
    coap2oscore toy_crypto toy_nw toy_client [0x41; 2; 0; 5; 5; 0xb1; 97; 255; 1; 2; 3] toy_out = (s, b, Ok n) /\ n = 25.
Proof.
  split; [vm_compute; reflexivity|]. do 4 eexists. split; [vm_compute; reflexivity|]. split; [vm_compute; reflexivity|].
  split; [vm_compute; reflexivity|]. vm_compute. reflexivity.
Qed.

(** ** C44 *)

(** Ciphertext produced by a call. *)
Definition sent_ciphertext (cr : crypto) (c : ctx) (s : sstate) (ct : bytes) : Prop :=
  exists nonce aad pt, s_enc s = Some (nonce, aad, pt) /\ oscore_cose_encrypt cr pt nonce aad (c_skey c) = Ok ct.

(** Two messages, sent from the same context, that agree in header (apart from the
    code), token and outer options; both are requests or both are responses. Then
    nonce and AAD agree, and if the ciphertexts agree, so do the whole outputs. *)
Theorem C44_no_leak :
  forall (cr : crypto) (nw : N -> res unit) (c : ctx) (in1 in2 buf b1 b2 : bytes) (k1 k2 : cpkt) (s1 s2 : sstate) (n1 n2 : N)
         (outer : list (N * bytes)),
  crypto_ok cr -> is_bytes in1 -> is_bytes in2 -> lenN in1 < 2 ^ 32 -> lenN in2 < 2 ^ 32 -> lenN buf < 2 ^ 32 ->
  coap_deserialize in1 = Ok k1 -> coap_deserialize in2 = Ok k2 -> ~ empty_ack k1 -> ~ empty_ack k2 ->
  h_ver (k_hdr k1) = h_ver (k_hdr k2) -> h_type (k_hdr k1) = h_type (k_hdr k2) -> h_mid (k_hdr k1) = h_mid (k_hdr k2) ->
  k_token k1 = k_token k2 -> (h_code (k_hdr k1) < 32 <-> h_code (k_hdr k2) < 32) ->
  selects (fun p => goes_outside (fst p)) (map nv (k_opts k1)) outer ->
  selects (fun p => goes_outside (fst p)) (map nv (k_opts k2)) outer ->
  coap2oscore cr nw c in1 buf = (s1, b1, Ok n1) -> coap2oscore cr nw c in2 buf = (s2, b2, Ok n2) ->
  (exists nonce aad p1 p2, s_enc s1 = Some (nonce, aad, p1) /\ s_enc s2 = Some (nonce, aad, p2)) /\
  (forall ct, sent_ciphertext cr c s1 ct -> sent_ciphertext cr c s2 ct -> b1 = b2 /\ n1 = n2).
Proof.
  intros cr nw c in1 in2 buf b1 b2 k1 k2 s1 s2 n1 n2 outer OK HB1 HB2 HL1 HL2 HBL EK1 EK2 NA1 NA2 EV ET EM EKT ERQ SO1 SO2 H1 H2.
  destruct (send_result cr nw c in1 k1 buf s1 b1 n1 OK HB1 HL1 HBL EK1 H1) as (_ & [(A & _)|(_ & w1 & P1 & -> & -> & _)]); [contradiction|].
  destruct (send_result cr nw c in2 k2 buf s2 b2 n2 OK HB2 HL2 HBL EK2 H2) as (_ & [(A & _)|(_ & w2 & P2 & -> & -> & _)]); [contradiction|].
  assert (RQ : is_request k1 = is_request k2).
  { pose proof (is_request_spec k1) as R1. pose proof (is_request_spec k2) as R2.
    destruct (is_request k1), (is_request k2); try reflexivity; exfalso.
    - assert (X : false = true) by (apply R2, ERQ, R1; reflexivity). discriminate.
    - assert (X : false = true) by (apply R1, ERQ, R2; reflexivity). discriminate. }
  assert (OBK : is_observe (k_opts k1) = is_observe (k_opts k2)).
  { assert (G : forall k, selects (fun p => goes_outside (fst p)) (map nv (k_opts k)) outer ->
       is_observe (k_opts k) = true <-> exists v, In (6, v) outer).
    { intros k S. rewrite is_observe_spec. split.
      - intros (o & I & E). exists (o_val o). rewrite <- E. change (o_num o, o_val o) with (nv o).
        eapply selects_in; [exact S|apply in_map; exact I|]. left. exact E.
      - intros (v & I). eapply selects_incl in I; [|exact S]. apply in_map_iff in I as (o & E & I). exists o. split; [exact I|].
        unfold nv in E. congruence. }
    pose proof (G _ SO1) as G1. pose proof (G _ SO2) as G2.
    destruct (is_observe (k_opts k1)), (is_observe (k_opts k2)); try reflexivity; exfalso.
    - assert (X : false = true) by (apply G2, G1; reflexivity). discriminate.
    - assert (X : false = true) by (apply G1, G2; reflexivity). discriminate. }
  assert (GO : forall l, is_observe l = match get_observe_value l with Some _ => true | None => false end).
  { clear. intros l. unfold is_observe, get_observe_value. induction l as [|o l IH]; [reflexivity|]. cbn [existsb find].
    destruct (o_num o =? OPT_OBSERVE); [reflexivity|]. exact IH. }
  assert (NEW : uses_new_piv c k1 = uses_new_piv c k2 /\
    forall cur, read_wrapper (coap_get_message_type k1) (k_token k1) (c_inter c) cur = read_wrapper (coap_get_message_type k2) (k_token k2) (c_inter c) cur).
  { rewrite EKT. unfold uses_new_piv. destruct (is_request k1) eqn:R1; symmetry in RQ.
    - apply type_request in R1. apply type_request in RQ.
      destruct R1 as [-> | [-> | ->]]; destruct RQ as [-> | [-> | ->]]; auto.
    - rewrite !GO in OBK. unfold coap_get_message_type. rewrite R1, RQ.
      destruct (get_observe_value (k_opts k1)), (get_observe_value (k_opts k2)); try discriminate; auto. }
  destruct NEW as [NEW RW].
  destruct P1 as (e1 & u1 & l1 & p1 & ct1 & o1 & no1 & aad1 & piv1 & kid1 & kc1 & rp1 & rk1 & out1 & ES1 & _ & _ & WI1 & NN1 & OG1 & RW1 & AA1 & SE1 & CE1 & _ & EG1 & W1 & _ & ->).
  destruct P2 as (e2 & u2 & l2 & p2 & ct2 & o2 & no2 & aad2 & piv2 & kid2 & kc2 & rp2 & rk2 & out2 & ES2 & _ & _ & WI2 & NN2 & OG2 & RW2 & AA2 & SE2 & CE2 & _ & EG2 & W2 & _ & ->).
  rewrite NEW in WI1, NN1.
  assert (WIE : piv1 = piv2 /\ kid1 = kid2 /\ kc1 = kc2).
  { unfold wire_ids in *. destruct (uses_new_piv c k2).
    - destruct WI1 as (A1 & -> & ->), WI2 as (A2 & -> & ->). split; [congruence|auto].
    - destruct WI1 as (-> & -> & ->), WI2 as (-> & -> & ->). auto. }
  destruct WIE as (-> & -> & ->).
  assert (no1 = no2) as -> by (destruct (uses_new_piv c k2); congruence).
  rewrite RW, RW2 in RW1. injection RW1 as <- <-. rewrite AA2 in AA1. injection AA1 as <-.
  rewrite OG2 in OG1. injection OG1 as <-.
  split; [exists no2, aad2, p1, p2; auto|].
  intros ct (na & aa & pa & EA & CA) (nb & ab & pb & EB & CB).
  rewrite SE1 in EA. injection EA as <- <- <-. rewrite SE2 in EB. injection EB as <- <- <-.
  assert (ct1 = ct) by congruence. assert (ct2 = ct) by congruence. subst ct1 ct2.
  assert (out1 = out2) as ->; [|auto].
  assert (SU : forall d k e u l, is_bytes d -> lenN d < 2 ^ 32 -> coap_deserialize d = Ok k -> inner_outer_option_split k = Ok (e, u, l) ->
     selects (fun p => goes_outside (fst p)) (map nv (k_opts k)) (map nv u) /\ Forall (fun o => o_tail o = []) u).
  { intros d k e u l HB HL EK ES. unfold inner_outer_option_split in ES. destruct (_ <? _) in ES; [discriminate|]. injection ES as ES.
    destruct (coap_parse_sound _ _ EK HB HL) as (_ & _ & _ & _ & NC & _).
    destruct (split_loop_spec (is_request k) (k_opts k) 0 0 0 0 e u l NC eq_refl eq_refl eq_refl ES) as (_ & _ & _ & S & _).
    split; [exact S|]. apply split_loop_tails in ES. tauto. }
  destruct (SU _ _ _ _ _ HB1 HL1 EK1 ES1) as [S1 T1]. destruct (SU _ _ _ _ _ HB2 HL2 EK2 ES2) as [S2 T2].
  assert (EU : map nv u1 = map nv u2).
  { rewrite (selects_fun _ _ _ _ S1 SO1). rewrite (selects_fun _ _ _ _ S2 SO2). reflexivity. }
  assert (OU : is_observe u1 = is_observe u2).
  { clear - EU. revert u2 EU. induction u1 as [|x u IH]; intros [|y v] E; try discriminate; [reflexivity|].
    cbn [map] in E. injection E as E1 _ E2. unfold is_observe in *. cbn [existsb]. rewrite E1, (IH v E2). reflexivity. }
  assert (TK : h_tkl (k_hdr k1) = h_tkl (k_hdr k2)).
  { destruct (coap_parse_sound _ _ EK1 HB1 HL1) as ((X1 & _) & _). destruct (coap_parse_sound _ _ EK2 HB2 HL2) as ((X2 & _) & _). congruence. }
  unfold oscore_pkg_generate in EG1, EG2. destruct (_ <? _) in EG1; [discriminate|]. destruct (_ <? _) in EG2; [discriminate|].
  rewrite RQ, OU, EV, ET, EM, TK, EKT in EG1. rewrite (insert_oscore_ext _ _ _ _ _ EU T1 T2) in EG1. congruence.
Qed.
Print Assumptions C44_no_leak.

(** GET /a and DELETE /b satisfy the hypotheses: no outer options, same header. *)
Example C44_example : exists k1 k2,
  coap_deserialize (toy_get 5) = Ok k1 /\ coap_deserialize [0x41; 4; 0; 5; 5; 0xb1; 98] = Ok k2 /\
  selects (fun p => goes_outside (fst p)) (map nv (k_opts k1)) [] /\ selects (fun p => goes_outside (fst p)) (map nv (k_opts k2)) [] /\
  lenN (snd (toy_send toy_client (toy_get 5))) = lenN (snd (toy_send toy_client [0x41; 4; 0; 5; 5; 0xb1; 98])).
Proof.
  do 2 eexists. split; [vm_compute; reflexivity|]. split; [vm_compute; reflexivity|].
  assert (N11 : ~ goes_outside 11) by (rewrite goes_outside_spec; intros [X|X]; vm_compute in X; discriminate).
  split; [repeat constructor; exact N11|]. split; [repeat constructor; exact N11|]. vm_compute. reflexivity.
Qed.
