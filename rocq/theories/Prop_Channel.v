(** Property C56: what oscore2coap delivers was sent by the peer, and a response answers
    the request of this endpoint. Vocabulary in Spec_Channel.v. *)
From Verif Require Import Base Proof_Base Model_Common Model_Crypto Model_Cbor Proof_Cbor Model_OscorePrims Spec_OscorePrims Proof_OscorePrims
  Spec_CborTree Proof_CborTree Model_Coap Spec_Coap Proof_Coap Model_Interactions Spec_Interactions Proof_Interactions
  Model_Context Spec_Options Proof_Options Model_Send Proof_Send Model_Recv Proof_Recv Model_Run
  Spec_Session Proof_Run Proof_Session Proof_Nonce Proof_Wire Spec_RoundTrip Proof_RoundTrip Prop_Context Prop_Auth Proof_Protect
  Spec_Channel Proof_Channel Model_Toy Proof_Toy Model_ToyRun.

Lemma paired_sym cr a b : paired cr a b -> paired cr b a.
Proof.
  intros (p & q & n1 & n2 & g1 & e1 & f1 & g2 & e2 & f2 & E1 & E2 & E3 & E4 & E5 & E6 & HA & HB).
  exists q, p, n2, n1, g2, e2, f2, g1, e1, f1. conj; auto; try congruence.
Qed.

(** The facts about a context used below. *)
Record started (cr : crypto) (c0 : ctx) : Prop := {
  st_iv : forall calls, lenN (c_iv (fst (run cr c0 calls))) = 13;
  st_table : forall calls, table_ok (c_inter (fst (run cr c0 calls)));
  st_keys : forall calls, same_keys c0 (fst (run cr c0 calls));
  st_empty : forall x, ~ held (c_inter c0) x;
  st_ids : c_sid c0 <> c_rid c0;
  st_alg : is_int32 (c_alg c0);
}.
Lemma run_keys cr c0 calls : same_keys c0 (fst (run cr c0 calls)).
Proof.
  apply (run_inv cr (fun c => same_keys c0 c)); [|unfold same_keys; auto 10].
  intros c a c' o K H. apply exec_keys in H as [K' _]. unfold same_keys in *. intuition congruence.
Qed.
Lemma paired_facts cr a b : crypto_ok cr -> paired cr a b ->
  started cr a /\ c_sid a = c_rid b /\ c_rid a = c_sid b /\ c_alg a = c_alg b.
Proof.
  intros OK (p & q & n1 & n2 & g1 & e1 & f1 & g2 & e2 & f2 & E1 & E2 & E3 & E4 & E5 & E6 & HA & HB).
  destruct (C30_mirrored cr p q n1 n2 g1 e1 g2 e2 f1 f2 a b (ok_hmac_len _ OK) E1 E2 E3 E4 E5 HA HB) as (_ & _ & _ & M4 & M5 & M6 & _).
  assert (R : forall calls, reachable cr (fst (run cr a calls))).
  { intros calls. exists p, n1, g1, e1, f1, a, calls. auto. }
  split; [|auto]. pose proof HA as HI. apply init_inter in HI as (I1 & _ & _ & _ & I5 & I6 & _). constructor.
  - intros calls. eapply reachable_iv; [apply (ok_hmac_len _ OK)|apply R].
  - intros calls. eapply reachable_table; apply R.
  - apply run_keys.
  - intros x Hx. rewrite I1 in Hx. destruct Hx as [X|[X|[X|[]]]]; discriminate.
  - rewrite I5, I6. exact E6.
  - destruct (reachable_keyed cr a (ok_hmac_len _ OK) (R [])) as (-> & _). split; lia.
Qed.

Lemma delivered_content cr c c' input buf buf' n :
  crypto_ok cr -> lenN (c_iv c) = 13 -> table_ok (c_inter c) -> is_bytes input -> lenN input < 2 ^ 32 -> lenN buf < 2 ^ 32 ->
  oscore2coap cr c input buf = (c', buf', Ok n) ->
  exists k o rpiv rkid nonce a pt m eopts,
    coap_deserialize input = Ok k /\ oscore_option_parser (k_opts k) = Ok o /\
    decrypts cr c input nonce (rfc_aad (c_alg c) rkid rpiv) pt /\ create_aad (c_alg c) rkid rpiv MAX_AAD_LEN = Ok a /\
    (if is_request k then rkid = c_rid c /\ rpiv = co_piv o
     else exists x, held (c_inter c) x /\ i_token x = k_token k /\ rkid = i_kid x /\ rpiv = i_piv x) /\
    rfc_message m (takeN n buf') /\ m_token m = k_token k /\
    (exists body, pt = m_code m :: body /\ options_deserialize body MAX_E_OPTION_COUNT = Ok (eopts, m_payload m)) /\
    (forall num v, In (num, v) (m_opts m) <->
       In (num, v) (map nv eopts) \/ (In (num, v) (map nv (k_opts k)) /\ num <> 9 /\ num <> 6)).
Proof.
  intros OK HI HT HB HL HBL H.
  apply recv_output in H as (out & w & H & HS & -> & ->).
  apply core_opened in H as (k & o & rpiv & rkid & nonce & a & pt & EK & EO & D & CA & G & AD & RF); [|assumption..].
  assert (KB : is_bytes (k_payload k)).
  { destruct (coap_parse_sound _ _ EK HB HL) as (_ & _ & _ & _ & _ & B & _). exact B. }
  assert (PB : is_bytes pt) by (eapply ok_aead_dec_bytes; eassumption).
  assert (PL : lenN pt < 2 ^ 32).
  { apply ok_aead_dec_len in AD; [|exact OK].
    destruct (coap_parse_sound _ _ EK HB HL) as ((_ & _ & _ & B & _) & _). lia. }
  destruct (pkg_generate_wf _ _ _ _ HB HL EK PB PL G) as (W1 & W2 & W3 & W4 & code & body & eopts & -> & ED & EH & ET & ER & _).
  apply coap_serialize_ok in HS as (-> & _ & _); [|assumption..].
  exists k, o, rpiv, rkid, nonce, a, (code :: body), (msg_of out), eopts. rewrite written_take.
  split; [exact EK|]. split; [exact EO|]. split; [exact D|]. split; [exact CA|]. split; [exact RF|].
  split; [apply pkt_bytes_rfc; assumption|].
  unfold msg_of; cbn [m_token m_mid m_type m_code m_payload m_opts]. rewrite ET, EH. cbn [h_mid h_type h_code].
  split; [reflexivity|]. split; [eauto|].
  unfold options_reorder in ER. apply bind_ok in ER as ([] & _ & ER).
  set (l := filter _ (k_opts k) ++ eopts) in *. destruct (N.ltb_spec MAX_OPTION_COUNT (lenN l)); [discriminate|].
  injection ER as ER. pose proof (exchange_sort_perm _ l 0 eq_refl) as P. rewrite <- ER.
  intros num v.
  assert (EQ : In (num, v) (map nv l) <-> In (num, v) (map nv eopts) \/ (In (num, v) (map nv (k_opts k)) /\ num <> 9 /\ num <> 6)).
  { unfold l. rewrite map_app, in_app_iff. 
    assert (X : In (num, v) (map nv (filter (fun o => negb (o_num o =? OPT_OSCORE) && negb (o_num o =? OPT_OBSERVE)) (k_opts k))) <->
      In (num, v) (map nv (k_opts k)) /\ num <> 9 /\ num <> 6).
    { rewrite !in_map_iff. split.
      - intros (x & E & I). apply filter_In in I as [I F]. apply andb_true_iff in F as [F1 F2].
        apply negb_true_iff in F1, F2. apply N.eqb_neq in F1, F2. unfold nv in E. injection E as <- <-.
        split; [exists x; auto|]. auto.
      - intros ((x & E & I) & F1 & F2). exists x. split; [exact E|]. apply filter_In. split; [exact I|].
        unfold nv in E. injection E as <- <-. apply andb_true_iff. split; apply negb_true_iff, N.eqb_neq; assumption. }
    tauto. }
  rewrite <- EQ. split; intros I; [eapply Permutation.Permutation_in; [symmetry; exact P|exact I]|eapply Permutation.Permutation_in; [exact P|exact I]].
Qed.

Lemma sealed_facts cr c0 calls pre msg cs nonce rkid rpiv a pt : started cr c0 ->
  sealed cr c0 calls pre msg cs nonce (rfc_aad (c_alg c0) rkid rpiv) pt -> create_aad (c_alg c0) rkid rpiv MAX_AAD_LEN = Ok a ->
  exists nw buf o k1, happened cr c0 calls pre (ASend nw msg buf) cs o /\ ob_enc o = Some (nonce, a, pt) /\
    coap_deserialize msg = Ok k1 /\ (pt <> [] -> exists body, pt = h_code (k_hdr k1) :: body) /\
    (if is_request k1 then rkid = c_sid c0 /\ ssn2piv (c_ssn cs) = Ok rpiv
     else exists x, held (c_inter cs) x /\ i_token x = k_token k1 /\ rkid = i_kid x /\ rpiv = i_piv x) /\
    forall ms, is_bytes msg -> rfc_message ms msg -> supported ms msg ->
      exists body eo, pt = m_code ms :: body /\ options_deserialize body MAX_E_OPTION_COUNT = Ok (eo, m_payload ms) /\
        map nv eo = inside_opts (received ms).
Proof.
  intros [ST1 ST2 ST3 ST4 ST5 ST6] (nw & buf & o & a1 & HP & EE & EA) CA.
  pose proof HP as (_ & RC & NU & EX). destruct (exec cr cs (ASend nw msg buf)) as [c' o'] eqn:EX'. cbn [snd] in EX. subst o'.
  apply exec_send in EX' as (s & r & H & -> & ES & _). rewrite EE in ES. symmetry in ES.
  destruct (core_sealed _ _ _ _ _ _ _ _ _ H ES) as (k1 & e & u & elen & piv & kid & kctx & rp & rk & L & EK & SP & PT & LP & WI & RW & CA1).
  pose proof (ST3 pre) as K. rewrite RC in K. destruct K as (K1 & _ & _ & _ & K5 & _). rewrite K1 in CA1.
  rewrite (rfc_aad_created _ _ _ _ CA) in EA.
  destruct (aad_inj _ _ _ _ _ _ _ ST6 CA CA1 EA) as [<- <-].
  assert (a1 = a) by congruence. subst a1.
  exists nw, buf, o, k1. split; [exact HP|]. split; [exact EE|]. split; [exact EK|]. split.
  { intros NE. eapply plaintext_code; [exact PT|]. rewrite <- (plaintext_setup_len _ _ _ _ _ PT).
    destruct pt; [congruence|]. rewrite lenN_cons. lia. }
  split.
  { pose proof (ST2 pre) as TB. rewrite RC in TB. pose proof (wrapper_refs _ _ _ _ _ _ TB RW) as R.
    destruct (is_request k1) eqn:RQ.
    - destruct R as [-> ->]. unfold uses_new_piv in WI.
      assert (U : needs_new_piv (coap_get_message_type k1) (c_echo cs) = true).
      { apply type_request in RQ as [-> | [-> | ->]]; reflexivity. }
      rewrite U in WI. destruct WI as (W1 & W2 & _). split; [congruence|exact W1].
    - destruct R as (x & X1 & X2 & X3 & X4). exists x. auto. }
  intros ms HB HM SU. destruct (plaintext_reads _ _ _ _ _ _ _ HM SU HB EK SP PT LP) as [_ R]. exact R.
Qed.

Lemma happened_input_ok cr c0 calls pre nw msg buf c o : Forall input_ok calls -> happened cr c0 calls pre (ASend nw msg buf) c o -> is_bytes msg.
Proof.
  intros F ((post & ->) & _). apply Forall_app in F as [_ F]. inversion F as [|? ? X _]; subst. apply X.
Qed.
Lemma not_own cr c0 calls pre nw msg buf c o k : started cr c0 -> ~ answers_own cr c0 calls -> happened cr c0 calls pre (ASend nw msg buf) c o ->
  coap_deserialize msg = Ok k -> (exists x, held (c_inter c) x /\ i_token x = k_token k /\ i_kid x = c_sid c0) -> is_request k = true.
Proof.
  intros ST NA H EK (x & X1 & X2 & X3). destruct (is_request k) eqn:RQ; [reflexivity|]. exfalso. apply NA.
  exists pre, nw, msg, buf, c, o, k, x. conj; auto.
  - rewrite is_request_code in RQ. apply N.ltb_ge in RQ. exact RQ.
  - destruct H as (_ & RC & _). pose proof (st_keys _ _ ST pre) as K. rewrite RC in K. destruct K as (_ & _ & _ & _ & K & _). congruence.
Qed.

Lemma content_same k m pt ms body eo eopts body' :
  pt = m_code m :: body -> options_deserialize body MAX_E_OPTION_COUNT = Ok (eopts, m_payload m) ->
  (forall num v, In (num, v) (m_opts m) <-> In (num, v) (map nv eopts) \/ (In (num, v) (map nv (k_opts k)) /\ num <> 9 /\ num <> 6)) ->
  pt = m_code ms :: body' -> options_deserialize body' MAX_E_OPTION_COUNT = Ok (eo, m_payload ms) -> map nv eo = inside_opts (received ms) ->
  same_content (map nv (k_opts k)) ms m.
Proof.
  intros -> D1 I E D2 N. injection E as EC <-. rewrite D1 in D2. injection D2 as -> EP. unfold same_content.
  conj; auto. intros num v. rewrite I, N. reflexivity.
Qed.

(** A message that endpoint b delivers from a packet with the outer code of a request is
    a request that endpoint a passed to coap2oscore: code, payload and protected options
    are the same, and the Partial IV is the number it was sent with.
    Partial: options outside the ciphertext are not those of a (C21), and the content is
    shown for the messages of C19 ([supported]); a is assumed not to answer its own
    requests. *)
Theorem C56_request_partial :
  forall (cr : crypto) (a0 b0 : ctx) (calls_a calls_b : list api_call) (input buf : bytes) (b' : ctx) (out : bytes) (n : N) (k : cpkt) (piv : bytes),
  crypto_ok cr -> paired cr a0 b0 -> Forall input_ok calls_a -> ~ answers_own cr a0 calls_a ->
  is_bytes input -> lenN input < 2 ^ 32 -> lenN buf < 2 ^ 32 ->
  let b := fst (run cr b0 calls_b) in
  oscore2coap cr b input buf = (b', out, Ok n) ->
  packet input k piv -> h_code (k_hdr k) < 32 ->
  unforged cr b input a0 calls_a ->
  exists pre msg c nonce A pt m,
    sealed cr a0 calls_a pre msg c nonce A pt /\ ssn2piv (c_ssn c) = Ok piv /\
    rfc_message m (takeN n out) /\ code_of msg (m_code m) /\ m_code m < 32 /\ m_token m = k_token k /\
    forall ms, rfc_message ms msg -> supported ms msg -> same_content (map nv (k_opts k)) ms m.
Proof.
  intros cr a0 b0 calls_a calls_b input buf b' out n k piv OK PA FI NA HB HL HBL b H (EK & o & EO & EP) LC UF.
  destruct (paired_facts _ _ _ OK PA) as (SA & M1 & M2 & M3).
  destruct (paired_facts _ _ _ OK (paired_sym _ _ _ PA)) as (SB & _).
  destruct (delivered_content cr b b' input buf out n OK (st_iv _ _ SB calls_b) (st_table _ _ SB calls_b) HB HL HBL H)
    as (k' & o' & rpiv & rkid & nonce & a & pt & m & eopts & EK' & EO' & D & CA & RF & RM & TM & (body & EB & ED) & IO).
  rewrite EK in EK'. injection EK' as <-. rewrite EO in EO'. injection EO' as <-.
  assert (RQ : is_request k = true) by (apply is_request_spec; exact LC). rewrite RQ in RF. destruct RF as [-> ->].
  destruct (UF _ _ _ D) as (pre & msg & cs & SE).
  pose proof (st_keys _ _ SB calls_b) as (K1 & _ & _ & _ & _ & _ & K7 & _). fold b in K1, K7.
  rewrite K1, K7, <- M3, <- M1 in CA. pose proof SE as SE'. rewrite K1, K7, <- M3, <- M1 in SE'.
  destruct (sealed_facts _ _ _ _ _ _ _ _ _ _ _ SA SE' CA) as (nw & bf & ob & k1 & HP & EE & EK1 & PC & R & CT).
  assert (RQ1 : is_request k1 = true).
  { destruct (is_request k1) eqn:RQ1; [reflexivity|]. destruct R as (x & X1 & X2 & X3 & X4).
    rewrite <- RQ1. apply (not_own cr a0 calls_a pre nw msg bf cs ob k1 SA NA HP EK1). exists x. auto. }
  rewrite RQ1 in R. destruct R as [_ R].
  destruct PC as [body' EB']; [rewrite EB; discriminate|]. rewrite EB in EB'. injection EB' as EC _.
  exists pre, msg, cs, nonce, (rfc_aad (c_alg b) (c_rid b) (co_piv o)), pt, m.
  split; [exact SE|]. split; [rewrite <- EP; exact R|]. split; [exact RM|]. split; [exists k1; auto|].
  split; [rewrite EC; apply is_request_spec; exact RQ1|]. split; [exact TM|].
  intros ms HM SU. destruct (CT ms (happened_input_ok _ _ _ _ _ _ _ _ _ FI HP) HM SU) as (body2 & eo & E1 & E2 & E3).
  eapply content_same; eassumption.
Qed.
Print Assumptions C56_request_partial.

(** A message that endpoint a delivers from a packet with the outer code of a response,
    under the token of a request it has outstanding, is a response that endpoint b passed
    to coap2oscore: code, payload and protected options are the same. Before, b had
    received a packet, with the token of its response, in which it decrypted exactly the
    plaintext of this request.
    Partial: as C56_request_partial; the tokens of the two packets are not protected and
    may differ from those at the sender. *)
Theorem C56_response_partial :
  forall (cr : crypto) (a0 b0 : ctx) (calls_a calls_b : list api_call) (input buf : bytes) (a' : ctx) (out : bytes) (n : N) (k : cpkt),
  crypto_ok cr -> paired cr a0 b0 -> Forall input_ok calls_b -> ~ answers_own cr a0 calls_a ->
  is_bytes input -> lenN input < 2 ^ 32 -> lenN buf < 2 ^ 32 ->
  let a := fst (run cr a0 calls_a) in
  oscore2coap cr a input buf = (a', out, Ok n) ->
  coap_deserialize input = Ok k -> 32 <= h_code (k_hdr k) ->
  (exists r, held (c_inter a) r /\ i_token r = k_token k /\ i_kid r = c_sid a) ->
  unforged cr a input b0 calls_b ->
  (forall pre input' buf' c o, happened cr b0 calls_b pre (ARecv input' buf') c o -> unforged cr c input' a0 calls_a) ->
  exists pre_q req ca nonce_q A_q pt_q pre_r pkt buf_r cb o pre_s resp cs nonce_s A_s pt_s m,
    sealed cr a0 calls_a pre_q req ca nonce_q A_q pt_q /\ token_of req (k_token k) /\ (exists code, code_of req code /\ code < 32) /\
    sealed cr b0 calls_b pre_s resp cs nonce_s A_s pt_s /\
    happened cr b0 pre_s pre_r (ARecv pkt buf_r) cb o /\ decrypts cr cb pkt nonce_q A_q pt_q /\
    (exists t, token_of pkt t /\ token_of resp t) /\
    rfc_message m (takeN n out) /\ code_of resp (m_code m) /\ 32 <= m_code m /\ m_token m = k_token k /\
    forall ms, rfc_message ms resp -> supported ms resp -> same_content (map nv (k_opts k)) ms m.
Proof.
  intros cr a0 b0 calls_a calls_b input buf a' out n k OK PA FI NA HB HL HBL a H EK LC (r & R1 & R2 & R3) UF UG.
  destruct (paired_facts _ _ _ OK PA) as (SA & M1 & M2 & M3).
  destruct (paired_facts _ _ _ OK (paired_sym _ _ _ PA)) as (SB & _).
  destruct (delivered_content cr a a' input buf out n OK (st_iv _ _ SA calls_a) (st_table _ _ SA calls_a) HB HL HBL H)
    as (k' & ow & rpiv & rkid & nonce & aa & pt & m & eopts & EK' & EO' & D & CA & RF & RM & TM & (body & EB & ED) & IO).
  rewrite EK in EK'. injection EK' as <-.
  assert (RQ : is_request k = false) by (rewrite is_request_code; apply N.ltb_ge; exact LC). rewrite RQ in RF.
  destruct RF as (x & X1 & X2 & -> & ->).
  assert (x = r).
  { pose proof (st_table _ _ SA calls_a) as (_ & _ & TU). fold a in TU.
    apply In_nth_error in X1 as (i & X1). apply In_nth_error in R1 as (j & R1).
    assert (i = j) by (eapply TU; [exact X1|exact R1|left; congruence]). congruence. }
  subst x.
  pose proof (st_keys _ _ SA calls_a) as (K1 & _ & _ & _ & K5 & _). fold a in K1, K5.
  rewrite R3, K5, K1, M3, M1 in CA.
  destruct (UF _ _ _ D) as (pre_s & resp & cs & SE).
  pose proof SE as SE'. rewrite R3, K5, K1, M3, M1 in SE'.
  destruct (sealed_facts _ _ _ _ _ _ _ _ _ _ _ SB SE' CA) as (nw & bf & ob & k1 & HP & EE & EK1 & PC & R & CT).
  destruct PC as [body' EB']; [rewrite EB; discriminate|]. rewrite EB in EB'. injection EB' as EC _.
  destruct (is_request k1) eqn:RQ1. { exfalso. apply (st_ids _ _ SB). symmetry. apply R. }
  destruct R as (y & Y1 & Y2 & Y3 & Y4).
  (* the request as b received it *)
  pose proof HP as ((post & CB) & RC & _).
  rewrite <- RC in Y1.
  destruct (received_entry cr b0 (st_iv _ _ SB) (st_table _ _ SB) (st_keys _ _ SB) (st_empty _ _ SB) (st_ids _ _ SB) pre_s y Y1 (eq_sym Y3))
    as (pre_r & pkt & buf_r & cb & oo & kb & obr & nq & aq & ptq & HR & EKB & EOB & LB & TB & PB & CAB & DB).
  pose proof (happened_more cr _ _ _ _ _ _ (ASend nw resp bf :: post) HR) as HR'. rewrite <- CB in HR'.
  destruct (UG _ _ _ _ _ HR' _ _ _ DB) as (pre_q & req & ca & SQ).
  (* the request as a sent it *)
  pose proof HR as (_ & RCB & _). pose proof (st_keys _ _ SB pre_r) as KB. rewrite RCB in KB. destruct KB as (KB1 & _ & _ & _ & _ & _ & KB7 & _).
  pose proof SQ as SQ'. rewrite KB1, KB7, <- M3, <- M1, <- PB, <- Y4 in SQ'. rewrite KB1, KB7, <- M3, <- M1, <- PB, <- Y4 in CAB.
  destruct (sealed_facts _ _ _ _ _ _ _ _ _ _ _ SA SQ' CAB) as (nwq & bfq & obq & kq & HQ & EQ & EKQ & _ & RQQ & _).
  assert (RQR : is_request kq = true).
  { destruct (is_request kq) eqn:RQ2; [reflexivity|]. destruct RQQ as (z & Z1 & Z2 & Z3 & Z4).
    rewrite <- RQ2. apply (not_own cr a0 calls_a pre_q nwq req bfq ca obq kq SA NA HQ EKQ). exists z. auto. }
  rewrite RQR in RQQ. destruct RQQ as [_ NQ].
  rewrite R3 in *.
  destruct (sent_entry cr a0 (st_iv _ _ SA) (st_table _ _ SA) (st_keys _ _ SA) (st_empty _ _ SA) (st_ids _ _ SA) calls_a r R1 ltac:(congruence))
    as (pre2 & nw2 & req2 & buf2 & c2 & ob2 & k2 & n2 & a2 & pt2 & H2 & E2 & EK2 & RQ2 & T2 & N2).
  assert (NE : c_ssn ca = c_ssn c2).
  { apply ssn2piv_ok in NQ as (_ & (_ & V1 & _) & _). apply ssn2piv_ok in N2 as (_ & (_ & V2 & _) & _). congruence. }
  destruct (number_unique cr _ _ _ _ _ _ _ _ _ _ _ _ _ _ _ _ _ _ _ _ _ _ HQ EQ EKQ RQR H2 E2 EK2 RQ2 NE) as (_ & EM & _).
  injection EM as _ <- _. rewrite EKQ in EK2. injection EK2 as <-.
  exists pre_q, req, ca, nq, (rfc_aad (c_alg cb) (c_rid cb) (co_piv oo)), ptq, pre_r, pkt, buf_r, cb, obr, pre_s, resp, cs, nonce.
  eexists. exists pt, m. split; [exact SQ|]. split; [exists kq; split; [exact EKQ|congruence]|].
  split; [exists (h_code (k_hdr kq)); split; [exists kq; auto|apply is_request_spec; exact RQR]|].
  split; [exact SE|]. split; [exact HR|]. split; [exact DB|].
  split; [exists (k_token kb); split; [exists kb; auto|exists k1; split; [exact EK1|congruence]]|].
  split; [exact RM|]. split; [exists k1; auto|]. split; [rewrite EC; rewrite is_request_code in RQ1; apply N.ltb_ge in RQ1; exact RQ1|].
  split; [exact TM|].
  intros ms HM SU. destruct (CT ms (happened_input_ok _ _ _ _ _ _ _ _ _ FI HP) HM SU) as (body2 & eo & F1 & F2 & F3).
  eapply content_same; eassumption.
Qed.
Print Assumptions C56_response_partial.

(** A request and its response. *)
Definition ch_resp : bytes := snd (toy_send (fst (toy_recv toy_server toy_req5)) (toy_content 5)).
Definition ch_calls_a : list api_call := [ASend toy_nw (toy_get 5) toy_out].
Definition ch_calls_b : list api_call := [ARecv toy_req5 toy_out; ASend toy_nw (toy_content 5) toy_out].
Definition ch_entry : inter := {| i_type := MREQUEST; i_token := [5]; i_uri := [97]; i_piv := [0]; i_kid := [1] |}.
Lemma ch_table : c_inter (fst (run toy_crypto toy_client ch_calls_a)) = [Some ch_entry; None; None].
Proof. vm_compute. reflexivity. Qed.
Lemma ch_paired : paired toy_crypto toy_client toy_server.
Proof.
  exists (toy_params [1] [2] true), (toy_params [2] [1] true), (Ok 0), (Ok 0), (repeat 0 13), (repeat 0 12), 0, (repeat 0 13), (repeat 0 12), 0.
  repeat (split; [reflexivity || discriminate|]). split; vm_compute; reflexivity.
Qed.
Lemma ch_not_own : ~ answers_own toy_crypto toy_client ch_calls_a.
Proof.
  intros (pre & nw & msg & buf & c & o & k & r & ((post & E) & _) & EK & L & _).
  destruct pre as [|x [|y pre]]; [|discriminate..]. injection E as _ <- _ _.
  vm_compute in EK. injection EK as <-. apply L. reflexivity.
Qed.
Lemma ch_request_unforged calls : unforged toy_crypto toy_server toy_req5 toy_client (ch_calls_a ++ calls).
Proof.
  intros nonce A pt (k & o & rkid & rpiv & EK & EO & -> & AD & R).
  assert (E : exists k0 o0, coap_deserialize toy_req5 = Ok k0 /\ oscore_option_parser (k_opts k0) = Ok o0 /\ h_code (k_hdr k0) <? 32 = true /\
    co_piv o0 = [0] /\
    cr_aead_dec toy_crypto (c_rkey toy_server) (rfc_nonce (c_rid toy_server) [0] (c_iv toy_server)) (rfc_aad (c_alg toy_server) (c_rid toy_server) [0]) 8
      (k_payload k0) = Some [1; 0xb1; 97]).
  { eexists. eexists. split; [vm_compute; reflexivity|]. split; [vm_compute; reflexivity|]. vm_compute. auto. }
  destruct E as (k0 & o0 & EK0 & EO0 & EC & EP & ED). rewrite EK in EK0. injection EK0 as <-. rewrite EO in EO0. injection EO0 as <-.
  rewrite EC in R. destruct R as (-> & -> & ->). rewrite EP in *. rewrite ED in AD. injection AD as <-.
  exists [], (toy_get 5), toy_client, toy_nw, toy_out.
  exists (snd (exec toy_crypto toy_client (ASend toy_nw (toy_get 5) toy_out))), [0x85; 1; 0x81; 10; 0x41; 1; 0x41; 0; 0x40]. split.
  { split; [exists calls; reflexivity|]. split; [reflexivity|]. split; [constructor|]. reflexivity. }
  split; vm_compute; reflexivity.
Qed.
Lemma ch_response_unforged : unforged toy_crypto (fst (run toy_crypto toy_client ch_calls_a)) ch_resp toy_server ch_calls_b.
Proof.
  intros nonce A pt (k & o & rkid & rpiv & EK & EO & -> & AD & R).
  set (a := fst (run toy_crypto toy_client ch_calls_a)) in *.
  assert (E : exists k0 o0, coap_deserialize ch_resp = Ok k0 /\ oscore_option_parser (k_opts k0) = Ok o0 /\ h_code (k_hdr k0) <? 32 = false /\
    lenN (co_piv o0) =? 0 = true /\
    cr_aead_dec toy_crypto (c_rkey a) (c_nonce a) (rfc_aad (c_alg a) [1] [0]) 8 (k_payload k0) = Some [69; 255; 104; 105]).
  { eexists. eexists. split; [vm_compute; reflexivity|]. split; [vm_compute; reflexivity|]. vm_compute. auto. }
  destruct E as (k0 & o0 & EK0 & EO0 & EC & EP & ED). rewrite EK in EK0. injection EK0 as <-. rewrite EO in EO0. injection EO0 as <-.
  rewrite EC, EP in R. destruct R as ((r & HR & _ & -> & ->) & ->).
  assert (HX : i_kid r = [1] /\ i_piv r = [0]).
  { unfold a, held in HR. rewrite ch_table in HR. destruct HR as [X|[X|[X|[]]]]; [injection X as <-; auto|discriminate..]. }
  destruct HX as [HX1 HX2]. rewrite HX1, HX2 in *. rewrite ED in AD. injection AD as <-.
  exists [ARecv toy_req5 toy_out], (toy_content 5), (fst (toy_recv toy_server toy_req5)), toy_nw, toy_out.
  exists (snd (exec toy_crypto (fst (toy_recv toy_server toy_req5)) (ASend toy_nw (toy_content 5) toy_out))), [0x85; 1; 0x81; 10; 0x41; 1; 0x41; 0; 0x40]. split.
  { split; [exists []; reflexivity|]. split; [vm_compute; reflexivity|]. split; [vm_compute; repeat constructor|]. reflexivity. }
  split; vm_compute; reflexivity.
Qed.
Example C56_example :
  let a := fst (run toy_crypto toy_client ch_calls_a) in
  crypto_ok toy_crypto /\ paired toy_crypto toy_client toy_server /\ Forall input_ok ch_calls_b /\ Forall input_ok ch_calls_a /\
  ~ answers_own toy_crypto toy_client ch_calls_a /\
  (exists a' out k, oscore2coap toy_crypto a ch_resp toy_out = (a', out, Ok 8) /\ takeN 8 out = toy_content 5 /\
     coap_deserialize ch_resp = Ok k /\ 32 <= h_code (k_hdr k) /\
     exists r, held (c_inter a) r /\ i_token r = k_token k /\ i_kid r = c_sid a) /\
  unforged toy_crypto a ch_resp toy_server ch_calls_b /\
  (forall pre input' buf' c o, happened toy_crypto toy_server ch_calls_b pre (ARecv input' buf') c o ->
     unforged toy_crypto c input' toy_client ch_calls_a) /\
  (exists b' out, oscore2coap toy_crypto toy_server toy_req5 toy_out = (b', out, Ok 7) /\ takeN 7 out = toy_get 5) /\
  unforged toy_crypto toy_server toy_req5 toy_client ch_calls_a.
Proof.
  cbn zeta. split; [apply toy_ok|]. split; [apply ch_paired|].
  split; [repeat constructor; vm_compute; (reflexivity || (intros; discriminate))|]. split; [repeat constructor|]. split; [apply ch_not_own|].
  split. { eexists. eexists. eexists. split; [vm_compute; reflexivity|]. split; [vm_compute; reflexivity|]. split; [vm_compute; reflexivity|].
    split; [apply N.leb_le; vm_compute; reflexivity|]. exists ch_entry. unfold held. rewrite ch_table. split; [left; reflexivity|]. split; vm_compute; reflexivity. }
  split; [apply ch_response_unforged|]. split.
  - intros pre input' buf' c o ((post & E) & RC & _). destruct pre as [|x [|y [|z pre]]]; try discriminate.
    injection E as <- _ _. rewrite <- RC. apply (ch_request_unforged []).
  - split; [eexists; eexists; split; [vm_compute; reflexivity|vm_compute; reflexivity]|]. apply (ch_request_unforged []).
Qed.
