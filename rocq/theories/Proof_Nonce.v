(** AEAD nonces of a sender. *)
From Verif Require Import Base Proof_Base Model_Common Model_Crypto Model_Cbor Model_OscorePrims Spec_OscorePrims Proof_OscorePrims
  Model_Coap Model_Interactions Model_Replay Spec_Replay Proof_Replay Model_Context
  Model_Send Model_Recv Model_Run Spec_Interactions Proof_Interactions Proof_Send Proof_Recv
  Spec_Session Proof_Run Proof_Session.

Section WithCrypto.
Variable cr : crypto.

Lemma core_enc_limit nw c input s r : coap2oscore_core cr nw c input = (s, r) ->
  OSCORE_SSN_OVERFLOW_VALUE <= c_ssn c -> s = s0 c.
Proof.
  intros H L. unfold coap2oscore_core, check_context_freshness in H.
  destruct (N.leb_spec OSCORE_SSN_OVERFLOW_VALUE (c_ssn c)); [|lia]. injection H as <- _. reflexivity.
Qed.

Lemma send_ssn nw c input s r : coap2oscore_core cr nw c input = (s, r) ->
  c_ssn (s_ctx s) = c_ssn c \/ (c_ssn (s_ctx s) = c_ssn c + 1 /\ c_ssn c < OSCORE_SSN_OVERFLOW_VALUE).
Proof.
  intros H. destruct (N.lt_ge_cases (c_ssn c) OSCORE_SSN_OVERFLOW_VALUE) as [L|L].
  - apply core_effect in H as (_ & _ & SE & _). unfold send_effect in SE.
    assert (E : u64 (c_ssn c + 1) = c_ssn c + 1).
    { unfold u64. apply N.mod_small. unfold OSCORE_SSN_OVERFLOW_VALUE in L. lia. }
    rewrite E in SE.
    destruct (s_enc s) as [[[? ?] ?]|]; destruct (msg_uses_new_piv c input); intuition discriminate.
  - rewrite (core_enc_limit _ _ _ _ _ H L). auto.
Qed.

Lemma exec_ssn c a c' o : exec cr c a = (c', o) -> c_ssn c <= c_ssn c'.
Proof.
  destruct a as [nw input buf|input buf]; intros H.
  - apply exec_send in H as (s & r & H & -> & _). apply send_ssn in H. lia.
  - apply exec_recv in H as (_ & _ & r & H & _). apply recv_core_effect in H as ((_ & E & _) & _). lia.
Qed.
Lemma later_ssn c c' : later cr c c' -> c_ssn c <= c_ssn c'.
Proof.
  intros H. apply (later_inv cr (fun x => c_ssn c <= c_ssn x)) with (c := c) (c' := c') in H; [exact H| |lia].
  intros c0 a c1 o L X. apply exec_ssn in X. lia.
Qed.

Lemma plain_spec c input k : coap_deserialize input = Ok k -> uses_new_piv c k = false <-> plain_response c input.
Proof.
  intros EK. unfold uses_new_piv, plain_response. split.
  - intros H. destruct (is_request k) eqn:RQ.
    + apply type_request in RQ as [T|[T|T]]; rewrite T in H; discriminate.
    + assert (T : coap_get_message_type k = MRESPONSE).
      { destruct (type_response k RQ) as [T|T]; [exact T|]. rewrite T in H. discriminate. }
      rewrite T in H. split; [destruct (c_echo c); [discriminate..|discriminate] || (intros X; rewrite X in H; discriminate)|].
      exists k. split; [exact EK|]. split.
      { destruct (N.lt_ge_cases (h_code (k_hdr k)) 32) as [L|L]; [|exact L]. apply (proj2 (is_request_spec k)) in L. rewrite L in RQ. discriminate RQ. }
      intros (o & I & E). unfold coap_get_message_type in T. rewrite RQ in T.
      assert (X : exists v, get_observe_value (k_opts k) = Some v).
      { clear - I E. unfold get_observe_value. induction (k_opts k) as [|x l IH]; [destruct I|]. cbn.
        destruct (N.eqb_spec (o_num x) OPT_OBSERVE) as [EX|EX]; [eauto|]. destruct I as [->|I]; [exfalso; apply EX; exact E|]. apply IH. exact I. }
      destruct X as [v X]. rewrite X in T. discriminate.
  - intros (NE & k' & EK' & L & NO). rewrite EK in EK'. injection EK' as <-.
    assert (RQ : is_request k = false).
    { destruct (is_request k) eqn:E; [|reflexivity]. apply is_request_spec in E. lia. }
    unfold coap_get_message_type. rewrite RQ.
    assert (X : get_observe_value (k_opts k) = None).
    { clear - NO. unfold get_observe_value. induction (k_opts k) as [|x l IH]; [reflexivity|]. cbn.
      destruct (N.eqb_spec (o_num x) OPT_OBSERVE) as [EX|EX].
      - destruct NO. exists x. split; [left; reflexivity|exact EX].
      - apply IH. intros (o & I & E). apply NO. exists o. split; [right; exact I|exact E]. }
    rewrite X. destruct (c_echo c); [reflexivity|congruence|reflexivity].
Qed.

(** An encryption by a call is either fresh or uses the stored nonce. *)
Lemma send_nonce nw c input buf c' o n a p : exec cr c (ASend nw input buf) = (c', o) -> ob_enc o = Some (n, a, p) ->
  (~ plain_response c input /\ c_ssn c' = c_ssn c + 1 /\ c_nonce c' = n /\
   exists piv, ssn2piv (c_ssn c) = Ok piv /\ create_nonce (c_sid c) piv (c_iv c) = Ok n) \/
  (plain_response c input /\ c_ssn c' = c_ssn c /\ n = c_nonce c /\ c_nonce c' = n).
Proof.
  intros H E. apply exec_send in H as (s & r & H & -> & EE & _). rewrite EE in E.
  pose proof (send_ssn _ _ _ _ _ H) as SS. pose proof H as H'.
  apply core_effect in H' as (_ & _ & SE & _). unfold send_effect in SE. rewrite E in SE.
  assert (EK : exists k, coap_deserialize input = Ok k).
  { unfold coap2oscore_core in H. apply tryc_inv in H as [([] & _ & H)|[-> _]]; [|cbn in E; discriminate].
    apply tryc_inv in H as [(k & EK & H)|[-> _]]; [|cbn in E; discriminate]. eauto. }
  destruct EK as (k & EK). unfold msg_uses_new_piv in SE. rewrite EK in SE. pose proof (plain_spec c input k EK) as PS.
  destruct (uses_new_piv c k).
  - left. destruct SE as (F & S1 & S2). split; [intros X; apply PS in X; discriminate|].
    split; [|split; [exact S2|exact F]]. destruct SS as [SS|[SS _]]; [|exact SS].
    rewrite SS in S1. exfalso. assert (L : c_ssn c < OSCORE_SSN_OVERFLOW_VALUE).
    { destruct (N.lt_ge_cases (c_ssn c) OSCORE_SSN_OVERFLOW_VALUE) as [L|L]; [exact L|].
      rewrite (core_enc_limit _ _ _ _ _ H L) in E. discriminate. }
    unfold u64 in S1. rewrite N.mod_small in S1; [lia|]. unfold OSCORE_SSN_OVERFLOW_VALUE in L. lia.
  - right. split; [apply PS; reflexivity|]. destruct SE as (-> & S1 & S2 & _). auto.
Qed.

(** An accepted request leaves the nonce of its own number. *)
Lemma request_nonce c input buf c' piv : is_bytes input -> lenN input < 2 ^ 32 ->
  request_packet input piv -> accepts cr c input buf c' ->
  create_nonce (c_rid c) piv (c_iv c) = Ok (c_nonce c').
Proof.
  intros HB HL (k & HP & HC) H. apply accepts_core in H as (out & H).
  apply recv_core_inv in H as [[_ H]|(k' & o & _ & EK & EO & H)]; [discriminate|].
  destruct (packet_fun input k k' piv (co_piv o) HP) as [-> EP]; [split; eauto|].
  apply is_request_spec in HC. rewrite HC in H.
  apply recv_request_inv in H as [[_ H]|(ssn & rd & KV & _ & ES & V & c1 & D & H)]; [discriminate|].
  destruct H as [(_ & _ & H)|(pt & out' & -> & H)]; [discriminate|].
  apply decrypt_wrapper_ok in D as (rp & rk & n & aad & uri & (_ & (kid & KV' & EN) & _) & EC & _).
  rewrite KV in KV'. injection KV' as <-. rewrite EP in EN.
  assert (c_nonce c' = n) as ->; [|exact EN]. rewrite <- EC. destruct (c_echo c).
  - destruct H as [-> _]. reflexivity.
  - destruct H as [(_ & -> & _)|(_ & -> & _)]; reflexivity.
  - destruct H as [(_ & -> & _)|(b & t & _ & -> & _)]; reflexivity.
Qed.

(** Nonces used so far, given the context. *)
Definition used_ok (c : ctx) (n : bytes) : Prop :=
  (exists m piv, m < c_ssn c /\ ssn2piv m = Ok piv /\ create_nonce (c_sid c) piv (c_iv c) = Ok n) \/
  (exists piv, spent (be_val piv) c /\ create_nonce (c_rid c) piv (c_iv c) = Ok n).

Lemma used_step c a c' o n : exec cr c a = (c', o) -> used_ok c n -> used_ok c' n.
Proof.
  intros H U. pose proof (exec_ssn _ _ _ _ H) as L. pose proof (exec_keys _ _ _ _ _ H) as ((_ & _ & EI & _ & ES & _ & ER & _) & _).
  unfold used_ok. rewrite EI, ES, ER. destruct U as [(m & piv & U1 & U2 & U3)|(piv & U1 & U2)].
  - left. exists m, piv. split; [lia|]. auto.
  - right. exists piv. split; [|exact U2]. eapply spent_step; eassumption.
Qed.

Lemma ssn2piv_inj m n p q : ssn2piv m = Ok p -> ssn2piv n = Ok q -> be_val p = be_val q -> m = n.
Proof.
  intros P Q E. apply ssn2piv_ok in P as (_ & (_ & P & _) & _). apply ssn2piv_ok in Q as (_ & (_ & Q & _) & _). congruence.
Qed.

Lemma NoDup_app_comm_single {A} (l : list A) x : NoDup l -> ~ In x l -> NoDup (l ++ [x]).
Proof.
  intros H N. apply Permutation.Permutation_NoDup with (x :: l); [apply Permutation.Permutation_cons_append|]. constructor; assumption.
Qed.

Lemma prompt_nodup c ns c' : prompt cr c ns c' ->
  lenN (c_iv c) = 13 -> c_sid c <> c_rid c -> (exists H, Inv H (c_win c)) ->
  forall used, NoDup used -> Forall (used_ok c) used -> NoDup (used ++ ns).
Proof.
  assert (WIN : forall c a c1 o, exec cr c a = (c1, o) -> (exists H, Inv H (c_win c)) -> exists H, Inv H (c_win c1)).
  { intros x [nw i b|i b] x1 o X (H & HI).
    - apply exec_send in X as (s & r & X & -> & _). apply core_effect in X as (_ & (SW & _) & _). rewrite SW. eauto.
    - apply exec_recv in X as (_ & _ & r & X & _).
      apply recv_replay_state in X as [[_ B]|[(_ & _ & w & C)|[(_ & _ & C)|(_ & _ & n & C)]]].
      + rewrite B. eauto.
      + rewrite C. destruct (update_keeps H _ w HI) as (H' & HI' & _). eauto.
      + rewrite C. eauto.
      + rewrite C. exists (upto n). apply reinit_inv. }
  assert (STEP : forall c a c1 o used, exec cr c a = (c1, o) -> Forall (used_ok c) used -> Forall (used_ok c1) used).
  { intros x a x1 o used X. apply Forall_impl. intros n. eapply used_step. exact X. }
  assert (KEEP : forall c a c1 o, exec cr c a = (c1, o) -> lenN (c_iv c) = 13 -> c_sid c <> c_rid c ->
     lenN (c_iv c1) = 13 /\ c_sid c1 <> c_rid c1).
  { intros x a x1 o X HI HN. pose proof (exec_keys _ _ _ _ _ X) as ((_ & _ & EI & _ & ES & _ & ER & _) & _).
    rewrite EI, ES, ER. auto. }
  assert (FRESH : forall c used n piv, lenN (c_iv c) = 13 -> c_sid c <> c_rid c -> Forall (used_ok c) used ->
     ssn2piv (c_ssn c) = Ok piv -> create_nonce (c_sid c) piv (c_iv c) = Ok n -> ~ In n used).
  { intros x used n piv HI HN F EP EN I. rewrite Forall_forall in F. destruct (F n I) as [(m & q & L & EQ & EM)|(q & _ & EM)].
    - destruct (create_nonce_inj _ _ _ _ _ _ HI EN EM) as [_ E]. pose proof (ssn2piv_inj _ _ _ _ EP EQ E). lia.
    - destruct (create_nonce_inj _ _ _ _ _ _ HI EN EM) as [E _]. contradiction. }
  assert (SEND : forall x nw i b x1 o used, exec cr x (ASend nw i b) = (x1, o) -> ~ plain_response x i ->
     lenN (c_iv x) = 13 -> c_sid x <> c_rid x -> NoDup used -> Forall (used_ok x) used ->
     NoDup (used ++ nonce_of o) /\ Forall (used_ok x1) (used ++ nonce_of o)).
  { intros x nw i b x1 o used X NP HI HN ND F. unfold nonce_of. destruct (ob_enc o) as [[[n a] p]|] eqn:EO.
    - destruct (send_nonce _ _ _ _ _ _ _ _ _ X EO) as [(_ & SS & _ & piv & EP & EN)|[P _]]; [|contradiction].
      split.
      + apply NoDup_app_comm_single; [exact ND|]. eapply FRESH; eassumption.
      + apply Forall_app. split; [eapply STEP; eassumption|]. constructor; [|constructor]. left.
        exists (c_ssn x), piv. pose proof (exec_keys _ _ _ _ _ X) as ((_ & _ & EI & _ & ES & _ & ER & _) & _).
        rewrite EI, ES. split; [lia|]. auto.
    - rewrite app_nil_r. split; [exact ND|]. eapply STEP; eassumption. }
  induction 1 as [c|c i b c1 o ns c' X P IH|c nw i b c1 o ns c' X NP P IH|c i b piv c1 nw resp b2 c2 o ns c' HB HL RP AC OK X P IH];
    intros HI HN HW used ND F.
  - rewrite app_nil_r. exact ND.
  - destruct (KEEP _ _ _ _ X HI HN) as [HI1 HN1]. apply IH; eauto.
  - destruct (KEEP _ _ _ _ X HI HN) as [HI1 HN1].
    destruct (SEND _ _ _ _ _ _ _ X NP HI HN ND F) as [ND1 F1]. rewrite app_assoc. apply IH; eauto.
  - pose proof (request_nonce _ _ _ _ _ HB HL RP AC) as RN.
    pose proof AC as AC0. destruct AC as (b' & n0 & AC).
    assert (XR : exec cr c (ARecv i b) = (c1, {| ob_enc := None; ob_nvm := None; ob_buf := b'; ob_res := Ok n0 |})).
    { unfold exec. rewrite AC. reflexivity. }
    destruct (KEEP _ _ _ _ XR HI HN) as [HI1 HN1]. destruct (KEEP _ _ _ _ X HI1 HN1) as [HI2 HN2].
    pose proof (STEP _ _ _ _ _ XR F) as F1. pose proof (WIN _ _ _ _ XR HW) as HW1. pose proof (WIN _ _ _ _ X HW1) as HW2.
    unfold nonce_of. destruct (ob_enc o) as [[[n a] p]|] eqn:EO.
    2:{ cbn [app]. apply IH; auto. eapply STEP; eassumption. }
    destruct (send_nonce _ _ _ _ _ _ _ _ _ X EO) as [(NP & _)|(_ & _ & EN & _)].
    { destruct (SEND _ _ _ _ _ _ _ X NP HI1 HN1 ND F1) as [ND2 F2]. unfold nonce_of in ND2, F2. rewrite EO in ND2, F2.
      rewrite app_assoc. apply IH; auto. }
    subst n. rewrite app_assoc.
    apply accepts_core in AC0 as (out & AC0). pose proof (accepted_request _ _ _ _ _ _ HB HL RP AC0) as (SY & AR).
    assert (NS : ~ spent (be_val piv) c).
    { intros SP. destruct AR as [(_ & V & _)|(E & _)].
      - rewrite (spent_invalid _ _ SP) in V. discriminate.
      - destruct SP as [SP _]. congruence. }
    assert (SP : spent (be_val piv) c1).
    { split; [exact SY|]. destruct AR as [(E & V & b0 & t & EP & EW)|(E & EW)].
      - destruct OK as [L1|L1]; [|congruence]. subst piv. rewrite lenN_cons in L1.
        assert (t = []) as ->. { destruct t; [reflexivity|]. rewrite lenN_cons in L1. lia. }
        destruct HW as (H & HV). destruct (update_keeps H _ b0 HV) as (H' & HI' & _ & G).
        assert (EB : be_val [b0] = b0) by (unfold be_val; cbn; lia). rewrite EB in V |- *.
        exists H'. rewrite EW. auto.
      - exists (upto (be_val piv)). rewrite EW. split; [apply reinit_inv|]. apply upto_In. lia. }
    assert (NI : ~ In (c_nonce c1) used).
    { intros I. rewrite Forall_forall in F. destruct (F _ I) as [(m & q & _ & _ & EM)|(q & SQ & EM)].
      - destruct (create_nonce_inj _ _ _ _ _ _ HI RN EM) as [E _]. congruence.
      - destruct (create_nonce_inj _ _ _ _ _ _ HI RN EM) as [_ E]. rewrite <- E in SQ. contradiction. }
    apply IH; auto.
    + apply NoDup_app_comm_single; assumption.
    + apply Forall_app. split; [eapply STEP; eassumption|]. constructor; [|constructor].
      apply used_step with (1 := X). right. exists piv. split; [exact SP|].
      pose proof (exec_keys _ _ _ _ _ XR) as ((_ & _ & EI & _ & ES & _ & ER & _) & _). rewrite EI, ER. exact RN.
Qed.
End WithCrypto.
