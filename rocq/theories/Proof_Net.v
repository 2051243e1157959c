(** Proofs for C54 and C63: messages between two contexts, some of them lost. *)
From Verif Require Import Base Proof_Base Model_Common Model_Crypto Model_OscorePrims Proof_OscorePrims
  Model_Coap Spec_Coap Proof_Coap Model_Interactions Model_Replay Spec_Replay Proof_Replay Model_Context Spec_Options
  Model_Send Model_Recv Model_Run Spec_Interactions Proof_Interactions Proof_Send Proof_Recv Proof_Run Proof_Session Proof_Nonce Proof_Wire
  Spec_RoundTrip Proof_RoundTrip Spec_UriPath Spec_Protect Proof_Protect Spec_EdhocRun Spec_Traffic Model_Net.

(** The sender side of [c] and the recipient side of [d], between two messages. *)
Record linked (c d : ctx) : Prop := {
  lk_usable : usable c; lk_keyed : keyed c; lk_hears : hears c d;
  lk_echo : c_echo c = ECHO_SYNCHRONIZED; lk_fresh : c_fresh c = true;
  lk_win : exists H, Inv H (c_win d) /\ Forall (fun n => n < c_ssn c) H;
  lk_sid : lenN (c_sid c) <= 4; lk_ctx : c_id_context c = [];
  lk_notif : c_notif_init d = true -> c_notif d < c_ssn c }.

Lemma piv_len_3 n : piv_len n <= 3.
Proof. unfold piv_len. destruct (n <? 256); [lia|]. destruct (n <? 65536); lia. Qed.

Lemma olen_8 c : lenN (c_sid c) <= 4 -> c_id_context c = [] -> request_olen c <= 8.
Proof.
  intros L E. unfold request_olen, oscore_value_len. rewrite E. change (lenN (@nil N) =? 0) with true. cbv iota.
  pose proof (piv_len_3 (c_ssn c)). lia.
Qed.

Lemma fits_le m a b cap : a <= b -> fits m b cap -> fits m a cap.
Proof. unfold fits. intros. lia. Qed.

Lemma window_next H w n : Inv H w -> Forall (fun x => x < n) H -> rw_valid n w = true.
Proof.
  intros HI HF. rewrite (valid_matches_spec _ _ n HI). unfold spec_accepts. apply andb_true_iff. split.
  - apply negb_true_iff. apply existsb_eqb_notIn. intros I. apply (proj1 (Forall_forall _ _) HF) in I. lia.
  - apply Nat.ltb_lt. unfold larger_accepted.
    assert (E : filter (fun x => n <? x) H = []).
    { clear HI. induction HF as [|x l Hx _ IH]; [reflexivity|]. cbn [filter]. destruct (N.ltb_spec n x); [lia|exact IH]. }
    rewrite E. apply Nat.lt_0_succ.
Qed.

Lemma window_step H w n b : Inv H w -> Forall (fun x => x < n) H -> b <= n ->
  exists H', Inv H' (snd (rw_update b w)) /\ Forall (fun x => x < n + 1) H'.
Proof.
  intros HI HF Hb.
  assert (HF' : Forall (fun x => x < n + 1) H) by (eapply Forall_impl; [|exact HF]; cbn; intros; lia).
  destruct (rw_valid b w) eqn:V.
  - exists (b :: H). split; [apply update_inv; assumption|]. constructor; [lia|exact HF'].
  - rewrite update_rejected by assumption. exists H. auto.
Qed.

Lemma received_plain m : notifies m = false -> received m = m.
Proof.
  intros H. destruct m as [a b c d e l p]. unfold received, notifies in *. cbn [m_ver m_type m_code m_mid m_token m_opts m_payload] in *.
  f_equal. rewrite <- (map_id l) at 2. apply map_ext_in. intros q I. unfold inner_value.
  assert (X : (fst q =? 6) = false).
  { destruct (fst q =? 6) eqn:E; [|reflexivity]. assert (Y : existsb (fun p => fst p =? 6) l = true) by (apply existsb_exists; eauto). congruence. }
  rewrite X. destruct q; reflexivity.
Qed.

Section Exchange.
Variable cr : crypto.
Hypothesis OK : crypto_ok cr.
Hypothesis AT : aead_total cr.

(** State after protecting a message. *)
Lemma sent_state nw c m input buf s b n : rfc_message m input -> supported m input -> is_bytes input -> lenN buf < 2 ^ 32 ->
  coap2oscore cr nw c input buf = (s, b, Ok n) -> m_code m <> 0 ->
  same_keys c (s_ctx s) /\ same_recv c (s_ctx s) /\ (table_ok (c_inter c) -> table_ok (c_inter (s_ctx s))) /\
  (m_code m < 32 -> c_ssn (s_ctx s) = c_ssn c + 1) /\
  (32 <= m_code m -> notifies m = false -> c_echo c = ECHO_SYNCHRONIZED -> c_ssn (s_ctx s) = c_ssn c).
Proof.
  intros HM SUP HB LB HS CZ. destruct (coap_parse_rfc m input HM (proj1 SUP)) as (k & EK & EM & _ & _).
  assert (LI : lenN input < 2 ^ 32).
  { destruct SUP as ((_ & _ & _ & _ & L) & _). change (2 ^ 32) with 4294967296. change (2 ^ 16) with 65536 in L. lia. }
  assert (ECD : h_code (k_hdr k) = m_code m) by (rewrite <- EM; reflexivity).
  destruct (send_result cr nw c input k buf s b n OK HB LI LB EK HS) as [SL [((_ & Z) & _)|(_ & wire & PR & _)]]; [congruence|].
  destruct PR as (e & u & elen & pt & ct & opt & nonce & aad & piv & kid & kctx & rpiv & rkid & out & _ & _ & _ & _ & _ & _ & _ & _ & SE & _).
  assert (X : exec cr c (ASend nw input buf) = (s_ctx s, {| ob_enc := s_enc s; ob_nvm := s_nvm s; ob_buf := b; ob_res := Ok n |}))
    by (unfold exec; rewrite HS; reflexivity).
  pose proof X as X'. apply exec_send in X' as (s' & r & C & ES & _). apply core_effect in C as (A & B & _ & T). rewrite <- ES in A, B, T.
  split; [exact A|]. split; [exact B|]. split; [exact T|].
  destruct (send_nonce cr nw c input buf _ _ nonce aad pt X SE) as [(NP & E & _)|(PL & E & _)].
  - split; [intros _; exact E|]. intros G NN EC. exfalso. apply NP. apply (plain_spec c input k EK).
    assert (RQ : is_request k = false) by (rewrite is_request_code, ECD; apply N.ltb_ge; lia).
    unfold uses_new_piv, needs_new_piv. rewrite type_by_observe by exact RQ. rewrite is_observe_nv.
    change (map nv (k_opts k)) with (m_opts (msg_of k)). rewrite EM. unfold notifies in NN. rewrite NN, EC. reflexivity.
  - split; [|intros _ _ _; exact E]. intros G. exfalso. apply (plain_spec c input k EK) in PL.
    assert (RQ : is_request k = true) by (rewrite is_request_code, ECD; apply N.ltb_lt; lia).
    unfold uses_new_piv, needs_new_piv in PL. destruct (type_request k RQ) as [T'|[T'|T']]; rewrite T' in PL; discriminate.
Qed.

Lemma received_state c input buf c' b n : oscore2coap cr c input buf = (c', b, Ok n) ->
  same_keys c c' /\ c_ssn c' = c_ssn c /\ (table_ok (c_inter c) -> table_ok (c_inter c')).
Proof.
  intros H. assert (X : exec cr c (ARecv input buf) = (c', {| ob_enc := None; ob_nvm := None; ob_buf := b; ob_res := Ok n |}))
    by (unfold exec; rewrite H; reflexivity).
  apply exec_recv in X as (_ & _ & r & C & _). apply recv_core_effect in C as ((A & B & _) & T). auto.
Qed.

Lemma keyed_same c c' : same_keys c c' -> keyed c -> keyed c'.
Proof. intros (A & B & C & D & E & F & G & H) (K1 & K2 & K3). unfold keyed. rewrite A, C, F. auto. Qed.
Lemma usable_same c c' : same_keys c c' -> (table_ok (c_inter c) -> table_ok (c_inter c')) -> usable c -> usable c'.
Proof. intros (A & B & C & D & E & F & G & H) T (U1 & U2). unfold usable. rewrite B. auto. Qed.
Lemma hears_same c c' d d' : same_keys c c' -> same_keys d d' -> hears c d -> hears c' d'.
Proof. unfold same_keys, hears. intuition congruence. Qed.

Lemma held_token t x y : table_ok t -> held t x -> held t y -> i_token x = i_token y -> x = y.
Proof.
  intros (T1 & T2 & T3) X Y E. apply In_nth_error in X as (i & X). apply In_nth_error in Y as (j & Y).
  assert (i = j) as -> by (eapply T3; [exact X|exact Y|left; exact E]). congruence.
Qed.


(** A request is protected; if it arrives, it is delivered. *)
Lemma request_step nw c d m input buf : linked c d -> linked d c ->
  good_message m input 8 (lenN buf) -> 0 < m_code m < 32 -> room (c_inter c) m ->
  c_ssn c < OSCORE_SSN_OVERFLOW_VALUE -> c_ssn d < OSCORE_SSN_OVERFLOW_VALUE ->
  exists s wire n piv, coap2oscore cr nw c input buf = (s, wire, Ok n) /\ lenN piv <= 3 /\
    linked (s_ctx s) d /\ linked d (s_ctx s) /\ same_keys c (s_ctx s) /\ c_ssn (s_ctx s) = c_ssn c + 1 /\
    (forall x, held (c_inter (s_ctx s)) x <-> x = record_for m piv (c_sid c) \/ held (c_inter c) x /\ ~ concerns x m) /\
    forall buf2, room (c_inter d) m -> lenN input <= lenN buf2 < 2 ^ 32 ->
    exists d1, oscore2coap cr d (takeN n wire) buf2 = (d1, written input buf2, Ok (lenN input)) /\
      linked (s_ctx s) d1 /\ linked d1 (s_ctx s) /\ same_keys d d1 /\ c_ssn d1 = c_ssn d /\
      (forall x, held (c_inter d1) x <-> x = record_for m piv (c_sid c) \/ held (c_inter d) x /\ ~ concerns x m) /\
      c_nonce d1 = c_nonce (s_ctx s) /\ lenN (c_nonce d1) = 13.
Proof.
  intros [UC KC HC EC FC (Hc & WC & LC) SC XC NC] [UD KD HD ED FD (Hd & WD & LD) SD XD ND] (HM & SUP & HB & GR & FI & L1) CO RC SSC SSD.
  assert (LB : lenN buf < 2 ^ 32) by (change (2 ^ 32) with 4294967296; change (2 ^ 16) with 65536 in L1; lia).
  assert (MR : may_request nw c m).
  { split; [|split; [|split]].
    - split; [lia|]. split; [left; exact FC|]. pose proof (olen_8 c SC XC) as O8. unfold request_olen in O8. lia.
    - unfold echo_ready, verifying. rewrite EC. discriminate.
    - pose proof (piv_len_3 (c_ssn c)). lia.
    - exact RC. }
  destruct (request_total cr OK AT nw c m input buf UC KC HM SUP HB CO MR (fits_le _ _ _ _ (olen_8 c SC XC) FI) LB) as (_ & RT).
  destruct (RT GR) as (s & wire & n & HS).
  destruct (sent_state _ c m _ _ s wire n HM SUP HB LB HS ltac:(lia)) as (KS & RS & TS & NS & _). specialize (NS ltac:(lia)).
  pose proof RS as (S1 & S2 & S3 & S4).
  pose proof (usable_same _ _ KS TS UC) as UC1. pose proof (keyed_same _ _ KS KC) as KC1.
  pose proof KS as (k1 & k2 & k3 & k4 & k5 & k6 & k7 & k8).
  assert (SENT : exists piv, lenN piv <= 3 /\ ssn2piv (c_ssn c) = Ok piv /\
    (forall x, held (c_inter (s_ctx s)) x <-> x = record_for m piv (c_sid c) \/ held (c_inter c) x /\ ~ concerns x m) /\
    lenN (c_nonce (s_ctx s)) = 13).
  { destruct (coap_parse_rfc m _ HM (proj1 SUP)) as (k & EK & EM & _ & _).
    assert (LI : lenN input < 2 ^ 32).
    { destruct SUP as ((_ & _ & _ & _ & L) & _). change (2 ^ 32) with 4294967296. change (2 ^ 16) with 65536 in L. lia. }
    assert (ECD : h_code (k_hdr k) = m_code m) by (rewrite <- EM; reflexivity).
    destruct (send_full cr nw c _ k _ s wire n OK HB LI LB EK ltac:(lia) HS) as
      (e & u & elen & pt & ct & opt & nonce & aad & piv & kid & kctx & rpiv & rkid & uri & out & _ & _ & _ & WI & NN & _ & RW & _ & _ & _ & UR & UW & CN & _).
    assert (RQ : is_request k = true) by (rewrite is_request_code, ECD; apply N.ltb_lt; lia).
    assert (NEW : uses_new_piv c k = true).
    { unfold uses_new_piv, needs_new_piv. destruct (type_request k RQ) as [-> | [-> | ->]]; reflexivity. }
    unfold wire_ids in WI. rewrite NEW in WI, NN. destruct WI as (PV & -> & ->).
    assert (RR : rpiv = piv /\ rkid = c_sid c).
    { destruct (type_request k RQ) as [T | [T | T]]; rewrite T in RW; cbn [read_wrapper] in RW; injection RW as <- <-; auto. }
    destruct RR as [-> ->]. exists piv. split; [|split; [exact PV|split]].
    - destruct (piv_len_spec (c_ssn c) _ ltac:(lia) PV) as [-> _]. apply piv_len_3.
    - destruct (update_request k m (c_inter c) uri piv (c_sid c) (proj1 UC) EM RQ (uri_of_message k m uri EM UR)) as [G _]. apply (G _ UW).
    - rewrite CN. eapply create_nonce_len; [|exact NN]. apply KC. }
  destruct SENT as (piv & P3 & PV & HX & N13).
  exists s, wire, n, piv. split; [exact HS|]. split; [exact P3|].
  assert (LS : linked (s_ctx s) d).
  { constructor; try assumption; try congruence.
    - apply (hears_same _ _ _ _ KS (same_keys_refl d) HC).
    - exists Hc. split; [exact WC|]. rewrite NS. eapply Forall_impl; [|exact LC]. cbn; intros; lia.
    - intros I. specialize (NC I). lia. }
  assert (LS' : linked d (s_ctx s)).
  { constructor; try assumption.
    - apply (hears_same _ _ _ _ (same_keys_refl d) KS HD).
    - exists Hd. rewrite S1. auto.
    - rewrite S2, S3. exact ND. }
  split; [exact LS|]. split; [exact LS'|]. split; [exact KS|]. split; [exact NS|]. split; [exact HX|]. intros buf2 RD (L2 & L3).
  destruct (request_round_trip_state cr nw c d s m input buf wire n buf2 OK UC UD HC HM SUP HB CO L1 L3 L2 HS SSD ED
    (window_next _ _ _ WC LC) RD) as (d1 & E & NE & piv' & PV' & _ & TD & (b & Lb & EW) & EE & NI & NV).
  assert (piv' = piv) as -> by congruence.
  destruct (received_state _ _ _ _ _ _ E) as (KR & NR & TR).
  pose proof KR as (j1 & j2 & j3 & j4 & j5 & j6 & j7 & j8).
  exists d1. split; [exact E|]. split; [|split; [|split; [exact KR|split; [exact NR|split; [exact TD|split; [exact NE|rewrite NE; exact N13]]]]]].
  - constructor; try assumption; try congruence.
    + apply (hears_same _ _ _ _ KS KR HC).
    + destruct (window_step _ _ _ b WC LC Lb) as (H' & I' & F'). exists H'. rewrite EW, NS. auto.
    + rewrite NI, NV, NS. intros I. specialize (NC I). lia.
  - constructor; try congruence.
    + apply (usable_same _ _ KR TR UD).
    + apply (keyed_same _ _ KR KD).
    + apply (hears_same _ _ _ _ KR KS HD).
    + exists Hd. rewrite S1, NR. auto.
    + rewrite S2, S3, NR. exact ND.
Qed.

(** The same for a response or notification of [d] to a request that it knows. *)
Lemma response_step nw c d m input buf y : linked c d -> linked d c ->
  good_message m input (if notifies m then 8 else 0) (lenN buf) -> 32 <= m_code m ->
  held (c_inter d) y -> i_token y = m_token m -> lenN (i_kid y) + lenN (i_piv y) <= 7 ->
  (notifies m = false -> lenN (c_nonce d) = 13) ->
  c_ssn c < OSCORE_SSN_OVERFLOW_VALUE -> c_ssn d < OSCORE_SSN_OVERFLOW_VALUE ->
  let gone x := notifies m = false /\ i_token x = m_token m in
  exists s wire n, coap2oscore cr nw d input buf = (s, wire, Ok n) /\
    linked (s_ctx s) c /\ linked c (s_ctx s) /\ same_keys d (s_ctx s) /\
    c_ssn (s_ctx s) = c_ssn d + (if notifies m then 1 else 0) /\
    (forall x, held (c_inter (s_ctx s)) x <-> held (c_inter d) x /\ ~ gone x) /\
    forall buf2, (forall o, rfc_message (received m) o -> lenN o <= lenN buf2) -> lenN buf2 < 2 ^ 32 ->
    (exists x, held (c_inter c) x /\ i_token x = m_token m /\ i_piv x = i_piv y /\ i_kid x = i_kid y) ->
    (notifies m = false -> c_nonce c = c_nonce d) ->
    exists c1 o, rfc_message (received m) o /\ oscore2coap cr c (takeN n wire) buf2 = (c1, written o buf2, Ok (lenN o)) /\
      linked c1 (s_ctx s) /\ linked (s_ctx s) c1 /\ same_keys c c1 /\ c_ssn c1 = c_ssn c /\
      (forall x, held (c_inter c1) x <-> held (c_inter c) x /\ ~ gone x).
Proof.
  intros [UC KC HC EC FC (Hc & WC & LC) SC XC NC] [UD KD HD ED FD (Hd & WD & LD) SD XD ND] (HM & SUP & HB & GR & FI & L1) CO
    HY TY LY N13 SSC SSD gone.
  assert (LB : lenN buf < 2 ^ 32) by (change (2 ^ 32) with 4294967296; change (2 ^ 16) with 65536 in L1; lia).
  assert (TN : takes_number d m = notifies m) by (unfold takes_number, verifying; rewrite ED; apply orb_false_r).
  destruct (response_total cr OK AT nw d m input buf UD KD HM SUP HB CO) as (_ & RT).
  { split; [exact SSD|]. split; [unfold echo_ready, verifying; rewrite ED; discriminate|]. split; [|exists y; auto].
    rewrite TN. destruct (notifies m); [|auto]. split; [|lia]. split; [exact SSD|]. split; [left; exact FD|].
    pose proof (olen_8 d SD XD) as O8. unfold request_olen in O8. lia. }
  { unfold response_olen. rewrite TN. destruct (notifies m); [|exact FI]. apply (fits_le _ _ _ _ (olen_8 d SD XD) FI). }
  { exact LB. }
  destruct (RT GR) as (s & wire & n & HS).
  destruct (sent_state _ d m _ _ s wire n HM SUP HB LB HS ltac:(lia)) as (KS & RS & TS & _ & NSP).
  destruct (coap_parse_rfc m _ HM (proj1 SUP)) as (k & EK & EM & _ & _).
  assert (LI : lenN input < 2 ^ 32).
  { destruct SUP as ((_ & _ & _ & _ & L) & _). change (2 ^ 32) with 4294967296. change (2 ^ 16) with 65536 in L. lia. }
  assert (ECD : h_code (k_hdr k) = m_code m) by (rewrite <- EM; reflexivity).
  assert (RQ : is_request k = false) by (rewrite is_request_code, ECD; apply N.ltb_ge; lia).
  assert (TYK : coap_get_message_type k = if notifies m then MNOTIFICATION else MRESPONSE).
  { rewrite type_by_observe by exact RQ. rewrite is_observe_nv. change (map nv (k_opts k)) with (m_opts (msg_of k)). rewrite EM. reflexivity. }
  assert (TK : k_token k = m_token m) by (rewrite <- EM; reflexivity).
  assert (NS : c_ssn (s_ctx s) = c_ssn d + (if notifies m then 1 else 0)).
  { destruct (notifies m) eqn:EN; [|rewrite NSP by (auto; lia); lia].
    destruct (send_result cr nw d input k buf s wire n OK HB LI LB EK HS) as [_ [((_ & Z) & _)|(_ & w' & PR & _)]]; [lia|].
    destruct PR as (e & u & elen & pt & ct & opt & nonce & aad & piv & kid & kctx & rpiv & rkid & out & _ & _ & _ & _ & _ & _ & _ & _ & SE & _).
    assert (X : exec cr d (ASend nw input buf) = (s_ctx s, {| ob_enc := s_enc s; ob_nvm := s_nvm s; ob_buf := wire; ob_res := Ok n |}))
      by (unfold exec; rewrite HS; reflexivity).
    destruct (send_nonce cr nw d input buf _ _ nonce aad pt X SE) as [(_ & E & _)|(PL & _)]; [exact E|].
    exfalso. apply (plain_spec d input k EK) in PL. unfold uses_new_piv, needs_new_piv in PL. rewrite TYK in PL. discriminate. }
  assert (HX : forall x, held (c_inter (s_ctx s)) x <-> held (c_inter d) x /\ ~ gone x).
  { destruct (send_full cr nw d _ k _ s wire n OK HB LI LB EK ltac:(lia) HS) as
      (e & u & elen & pt & ct & opt & nonce & aad & piv & kid & kctx & rpiv & rkid & uri & out & _ & _ & _ & _ & _ & _ & _ & _ & _ & _ & _ & UW & _).
    unfold gone. rewrite TYK in UW. destruct (notifies m); cbn [update_wrapper] in UW; intros x.
    - injection UW as UW. rewrite <- UW. split; [intros H; split; [exact H|intros [G _]; discriminate]|tauto].
    - apply remove_record_held in UW as (_ & _ & G); [|apply UD]. rewrite <- TK, (G x).
      split; (intros [A B]; split; [exact A|]); [intros [_ E]; contradiction|]. intros E. apply B. auto. }
  pose proof RS as (S1 & S2 & S3 & S4). pose proof KS as (k1 & k2 & k3 & k4 & k5 & k6 & k7 & k8).
  assert (LE : c_ssn d <= c_ssn (s_ctx s)) by (rewrite NS; destruct (notifies m); lia).
  assert (LS : linked (s_ctx s) c).
  { constructor; try congruence.
    - apply (usable_same _ _ KS TS UD).
    - apply (keyed_same _ _ KS KD).
    - apply (hears_same _ _ _ _ KS (same_keys_refl c) HD).
    - exists Hd. split; [exact WD|]. eapply Forall_impl; [|exact LD]. cbn; intros; lia.
    - intros I. specialize (ND I). lia. }
  assert (LS' : linked c (s_ctx s)).
  { constructor; try assumption.
    - apply (hears_same _ _ _ _ (same_keys_refl c) KS HC).
    - exists Hc. rewrite S1. auto.
    - rewrite S2, S3. exact NC. }
  exists s, wire, n. split; [exact HS|]. split; [exact LS|]. split; [exact LS'|]. split; [exact KS|]. split; [exact NS|]. split; [exact HX|].
  intros buf2 L2 L3 (xc & X1 & X2 & X3 & X4) NE.
  destruct (response_round_trip_state cr nw d c s m input buf wire n buf2 OK UD UC HD HM SUP HB CO L1 L3 HS) as (o & RO & F).
  { exact SSC. }
  { intros z Z1 Z2. exists xc. split; [exact X1|]. split; [exact X2|].
    rewrite (held_token _ z y (proj1 UD) Z1 HY) by congruence. split; congruence. }
  { intros PL. symmetry. apply NE. destruct (notifies m) eqn:EN; [|reflexivity]. exfalso.
    apply (plain_spec d input k EK) in PL. unfold uses_new_piv, needs_new_piv in PL. rewrite TYK in PL. discriminate. }
  { intros _ I. exact (ND I). }
  destruct (F (L2 o RO)) as (c1 & E & CW & CE & (T1 & _) & NT). fold (notifies m) in NT, T1.
  destruct (received_state _ _ _ _ _ _ E) as (KR & NR & TR).
  pose proof KR as (j1 & j2 & j3 & j4 & j5 & j6 & j7 & j8).
  exists c1, o. split; [exact RO|]. split; [exact E|]. split; [|split; [|split; [exact KR|split; [exact NR|exact T1]]]].
  - constructor; try congruence.
    + apply (usable_same _ _ KR TR UC).
    + apply (keyed_same _ _ KR KC).
    + apply (hears_same _ _ _ _ KR KS HC).
    + exists Hc. rewrite S1, NR. auto.
    + rewrite S2, S3, NR. exact NC.
  - constructor; try congruence.
    + apply (usable_same _ _ KS TS UD).
    + apply (keyed_same _ _ KS KD).
    + apply (hears_same _ _ _ _ KS KR HD).
    + exists Hd. rewrite CW. split; [exact WD|]. eapply Forall_impl; [|exact LD]. cbn; intros; lia.
    + rewrite NS. destruct (notifies m); destruct NT as [N1 N2]; rewrite N1, N2.
      * intros _. lia.
      * intros I. specialize (ND I). lia.
Qed.
End Exchange.
