(** Proofs for C66: messages between two devices that restart. *)
From Verif Require Import Base Proof_Base Model_Common Model_Crypto Model_OscorePrims Proof_OscorePrims
  Model_Coap Spec_Coap Proof_Coap Model_Interactions Model_Replay Spec_Replay Proof_Replay Model_Context Spec_Options Proof_Options
  Model_Send Model_Recv Model_Run Spec_Interactions Proof_Interactions Proof_Send Proof_Recv Proof_Run Proof_Session Proof_Nonce Proof_Wire
  Spec_RoundTrip Proof_RoundTrip Spec_UriPath Spec_Protect Proof_Protect Spec_EdhocRun Spec_Traffic Proof_Nvm Proof_Echo
  Model_Net Proof_Net Spec_Safe Proof_Safe Spec_Net Proof_Loss Model_Reboot Spec_Reboot.

(** The sender side of [c] and the recipient side of [d], between two messages. *)
Record tied (c d : ctx) : Prop := {
  td_usable : usable c; td_keyed : keyed c; td_hears : hears c d;
  td_win : c_echo d = ECHO_SYNCHRONIZED -> exists H, Inv H (c_win d) /\ Forall (fun n => n < c_ssn c) H;
  td_sid : lenN (c_sid c) <= 4; td_ctx : c_id_context c = [];
  td_notif : c_notif_init d = true -> c_notif d < c_ssn c }.

Lemma tied_sender c c' d : same_keys c c' -> (table_ok (c_inter c) -> table_ok (c_inter c')) -> c_ssn c <= c_ssn c' -> tied c d -> tied c' d.
Proof.
  intros KS T L [U K H W S X NO]. pose proof KS as (k1 & k2 & k3 & k4 & k5 & k6 & k7 & k8). constructor; try congruence.
  - apply (usable_same _ _ KS T U).
  - apply (keyed_same _ _ KS K).
  - apply (hears_same _ _ _ _ KS (same_keys_refl d) H).
  - intros E. destruct (W E) as (h & I & F). exists h. split; [exact I|]. eapply Forall_impl; [|exact F]. cbn; intros; lia.
  - intros I. specialize (NO I). lia.
Qed.
Lemma tied_receiver c d d' : same_keys d d' ->
  (c_echo d' = ECHO_SYNCHRONIZED -> exists H, Inv H (c_win d') /\ Forall (fun n => n < c_ssn c) H) ->
  (c_notif_init d' = true -> c_notif d' < c_ssn c) -> tied c d -> tied c d'.
Proof.
  intros KS W' N' [U K H W S X NO]. constructor; try assumption. apply (hears_same _ _ _ _ (same_keys_refl c) KS H).
Qed.
Lemma tied_same c d d' : same_keys d d' -> same_recv d d' -> tied c d -> tied c d'.
Proof.
  intros KS (S1 & S2 & S3 & S4) T. apply (tied_receiver c d d' KS); [| |exact T].
  - rewrite S1, S4. apply T.
  - rewrite S2, S3. apply T.
Qed.

Lemma cache_found buf blen b m opts b' n : map nv opts = map (inner_value b) (inside_opts m) ->
  cache_echo_val buf blen opts = Ok (b', n) ->
  lenN b' = lenN buf /\ exists v, echo_of m = Some v /\ takeN n b' = v /\ n = lenN v.
Proof.
  intros E H. pose proof (echo_inside b m opts E) as F. pose proof (cache_echo_spec _ _ _ _ _ H) as (L & _). split; [exact L|].
  unfold cache_echo_val in H. destruct (find _ opts) as [o|]; [|discriminate]. cbn [option_map] in F. exists (o_val o). split; [auto|].
  apply bind_ok in H as (d & EM & H). destruct d as [d|]; [|discriminate]. injection H as <- <-. split; [|reflexivity].
  unfold memcpy_s in EM. destruct (N.eqb_spec (lenN (o_val o)) 0) as [Z|Z].
  - injection EM as <-. destruct (o_val o) as [|x l]; [reflexivity|]. rewrite lenN_cons in Z. lia.
  - apply bind_ok in EM as ([] & _ & EM).
    destruct (N.ltb_spec (lenN (o_val o)) (lenN (o_val o))); [lia|].
    destruct (N.ltb_spec (lenN buf) (lenN (o_val o))) as [?|L']; [discriminate|].
    injection EM as <-. rewrite (takeN_all (o_val o)) by lia. apply takeN_app.
Qed.

Section Reboot.
Variable cr : crypto.
Hypothesis OK : crypto_ok cr.
Hypothesis AT : aead_total cr.

(** Everything about a message that has been protected. *)
Lemma sent_facts nw c m input buf s b n : rfc_message m input -> supported m input -> is_bytes input -> lenN buf < 2 ^ 32 ->
  coap2oscore cr nw c input buf = (s, b, Ok n) -> 0 < m_code m -> c_ssn c < OSCORE_SSN_OVERFLOW_VALUE ->
  let c' := s_ctx s in
  let new := (m_code m <? 32) || takes_number c m in
  same_keys c c' /\ same_recv c c' /\ (table_ok (c_inter c) -> table_ok (c_inter c')) /\
  c_ssn c' = c_ssn c + (if new then 1 else 0) /\ lenN (c_echo_buf c') = lenN (c_echo_buf c) /\
  (if verifying c then exists v, echo_of m = Some v /\ expected c' = v /\ c_echo_len c' = lenN v
   else c_echo_buf c' = c_echo_buf c /\ c_echo_len c' = c_echo_len c) /\
  (c_fresh c = false -> s_nvm s = if new then ssn_store_in_nvm (c_ssn c + 1) (syncing c) else None).
Proof.
  intros HM SUP HB LB HS CZ SO. destruct (sent_state cr OK nw c m input buf s b n HM SUP HB LB HS ltac:(lia)) as (KS & RS & TS & _).
  destruct (coap_parse_rfc m input HM (proj1 SUP)) as (k & EK & EM & _ & _).
  assert (LI : lenN input < 2 ^ 32).
  { destruct SUP as ((_ & _ & _ & _ & L) & _). change (2 ^ 32) with 4294967296. change (2 ^ 16) with 65536 in L. lia. }
  assert (ECD : h_code (k_hdr k) = m_code m) by (rewrite <- EM; reflexivity).
  assert (NEW : uses_new_piv c k = (m_code m <? 32) || takes_number c m).
  { destruct (N.ltb_spec (m_code m) 32) as [L|L].
    - assert (RQ : is_request k = true) by (rewrite is_request_code, ECD; apply N.ltb_lt; lia).
      unfold uses_new_piv, needs_new_piv. destruct (type_request k RQ) as [-> | [-> | ->]]; reflexivity.
    - assert (RQ : is_request k = false) by (rewrite is_request_code, ECD; apply N.ltb_ge; lia).
      unfold uses_new_piv, needs_new_piv. rewrite type_by_observe by exact RQ. rewrite is_observe_nv.
      change (map nv (k_opts k)) with (m_opts (msg_of k)). rewrite EM. unfold takes_number, verifying. cbn [orb]. fold (notifies m).
      destruct (notifies m); [reflexivity|]. destruct (c_echo c); reflexivity. }
  assert (SSN : c_ssn (s_ctx s) = c_ssn c + (if (m_code m <? 32) || takes_number c m then 1 else 0)).
  { destruct (send_result cr nw c input k buf s b n OK HB LI LB EK HS) as [_ [((_ & Z) & _)|(_ & w' & PR & _)]]; [lia|].
    destruct PR as (e & u & elen & pt & ct & opt & nonce & aad & piv & kid & kctx & rpiv & rkid & out & _ & _ & _ & _ & _ & _ & _ & _ & SE & _).
    assert (X : exec cr c (ASend nw input buf) = (s_ctx s, {| ob_enc := s_enc s; ob_nvm := s_nvm s; ob_buf := b; ob_res := Ok n |}))
      by (unfold exec; rewrite HS; reflexivity).
    rewrite <- NEW. pose proof (plain_spec c input k EK) as PS.
    destruct (send_nonce cr nw c input buf _ _ nonce aad pt X SE) as [(NP & E & _)|(PL & E & _)].
    - destruct (uses_new_piv c k); [exact E|]. exfalso. apply NP. apply PS. reflexivity.
    - apply PS in PL. rewrite PL. lia. }
  assert (CORE : exists out, coap2oscore_core cr nw c input = (s, Ok (inl out))).
  { unfold coap2oscore in HS. destruct (coap2oscore_core cr nw c input) as [s1 r1] eqn:EC. destruct r1 as [[out|w]|er|ur]; try discriminate.
    - destruct (coap_serialize out (lenN buf)) as [w [x|er|ur]]; try discriminate. injection HS as -> _ _. eauto.
    - apply core_inr in EC as (_ & _ & k' & EK' & _ & Z). assert (k' = k) by congruence. subst k'. lia. }
  destruct CORE as (out & CORE). pose proof CORE as CI.
  apply core_inl in CI as (k' & e & u & elen & pt & s1 & ct & opt & _ & EK' & _ & ES & _ & EG & EW & _ & _).
  assert (k' = k) as -> by congruence.
  assert (EI : map nv e = map (inner_value (is_request k)) (inside_opts m)).
  { pose proof ES as ES'. unfold inner_outer_option_split in ES'. destruct (_ <? _) in ES'; [discriminate|]. injection ES' as ES'.
    destruct (coap_parse_sound _ _ EK HB LI) as (_ & _ & _ & _ & NC & _).
    destruct (split_loop_spec (is_request k) (k_opts k) 0 0 0 0 e u elen NC eq_refl eq_refl eq_refl ES') as (inner & SI & EI & _).
    change (map nv (k_opts k)) with (m_opts (msg_of k)) in SI. rewrite EM in SI.
    apply (selects_filter _ (fun p => negb (is_class_u (fst p)))) in SI; [|intros x; apply inside_dec]. fold (inside_opts m) in SI. congruence. }
  pose proof EG as EG'. apply echo_stage_spec in EG' as (E1 & E2 & EC).
  apply encrypt_wrapper_effect in EW as (_ & _ & B1 & B2 & _); [|exact E1|exact E2].
  cbv zeta. split; [exact KS|]. split; [exact RS|]. split; [exact TS|]. split; [exact SSN|].
  assert (ECHO : lenN (c_echo_buf (s_ctx s)) = lenN (c_echo_buf c) /\
    (if verifying c then exists v, echo_of m = Some v /\ expected (s_ctx s) = v /\ c_echo_len (s_ctx s) = lenN v
     else c_echo_buf (s_ctx s) = c_echo_buf c /\ c_echo_len (s_ctx s) = c_echo_len c)).
  { rewrite B1. unfold expected. rewrite B1, B2. unfold verifying.
    destruct (c_echo c) eqn:EE; [unfold echo_stage in EG; rewrite EE in EG; injection EG as <-; auto| |unfold echo_stage in EG; rewrite EE in EG; injection EG as <-; auto].
    destruct EC as [EC|(bb & nn & _ & CA & EC)].
    { unfold echo_stage in EG. rewrite EE in EG. apply tryc_ok in EG as ([bb nn] & CA & EG). injection EG as <-. cbn [s_ctx s_set] in *.
      cbn [set_echo_val c_echo_buf c_echo_len]. apply (cache_found _ _ _ _ _ _ _ EI) in CA. exact CA. }
    rewrite EC. cbn [set_echo_val c_echo_buf c_echo_len]. apply (cache_found _ _ _ _ _ _ _ EI) in CA. exact CA. }
  destruct ECHO as [X1 X2]. split; [exact X1|]. split; [exact X2|]. intros F.
  assert (U : u64 (c_ssn c + 1) = c_ssn c + 1).
  { unfold u64. apply N.mod_small. unfold OSCORE_SSN_OVERFLOW_VALUE in SO. lia. }
  destruct (core_nvm cr nw c input s _ F CORE) as [[Y1 Y2]|(Y1 & Y2 & _)]; destruct (_ || _); try lia; rewrite ?U in *; auto; lia.
Qed.

(** *** What a device knows and what it has stored *)
Definition standing (c : ctx) (s : stand) : Prop :=
  lenN (c_echo_buf c) = 12 /\
  match s with
  | Booted => c_echo c = ECHO_REBOOT /\ c_echo_len c = 12
  | Asked w => c_echo c = ECHO_VERIFY /\ expected c = w /\ c_echo_len c = lenN w
  | Synced => c_echo c = ECHO_SYNCHRONIZED
  end.
(** About to send a challenge. *)
Definition awaiting (c : ctx) (n : N) : Prop := lenN (c_echo_buf c) = 12 /\ c_echo c = ECHO_VERIFY /\ c_echo_len c = n /\ n <= 12.
Definition saved (c : ctx) (mem : N) (s : stand) : Prop := c_fresh c = false ->
  mem <= c_ssn c /\ match s with Booted => c_ssn c <= mem + 20 | Asked _ => c_ssn c = mem | Synced => c_ssn c / 10 <= mem / 10 end.
Definition near (c : ctx) (mem : N) : Prop := c_fresh c = false -> mem <= c_ssn c <= mem + 20.

Lemma standing_awaiting c w : standing c (Asked w) -> awaiting c (lenN w).
Proof.
  intros (L & E & X & N). repeat split; try assumption. unfold expected in X. rewrite <- X, lenN_takeN. lia.
Qed.
Lemma saved_near c mem s : saved c mem s -> near c mem.
Proof.
  intros H F. destruct (H F) as [L M]. destruct s; lia.
Qed.
Lemma standing_ready c s m s' : standing c s -> sends s m s' -> echo_ready c m.
Proof.
  intros ST SE. unfold echo_ready, verifying. destruct s as [|w|]; [|destruct SE as (v & E & L & _)|].
  - destruct ST as (_ & E & _). rewrite E. discriminate.
  - apply standing_awaiting in ST as (A & B & C & D). intros _. exists v. rewrite A, C. split; [exact E|]. split; [exact L|lia].
  - destruct ST as (_ & E). rewrite E. discriminate.
Qed.
Lemma awaiting_ready c n m v : awaiting c n -> echo_of m = Some v -> lenN v <= n -> echo_ready c m.
Proof. intros (A & B & C & D) E L _. exists v. rewrite A, C. split; [exact E|]. split; [exact L|lia]. Qed.

Section Sent.
Variables (v : transport) (c : ctx) (mem : N) (m : message) (s : sstate) (b : bytes) (n : N).
Hypothesis HM : rfc_message m (v_msg v).
Hypothesis SUP : supported m (v_msg v).
Hypothesis HB : is_bytes (v_msg v).
Hypothesis LB : lenN (v_buf v) < 2 ^ 32.
Hypothesis NW : forall x, v_nw v x = Ok tt.
Hypothesis HS : coap2oscore cr (v_nw v) c (v_msg v) (v_buf v) = (s, b, Ok n).
Hypothesis CZ : 0 < m_code m.
Hypothesis SO : c_ssn c < OSCORE_SSN_OVERFLOW_VALUE.

Lemma stored_value : c_fresh c = false ->
  stored v mem s = if (m_code m <? 32) || takes_number c m then if ((c_ssn c + 1) mod 10 =? 0) || syncing c then c_ssn c + 1 else mem else mem.
Proof.
  intros F. destruct (sent_facts _ c m _ _ s b n HM SUP HB LB HS CZ SO) as (_ & _ & _ & _ & _ & _ & W). specialize (W F). cbv zeta in W.
  unfold stored. rewrite W. destruct (_ || _); [|reflexivity]. unfold ssn_store_in_nvm, K_SSN_NVM_STORE_INTERVAL.
  destruct (_ || _); [rewrite NW|]; reflexivity.
Qed.

Lemma asked_after k w : awaiting c k -> near c mem -> echo_of m = Some w ->
  standing (s_ctx s) (Asked w) /\ saved (s_ctx s) (stored v mem s) (Asked w).
Proof.
  intros (A & B & C & D) SV EO. destruct (sent_facts _ c m _ _ s b n HM SUP HB LB HS CZ SO) as (KS & (_ & _ & _ & S4) & _ & NS & LE & EV & _).
  assert (VE : verifying c = true) by (unfold verifying; rewrite B; reflexivity). cbv zeta in NS. rewrite VE in EV.
  assert (TN : takes_number c m = true) by (unfold takes_number; rewrite VE; apply orb_true_r). rewrite TN, orb_true_r in NS.
  destruct EV as (w' & EW & EX & EL). assert (w' = w) as -> by congruence. split.
  - split; [congruence|]. split; [congruence|]. auto.
  - intros F. destruct KS as (_ & _ & _ & KF & _). rewrite KF in F. rewrite (stored_value F), TN, orb_true_r.
    unfold syncing. rewrite B, orb_true_r, NS. split; [lia|reflexivity].
Qed.

Lemma standing_after t t' : standing c t -> saved c mem t -> sends t m t' ->
  standing (s_ctx s) t' /\ saved (s_ctx s) (stored v mem s) t'.
Proof.
  intros ST SV SE. destruct t as [|w|].
  - cbn in SE. subst t'. destruct ST as (L & E & N12).
    destruct (sent_facts _ c m _ _ s b n HM SUP HB LB HS CZ SO) as (KS & (_ & _ & _ & S4) & _ & NS & LE & EV & _). cbv zeta in NS.
    assert (VE : verifying c = false) by (unfold verifying; rewrite E; reflexivity). rewrite VE in EV. destruct EV as [EV1 EV2].
    split; [split; [congruence|split; congruence]|]. intros F. destruct KS as (_ & _ & _ & KF & _). rewrite KF in F. specialize (SV F).
    rewrite (stored_value F), NS. unfold syncing. rewrite E, orb_true_r. cbn iota in SV. destruct (_ || _); lia.
  - destruct SE as (x & EO & _ & ->). apply (asked_after (lenN w)); [apply standing_awaiting; exact ST|apply saved_near in SV; exact SV|exact EO].
  - cbn in SE. subst t'. destruct ST as (L & E).
    destruct (sent_facts _ c m _ _ s b n HM SUP HB LB HS CZ SO) as (KS & (_ & _ & _ & S4) & _ & NS & LE & EV & _). cbv zeta in NS.
    split; [split; congruence|]. intros F. destruct KS as (_ & _ & _ & KF & _). rewrite KF in F. specialize (SV F).
    rewrite (stored_value F), NS. unfold syncing. rewrite E, orb_false_r. destruct (_ || _); [|rewrite N.add_0_r; exact SV].
    destruct (N.eqb_spec ((c_ssn c + 1) mod 10) 0) as [Z|Z]; [lia|]. split; [lia|].
    replace ((c_ssn c + 1) / 10) with (c_ssn c / 10); [apply SV|].
    pose proof (N.div_mod' (c_ssn c) 10). pose proof (N.div_mod' (c_ssn c + 1) 10). pose proof (N.mod_lt (c_ssn c) 10 ltac:(lia)). pose proof (N.mod_lt (c_ssn c + 1) 10 ltac:(lia)). lia.
Qed.

Lemma tied_after d : tied c d -> tied d c -> tied (s_ctx s) d /\ tied d (s_ctx s).
Proof.
  intros T1 T2. destruct (sent_facts _ c m _ _ s b n HM SUP HB LB HS CZ SO) as (KS & RS & TS & NS & _). cbv zeta in NS. split.
  - apply (tied_sender c); try assumption. rewrite NS. lia.
  - apply (tied_same d c); assumption.
Qed.
End Sent.

(** *** A request *)
Lemma request_out v c d mem m t t' : tied c d -> tied d c -> standing c t -> saved c mem t -> sends t m t' ->
  good_message m (v_msg v) 8 (lenN (v_buf v)) -> 0 < m_code m < 32 -> (forall x, v_nw v x = Ok tt) -> room (c_inter c) m ->
  c_ssn c < OSCORE_SSN_OVERFLOW_VALUE ->
  exists s wire n piv, coap2oscore cr (v_nw v) c (v_msg v) (v_buf v) = (s, wire, Ok n) /\ lenN piv <= 3 /\ ssn2piv (c_ssn c) = Ok piv /\
    tied (s_ctx s) d /\ tied d (s_ctx s) /\ same_keys c (s_ctx s) /\ c_ssn (s_ctx s) = c_ssn c + 1 /\
    standing (s_ctx s) t' /\ saved (s_ctx s) (stored v mem s) t' /\
    (forall x, held (c_inter (s_ctx s)) x <-> x = record_for m piv (c_sid c) \/ held (c_inter c) x /\ ~ concerns x m) /\
    lenN (c_nonce (s_ctx s)) = 13.
Proof.
  intros TC TD ST SV SE (HM & SUP & HB & GR & FI & L1) CO NW RC SSC. pose proof TC as [UC KC HC _ SC XC _].
  assert (LB : lenN (v_buf v) < 2 ^ 32) by (change (2 ^ 32) with 4294967296; change (2 ^ 16) with 65536 in L1; lia).
  assert (MR : may_request (v_nw v) c m).
  { split; [|split; [|split]].
    - split; [lia|]. split; [right; exact NW|]. pose proof (olen_8 c SC XC) as O8. unfold request_olen in O8. lia.
    - apply (standing_ready c t m t' ST SE).
    - pose proof (piv_len_3 (c_ssn c)). lia.
    - exact RC. }
  destruct (request_total cr OK AT (v_nw v) c m _ _ UC KC HM SUP HB CO MR (fits_le _ _ _ _ (olen_8 c SC XC) FI) LB) as (_ & RT).
  destruct (RT GR) as (s & wire & n & HS).
  destruct (sent_facts _ c m _ _ s wire n HM SUP HB LB HS ltac:(lia) SSC) as (KS & RS & TS & NS & _). cbv zeta in NS.
  replace (m_code m <? 32) with true in NS by (symmetry; apply N.ltb_lt; lia). cbn [orb] in NS.
  destruct (standing_after v c mem m s wire n HM SUP HB LB NW HS ltac:(lia) SSC t t' ST SV SE) as [ST' SV'].
  destruct (tied_after v c m s wire n HM SUP HB LB NW HS ltac:(lia) SSC d TC TD) as [TC' TD'].
  assert (SENT : exists piv, lenN piv <= 3 /\ ssn2piv (c_ssn c) = Ok piv /\
    (forall x, held (c_inter (s_ctx s)) x <-> x = record_for m piv (c_sid c) \/ held (c_inter c) x /\ ~ concerns x m) /\
    lenN (c_nonce (s_ctx s)) = 13).
  { destruct (coap_parse_rfc m _ HM (proj1 SUP)) as (k & EK & EM & _ & _).
    assert (LI : lenN (v_msg v) < 2 ^ 32).
    { destruct SUP as ((_ & _ & _ & _ & L) & _). change (2 ^ 32) with 4294967296. change (2 ^ 16) with 65536 in L. lia. }
    assert (ECD : h_code (k_hdr k) = m_code m) by (rewrite <- EM; reflexivity).
    destruct (send_full cr (v_nw v) c _ k _ s wire n OK HB LI LB EK ltac:(lia) HS) as
      (e & u & elen & pt & ct & opt & nonce & aad & piv & kid & kctx & rpiv & rkid & uri & out & _ & _ & _ & WI & NN & _ & RW & _ & _ & _ & UR & UW & CN & _).
    assert (RQ : is_request k = true) by (rewrite is_request_code, ECD; apply N.ltb_lt; lia).
    assert (NEW : uses_new_piv c k = true).
    { unfold uses_new_piv, needs_new_piv. destruct (type_request k RQ) as [-> | [-> | ->]]; reflexivity. }
    unfold wire_ids in WI. rewrite NEW in WI, NN. destruct WI as (PV & -> & ->).
    assert (RR : rpiv = piv /\ rkid = c_sid c).
    { destruct (type_request k RQ) as [T | [T | T]]; rewrite T in RW; cbn [read_wrapper] in RW; injection RW as <- <-; auto. }
    destruct RR as [-> ->]. exists piv. split; [|split; [exact PV|split]].
    - destruct (piv_len_spec (c_ssn c) _ ltac:(lia) PV) as [-> _]. apply piv_len_3.
    - destruct (update_request k m (c_inter c) uri piv (c_sid c) (proj1 UC) EM RQ (uri_of_message k m uri EM UR)) as [G _]. apply (G _ UW).
    - rewrite CN. eapply create_nonce_len; [|exact NN]. apply KC. }
  destruct SENT as (piv & P3 & PV & HX & N13). exists s, wire, n, piv. auto 15.
Qed.

Lemma trusts_asked w m b pt eo pl : oscore_decrypted_payload_parser pt 10 = Ok (m_code m, eo, pl) ->
  map nv eo = map (inner_value b) (inside_opts m) ->
  if trusts (Asked w) m then echo_val_is_fresh w pt = Ok tt else exists er, echo_val_is_fresh w pt = Err er.
Proof.
  intros EP EO. pose proof (echo_inside b m eo EO) as F. unfold echo_val_is_fresh. rewrite EP. cbn [bind trusts].
  destruct (find _ eo) as [o|]; cbn [option_map] in F; rewrite <- F; [|eauto].
  destruct (beqb (o_val o) w) eqn:B; [|rewrite andb_false_r; eauto].
  apply beqb_eq in B. rewrite B. rewrite N.eqb_refl. reflexivity.
Qed.

Lemma request_in v c d md m t s wire n : tied c d -> tied d c -> standing d t -> saved d md t ->
  good_message m (v_msg v) 8 (lenN (v_buf v)) -> 0 < m_code m < 32 -> lenN (v_msg v) <= lenN (v_out v) < 2 ^ 32 -> room (c_inter d) m ->
  coap2oscore cr (v_nw v) c (v_msg v) (v_buf v) = (s, wire, Ok n) ->
  tied (s_ctx s) d -> tied d (s_ctx s) -> c_ssn (s_ctx s) = c_ssn c + 1 ->
  c_ssn d < OSCORE_SSN_OVERFLOW_VALUE ->
  exists d1 piv, ssn2piv (c_ssn c) = Ok piv /\
    tied (s_ctx s) d1 /\ tied d1 (s_ctx s) /\ same_keys d d1 /\ c_ssn d1 = c_ssn d /\ c_nonce d1 = c_nonce (s_ctx s) /\
    (forall x, held (c_inter d1) x <-> x = record_for m piv (c_sid c) \/ held (c_inter d) x /\ ~ concerns x m) /\
    (if trusts t m then oscore2coap cr d (takeN n wire) (v_out v) = (d1, written (v_msg v) (v_out v), Ok (lenN (v_msg v))) /\
       standing d1 Synced /\ saved d1 md Synced
     else (oscore2coap cr d (takeN n wire) (v_out v) = (d1, v_out v, Err first_request_after_reboot) \/
           oscore2coap cr d (takeN n wire) (v_out v) = (d1, v_out v, Err echo_validation_failed)) /\
       awaiting d1 (echo_room t) /\ near d1 md).
Proof.
  intros TC TD ST SV (HM & SUP & HB & GR & FI & L1) CO (L2 & L3) RD HS TC1 TD1 NS SSD.
  destruct (request_received cr (v_nw v) c d s m _ _ wire n (v_out v) OK (td_usable _ _ TC) (td_usable _ _ TD) (td_hears _ _ TC) HM SUP HB CO L1 L3 L2 HS SSD)
    as (tb & pt & eo & piv & PV & _ & TH & EP & EO & R).
  { intros E. destruct (td_win _ _ TC E) as (H & I & F). exact (window_next _ _ _ I F). }
  { exact RD. }
  cbv zeta in R. set (d1 := set_inter (set_nonce d (c_nonce (s_ctx s))) tb) in *.
  assert (KD : forall e w, same_keys d (set_echo (set_win d1 w) e)) by (intros; unfold d1; repeat split).
  (* the table stays consistent *)
  assert (GEN : forall d2 b r, oscore2coap cr d (takeN n wire) (v_out v) = (d2, b, r) -> is_ub r = false ->
    same_keys d d2 /\ c_ssn d2 = c_ssn d /\ (table_ok (c_inter d) -> table_ok (c_inter d2))).
  { intros d2 b r E _. assert (X : exec cr d (ARecv (takeN n wire) (v_out v)) = (d2, {| ob_enc := None; ob_nvm := None; ob_buf := b; ob_res := r |}))
      by (unfold exec; rewrite E; reflexivity).
    apply exec_recv in X as (_ & _ & rr & C & _). apply recv_core_effect in C as ((A & B & _) & T). auto. }
  assert (TIES : forall d2, same_keys d d2 -> c_ssn d2 = c_ssn d -> (table_ok (c_inter d) -> table_ok (c_inter d2)) ->
     (c_echo d2 = ECHO_SYNCHRONIZED -> exists H, Inv H (c_win d2) /\ Forall (fun x => x < c_ssn (s_ctx s)) H) ->
     c_notif d2 = c_notif d -> c_notif_init d2 = c_notif_init d -> tied (s_ctx s) d2 /\ tied d2 (s_ctx s)).
  { intros d2 K N T W N1 N2. split.
    - apply (tied_receiver (s_ctx s) d d2 K W); [|exact TC1]. rewrite N1, N2. apply (td_notif _ _ TC1).
    - apply (tied_sender d d2 (s_ctx s) K T); [lia|exact TD1]. }
  destruct t as [|w|].
  - destruct ST as (LE & EE & E12). rewrite EE in R. destruct (GEN _ _ _ R eq_refl) as (K & N & T).
    destruct (TIES _ K N T) as [T1 T2]; [discriminate|reflexivity|reflexivity|].
    eexists _, piv. split; [exact PV|]. split; [exact T1|]. split; [exact T2|]. split; [exact K|]. split; [exact N|].
    split; [reflexivity|]. split; [exact TH|]. cbn [trusts]. split; [left; exact R|]. split.
    + unfold d1; repeat split; cbn [set_echo set_inter set_nonce c_echo_buf c_echo c_echo_len echo_room]; try assumption; lia.
    + intros F. destruct (SV F) as [M1 M2]. cbn. lia.
  - pose proof (standing_awaiting _ _ ST) as (A1 & A2 & A3 & A4). destruct ST as (LE & EE & EX & EL). rewrite EE in R. destruct R as [R1 R2].
    pose proof (trusts_asked w m (m_code m <? 32) pt eo _ EP EO) as TA.
    unfold expected in EX. rewrite EX in R1, R2. destruct (trusts (Asked w) m).
    + specialize (R1 TA). destruct (GEN _ _ _ R1 eq_refl) as (K & N & T).
      destruct (TIES _ K N T) as [T1 T2]; [|reflexivity|reflexivity|].
      { intros _. exists (upto (c_ssn c)). split; [apply reinit_inv|]. apply Forall_forall. intros x X. apply upto_In in X. lia. }
      eexists _, piv. split; [exact PV|]. split; [exact T1|]. split; [exact T2|]. split; [exact K|]. split; [exact N|].
      split; [reflexivity|]. split; [exact TH|]. split; [exact R1|]. split.
      * split; [exact LE|reflexivity].
      * intros F. destruct (SV F) as [M1 M2]. cbn. rewrite M2. lia.
    + destruct TA as (er & TA). specialize (R2 er TA). destruct (GEN _ _ _ R2 eq_refl) as (K & N & T).
      destruct (TIES _ K N T) as [T1 T2]; [unfold d1; cbn; rewrite EE; discriminate|reflexivity|reflexivity|].
      eexists _, piv. split; [exact PV|]. split; [exact T1|]. split; [exact T2|]. split; [exact K|]. split; [exact N|].
      split; [reflexivity|]. split; [exact TH|]. split; [right; exact R2|]. split.
      * unfold d1; repeat split; cbn [set_inter set_nonce c_echo_buf c_echo c_echo_len echo_room]; assumption.
      * intros F. destruct (SV F) as [M1 M2]. cbn. lia.
  - destruct ST as (LE & EE). rewrite EE in R. destruct R as (b & Lb & R). destruct (GEN _ _ _ R eq_refl) as (K & N & T).
    destruct (TIES _ K N T) as [T1 T2]; [|reflexivity|reflexivity|].
    { intros _. destruct (td_win _ _ TC EE) as (H & I & F). destruct (window_step _ _ _ b I F Lb) as (H' & I' & F'). exists H'. rewrite NS. auto. }
    eexists _, piv. split; [exact PV|]. split; [exact T1|]. split; [exact T2|]. split; [exact K|]. split; [exact N|].
    split; [reflexivity|]. split; [exact TH|]. cbn [trusts]. split; [exact R|]. split.
    + split; [exact LE|exact EE].
    + exact SV.
Qed.

(** *** A response, a challenge or a notification of [d] *)
Lemma answer_out v c d m y : tied c d -> tied d c -> echo_ready d m ->
  good_message m (v_msg v) (if takes_number d m then 8 else 0) (lenN (v_buf v)) -> 32 <= m_code m -> (forall x, v_nw v x = Ok tt) ->
  held (c_inter d) y -> i_token y = m_token m -> lenN (i_kid y) + lenN (i_piv y) <= 7 ->
  (takes_number d m = false -> lenN (c_nonce d) = 13) ->
  c_ssn c < OSCORE_SSN_OVERFLOW_VALUE -> c_ssn d < OSCORE_SSN_OVERFLOW_VALUE ->
  let gone x := notifies m = false /\ i_token x = m_token m in
  exists s wire n, coap2oscore cr (v_nw v) d (v_msg v) (v_buf v) = (s, wire, Ok n) /\
    tied (s_ctx s) c /\ tied c (s_ctx s) /\ same_keys d (s_ctx s) /\ c_ssn (s_ctx s) <= c_ssn d + 1 /\
    (forall x, held (c_inter (s_ctx s)) x <-> held (c_inter d) x /\ ~ gone x) /\
    (space m v ->
     (exists x, held (c_inter c) x /\ i_token x = m_token m /\ i_piv x = i_piv y /\ i_kid x = i_kid y) ->
     (takes_number d m = false -> c_nonce c = c_nonce d) ->
     exists c1 o, rfc_message (received m) o /\ oscore2coap cr c (takeN n wire) (v_out v) = (c1, written o (v_out v), Ok (lenN o)) /\
       tied c1 (s_ctx s) /\ tied (s_ctx s) c1 /\ same_keys c c1 /\ c_ssn c1 = c_ssn c /\
       c_echo c1 = c_echo c /\ c_echo_buf c1 = c_echo_buf c /\ c_echo_len c1 = c_echo_len c /\
       (forall x, held (c_inter c1) x <-> held (c_inter c) x /\ ~ gone x)).
Proof.
  intros TC TD ER (HM & SUP & HB & GR & FI & L1) CO NW HY TY LY N13 SSC SSD gone. pose proof TD as [UD KD HD _ SD XD ND].
  assert (LB : lenN (v_buf v) < 2 ^ 32) by (change (2 ^ 32) with 4294967296; change (2 ^ 16) with 65536 in L1; lia).
  destruct (response_total cr OK AT (v_nw v) d m (v_msg v) (v_buf v) UD KD HM SUP HB CO) as (_ & RT).
  { split; [exact SSD|]. split; [exact ER|]. split; [|exists y; auto].
    destruct (takes_number d m); [|auto]. split; [|lia]. split; [exact SSD|]. split; [right; exact NW|].
    pose proof (olen_8 d SD XD) as O8. unfold request_olen in O8. lia. }
  { unfold response_olen. destruct (takes_number d m); [|exact FI]. apply (fits_le _ _ _ _ (olen_8 d SD XD) FI). }
  { exact LB. }
  destruct (RT GR) as (s & wire & n & HS).
  destruct (sent_facts _ d m _ _ s wire n HM SUP HB LB HS ltac:(lia) SSD) as (KS & RS & TS & NS & _). cbv zeta in NS.
  replace (m_code m <? 32) with false in NS by (symmetry; apply N.ltb_ge; lia). cbn [orb] in NS.
  destruct (tied_after v d m s wire n HM SUP HB LB NW HS ltac:(lia) SSD c TD TC) as [TD' TC'].
  destruct (coap_parse_rfc m _ HM (proj1 SUP)) as (k & EK & EM & _ & _).
  assert (LI : lenN (v_msg v) < 2 ^ 32).
  { destruct SUP as ((_ & _ & _ & _ & L) & _). change (2 ^ 32) with 4294967296. change (2 ^ 16) with 65536 in L. lia. }
  assert (ECD : h_code (k_hdr k) = m_code m) by (rewrite <- EM; reflexivity).
  assert (RQ : is_request k = false) by (rewrite is_request_code, ECD; apply N.ltb_ge; lia).
  assert (TYK : coap_get_message_type k = if notifies m then MNOTIFICATION else MRESPONSE).
  { rewrite type_by_observe by exact RQ. rewrite is_observe_nv. change (map nv (k_opts k)) with (m_opts (msg_of k)). rewrite EM. reflexivity. }
  assert (TK : k_token k = m_token m) by (rewrite <- EM; reflexivity).
  assert (HX : forall x, held (c_inter (s_ctx s)) x <-> held (c_inter d) x /\ ~ gone x).
  { destruct (send_full cr (v_nw v) d _ k _ s wire n OK HB LI LB EK ltac:(lia) HS) as
      (e & u & elen & pt & ct & opt & nonce & aad & piv & kid & kctx & rpiv & rkid & uri & out & _ & _ & _ & _ & _ & _ & _ & _ & _ & _ & _ & UW & _).
    unfold gone. rewrite TYK in UW. destruct (notifies m); cbn [update_wrapper] in UW; intros x.
    - injection UW as UW. rewrite <- UW. split; [intros H; split; [exact H|intros [G _]; discriminate]|tauto].
    - apply remove_record_held in UW as (_ & _ & G); [|apply UD]. rewrite <- TK, (G x).
      split; (intros [A B]; split; [exact A|]); [intros [_ E]; contradiction|]. intros E. apply B. auto. }
  exists s, wire, n. split; [exact HS|]. split; [exact TD'|]. split; [exact TC'|]. split; [exact KS|].
  split; [rewrite NS; destruct (takes_number d m); lia|]. split; [exact HX|].
  intros (SP1 & SP2) (xc & X1 & X2 & X3 & X4) NE.
  destruct (response_round_trip_state cr (v_nw v) d c s m _ _ wire n (v_out v) OK UD (td_usable _ _ TC) HD HM SUP HB CO L1 SP2 HS) as (o & RO & F).
  { exact SSC. }
  { intros z Z1 Z2. exists xc. split; [exact X1|]. split; [exact X2|].
    rewrite (held_token _ z y (proj1 UD) Z1 HY) by congruence. split; congruence. }
  { intros PL. symmetry. apply NE. apply (plain_spec d _ k EK) in PL. unfold uses_new_piv, needs_new_piv in PL. rewrite TYK in PL.
    unfold takes_number, verifying. destruct (notifies m); [discriminate|]. destruct (c_echo d); [reflexivity|discriminate|reflexivity]. }
  { intros _ I. exact (ND I). }
  destruct (F (SP1 o RO)) as (c1 & E & CW & CE & (T1 & _) & NT). fold (notifies m) in NT, T1.
  assert (X : exec cr c (ARecv (takeN n wire) (v_out v)) = (c1, {| ob_enc := None; ob_nvm := None; ob_buf := written o (v_out v); ob_res := Ok (lenN o) |}))
    by (unfold exec; rewrite E; reflexivity).
  apply exec_recv in X as (_ & _ & rr & C & _). apply recv_core_effect in C as ((KR & NR & B1 & B2) & TR).
  exists c1, o. split; [exact RO|]. split; [exact E|]. split; [|split; [|split; [exact KR|split; [exact NR|auto]]]].
  - apply (tied_sender c c1 (s_ctx s) KR TR); [lia|exact TC'].
  - apply (tied_receiver (s_ctx s) c c1 KR); [| |exact TD'].
    + rewrite CE, CW. apply (td_win _ _ TD').
    + assert (TN : notifies m = true -> takes_number d m = true) by (intros N; unfold takes_number; rewrite N; reflexivity).
      destruct (notifies m); destruct NT as [N1 N2]; rewrite N1, N2.
      * intros _. rewrite NS, (TN eq_refl). lia.
      * apply (td_notif _ _ TD').
Qed.

Lemma standing_kept c c' s : c_echo c' = c_echo c -> c_echo_buf c' = c_echo_buf c -> c_echo_len c' = c_echo_len c -> standing c s -> standing c' s.
Proof. unfold standing, expected. intros -> -> ->. auto. Qed.
Lemma saved_kept c c' mem s : same_keys c c' -> c_ssn c' = c_ssn c -> saved c mem s -> saved c' mem s.
Proof. unfold saved. intros (_ & _ & _ & -> & _) ->. auto. Qed.

(** *** Between two occurrences *)
Variable resources : list resource.
Variable owner : bytes -> resource.
Hypothesis FEW : (length resources <= 3)%nat.
Notation tame := (tame resources owner).

(** The device has been initialised with [p], and is in standing [s]. *)
Record home (p : init_params) (c : device) (s : stand) : Prop := {
  ho_init : exists v gn ge gf c0, oscore_context_init cr p (Ok v) gn ge gf = Ok c0 /\ same_keys c0 (dv_ctx c);
  ho_standing : standing (dv_ctx c) s; ho_saved : saved (dv_ctx c) (dv_mem c) s }.

Lemma home_same p c c' s s' : home p c s -> same_keys (dv_ctx c) (dv_ctx c') -> standing (dv_ctx c') s' -> saved (dv_ctx c') (dv_mem c') s' -> home p c' s'.
Proof.
  intros [(v & gn & ge & gf & c0 & I & K) _ _] K' ST SV. constructor; try assumption. exists v, gn, ge, gf, c0. split; [exact I|].
  eapply same_keys_trans; eassumption.
Qed.

Record quiet (live : bytes -> Prop) (p q : init_params) (s t : stand) (c d : device) (n : N) : Prop := {
  qu_cd : tied (dv_ctx c) (dv_ctx d); qu_dc : tied (dv_ctx d) (dv_ctx c);
  qu_c : tame (c_inter (dv_ctx c)); qu_d : tame (c_inter (dv_ctx d));
  qu_live : forall t, live t -> exists x y, held (c_inter (dv_ctx c)) x /\ held (c_inter (dv_ctx d)) y /\ i_token x = t /\ i_token y = t /\
    i_piv x = i_piv y /\ i_kid x = i_kid y /\ lenN (i_kid y) + lenN (i_piv y) <= 7;
  qu_nc : c_ssn (dv_ctx c) <= n; qu_nd : c_ssn (dv_ctx d) <= n;
  qu_hc : home p c s; qu_hd : home q d t }.

Lemma quiet_sym live p q s t c d n : quiet live p q s t c d n -> quiet live q p t s d c n.
Proof.
  intros [A B C D E F G H I]. constructor; try assumption. intros k L. destruct (E k L) as (x & y & X1 & X2 & X3 & X4 & X5 & X6 & X7).
  exists y, x. rewrite X5, X6. auto 10.
Qed.

(** A request is protected. *)
Lemma protect_request live p q s t c d n v m s' :
  quiet live p q s t c d n -> n < OSCORE_SSN_OVERFLOW_VALUE -> request_fits resources owner v m -> sends s m s' ->
  exists st wire k piv, coap2oscore cr (v_nw v) (dv_ctx c) (v_msg v) (v_buf v) = (st, wire, Ok k) /\ lenN piv <= 3 /\
    ssn2piv (c_ssn (dv_ctx c)) = Ok piv /\ lenN (c_nonce (s_ctx st)) = 13 /\ same_keys (dv_ctx c) (s_ctx st) /\
    c_ssn (s_ctx st) = c_ssn (dv_ctx c) + 1 /\
    (forall x, held (c_inter (s_ctx st)) x <-> x = record_for m piv (c_sid (dv_ctx c)) \/ held (c_inter (dv_ctx c)) x /\ ~ concerns x m) /\
    let c1 := {| dv_ctx := s_ctx st; dv_mem := stored v (dv_mem c) st |} in
    protect cr c v = Some (c1, takeN k wire) /\
    quiet (fun t => live t /\ owner t <> resource_of m) p q s' t c1 d (n + 1).
Proof.
  intros [TC TD AC AD LV NC ND HC HD] LN (GM & CO & LQ & IN & OW & NW) SE.
  pose proof (tame_room resources owner FEW _ m (proj1 (td_usable _ _ TC)) AC IN OW) as RC.
  destruct (request_out v (dv_ctx c) (dv_ctx d) (dv_mem c) m s s' TC TD (ho_standing _ _ _ HC) (ho_saved _ _ _ HC) SE GM CO NW RC ltac:(lia))
    as (st & wire & k & piv & HS & P3 & PV & TC1 & TD1 & KS & NS & ST & SV & HX & N13).
  exists st, wire, k, piv. do 7 (split; [assumption|]). cbv zeta. split; [unfold protect; rewrite HS; reflexivity|].
  constructor; cbn [dv_ctx dv_mem]; try assumption; try lia.
  - exact (tame_request _ _ _ _ _ _ _ AC IN OW HX).
  - intros z [L NO]. destruct (LV z L) as (x & y & X1 & X2 & X3 & X4 & X). exists x, y. split; [|auto].
    apply (stays resources owner _ _ _ _ _ x AC HX X1). rewrite X3. exact NO.
  - apply (home_same p c _ s s' HC); assumption.
Qed.

Lemma lost_event live p q s t c d n f v r h m s' :
  quiet live p q s t c d n -> n + 1 < OSCORE_SSN_OVERFLOW_VALUE -> request_fits resources owner v m -> sends s m s' -> v_lost v = true ->
  exists c' d', happen cr p c d (Dialogue f v r h) = Some (c', d', []) /\ same_keys (dv_ctx c) (dv_ctx c') /\ same_keys (dv_ctx d) (dv_ctx d') /\
    quiet (fun t => live t /\ owner t <> resource_of m) p q s' t c' d' (n + 1).
Proof.
  intros Q LN RF SE VL. destruct (protect_request live p q s t c d n v m s' Q ltac:(lia) RF SE) as (st & wire & k & piv & _ & _ & _ & _ & KS & _ & _ & E & Q').
  cbn [happen]. rewrite E, VL. eexists _, d. split; [reflexivity|]. split; [exact KS|]. split; [apply same_keys_refl|exact Q'].
Qed.

(** A dialogue in which the request arrives: [out1] is delivered there. *)
Lemma dialogue_event live p q s t c d n f v r h m m' s' t' out :
  let w := if trusts t m then r else h in
  quiet live p q s t c d n -> n + 1 < OSCORE_SSN_OVERFLOW_VALUE -> request_fits resources owner v m -> sends s m s' -> v_lost v = false ->
  answer_fits w m' (if trusts t m then if notifies m' then 8 else 0 else 8) -> m_token m' = m_token m -> arrives w m' out ->
  (if trusts t m then t' = Synced else exists x, echo_of m' = Some x /\ lenN x <= echo_room t /\ t' = Asked x /\ notifies m' = false) ->
  exists c' d', happen cr p c d (Dialogue f v r h) = Some (c', d', (if trusts t m then [v_msg v] else []) ++ out) /\
    same_keys (dv_ctx c) (dv_ctx c') /\ same_keys (dv_ctx d) (dv_ctx d') /\
    quiet (fun k => live k /\ owner k <> resource_of m \/ notifies m' = true /\ k = m_token m) p q s' t' c' d' (n + 1).
Proof.
  intros w Q LN RF SE VL AF TOK AR TT. pose proof RF as (GM & CO & LQ & IN & OW & NW).
  destruct (protect_request live p q s t c d n v m s' Q ltac:(lia) RF SE) as (st & wire & k & piv & HS & P3 & PV & N13 & KS & NS & HX & E & Q').
  cbv zeta in E, Q'. set (c1 := {| dv_ctx := s_ctx st; dv_mem := stored v (dv_mem c) st |}) in *.
  pose proof Q' as [TC1 TD1 AC1 AD1 LV1 NC1 ND1 HC1 HD1]. unfold c1 in TC1, TD1, AC1, NC1. cbn [dv_ctx] in TC1, TD1, AC1, NC1.
  pose proof (tame_room resources owner FEW _ m (proj1 (td_usable _ _ TD1)) AD1 IN OW) as RD.
  destruct (request_in v (dv_ctx c) (dv_ctx d) (dv_mem d) m t st wire k (qu_cd _ _ _ _ _ _ _ _ Q) (qu_dc _ _ _ _ _ _ _ _ Q)
    (ho_standing _ _ _ HD1) (ho_saved _ _ _ HD1) GM CO LQ RD HS TC1 TD1 NS) as (d1 & piv' & PV' & TC2 & TD2 & KD & ND2 & NE & HX1 & RES).
  { pose proof (qu_nd _ _ _ _ _ _ _ _ Q). lia. }
  assert (piv' = piv) as -> by congruence.
  pose proof (tame_request _ _ _ _ _ _ _ AD1 IN OW HX1) as AD2.
  set (o1 := if trusts t m then [v_msg v] else []).
  (* what the server does next *)
  assert (GO : exists ver, unprotect cr d (takeN k wire) (v_out v) = Some ({| dv_ctx := d1; dv_mem := dv_mem d |}, ver) /\
    (match ver with Delivered o => ([o], r) | Unverified => ([], h) end) = (o1, w)).
  { unfold unprotect, o1, w. destruct (trusts t m).
    - destruct RES as (-> & _). eexists. split; [reflexivity|]. cbv iota. rewrite written_take. reflexivity.
    - destruct RES as ([-> | ->] & _); eexists; (split; [reflexivity|reflexivity]). }
  destruct GO as (ver & UP & NEXT).
  assert (READY : echo_ready d1 m').
  { destruct (trusts t m).
    - destruct RES as (_ & ST & _). destruct ST as (_ & EE). unfold echo_ready, verifying. rewrite EE. discriminate.
    - destruct RES as (_ & AW & _). destruct TT as (x & X1 & X2 & _). exact (awaiting_ready d1 _ m' x AW X1 X2). }
  assert (TN : takes_number d1 m' = if trusts t m then notifies m' else true).
  { unfold takes_number, verifying. destruct (trusts t m).
    - destruct RES as (_ & (_ & EE) & _). rewrite EE. apply orb_false_r.
    - destruct RES as (_ & (_ & EE & _) & _). rewrite EE. apply orb_true_r. }
  destruct AF as (GM' & CO' & SP & NW').
  destruct (answer_out w (s_ctx st) d1 m' (record_for m piv (c_sid (dv_ctx c))) TC2 TD2 READY) as (s2 & wire' & k' & HS' & TD3 & TC3 & KS' & NS' & HX' & RCV).
  { rewrite TN. destruct (trusts t m); exact GM'. }
  { exact CO'. }
  { exact NW'. }
  { apply HX1. auto. }
  { symmetry. exact TOK. }
  { cbn [record_for i_kid i_piv]. pose proof (td_sid _ _ (qu_cd _ _ _ _ _ _ _ _ Q)). lia. }
  { intros _. rewrite NE. exact N13. }
  { lia. }
  { pose proof (qu_nd _ _ _ _ _ _ _ _ Q). lia. }
  pose proof GM' as (HM' & SUP' & HB' & _ & _ & L1').
  assert (LB' : lenN (v_buf w) < 2 ^ 32) by (change (2 ^ 32) with 4294967296; change (2 ^ 16) with 65536 in L1'; lia).
  pose proof (qu_nd _ _ _ _ _ _ _ _ Q) as ND0. pose proof (qu_nc _ _ _ _ _ _ _ _ Q) as NC0.
  set (d2 := {| dv_ctx := s_ctx s2; dv_mem := stored w (dv_mem d) s2 |}).
  assert (AFTER : standing (s_ctx s2) t' /\ saved (s_ctx s2) (stored w (dv_mem d) s2) t').
  { destruct (trusts t m).
    - destruct RES as (_ & ST & SV). subst t'.
      apply (standing_after w d1 (dv_mem d) m' s2 wire' k' HM' SUP' HB' LB' NW' HS' ltac:(lia) ltac:(lia) Synced Synced ST SV). reflexivity.
    - destruct RES as (_ & AW & NR). destruct TT as (x & X1 & X2 & -> & _).
      exact (asked_after w d1 (dv_mem d) m' s2 wire' k' HM' SUP' HB' LB' NW' HS' ltac:(lia) ltac:(lia) _ x AW NR X1). }
  destruct AFTER as [ST2 SV2].
  assert (KD2 : same_keys (dv_ctx d) (s_ctx s2)) by (eapply same_keys_trans; eassumption).
  assert (HD2 : home q d2 t') by (apply (home_same q d d2 t t' HD1); assumption).
  assert (AD3 : tame (c_inter (s_ctx s2))) by (intros z Z; apply AD2; apply HX' in Z; apply Z).
  assert (PR : protect cr {| dv_ctx := d1; dv_mem := dv_mem d |} w = Some (d2, takeN k' wire')) by (unfold protect; cbn [dv_ctx dv_mem]; rewrite HS'; reflexivity).
  assert (LV2 : forall ci, (forall x, held (c_inter ci) x <-> held (c_inter (s_ctx st)) x /\ ~ (notifies m' = false /\ i_token x = m_token m')) \/
      c_inter ci = c_inter (s_ctx st) -> forall z,
    live z /\ owner z <> resource_of m \/ notifies m' = true /\ z = m_token m ->
    exists x y, held (c_inter ci) x /\ held (c_inter (s_ctx s2)) y /\ i_token x = z /\ i_token y = z /\
      i_piv x = i_piv y /\ i_kid x = i_kid y /\ lenN (i_kid y) + lenN (i_piv y) <= 7).
  { intros ci G z Hz.
    assert (GG : forall x, held (c_inter (s_ctx st)) x -> ~ (notifies m' = false /\ i_token x = m_token m') -> held (c_inter ci) x).
    { intros x X Y. destruct G as [G|G]; [apply G; auto|rewrite G; exact X]. }
    destruct Hz as [[L NO]|(NT & ->)].
    - destruct (LV1 z (conj L NO)) as (x & y & X1 & X2 & X3 & X4 & X). exists x, y.
      assert (NG : ~ (notifies m' = false /\ z = m_token m')) by (intros [_ Z]; apply NO; rewrite Z, TOK; exact OW).
      split; [|split; [|auto]].
      + apply GG; [exact X1|rewrite X3; exact NG].
      + apply HX'. split; [|rewrite X4; exact NG]. apply (stays resources owner _ _ _ _ _ y AD1 HX1 X2). rewrite X4. exact NO.
    - exists (record_for m piv (c_sid (dv_ctx c))), (record_for m piv (c_sid (dv_ctx c))).
      split; [apply GG; [apply HX; auto|rewrite NT; intros [Z _]; discriminate]|].
      split; [apply HX'; split; [apply HX1; auto|rewrite NT; intros [Z _]; discriminate]|].
      repeat (split; [reflexivity|]). cbn [record_for i_kid i_piv]. pose proof (td_sid _ _ (qu_cd _ _ _ _ _ _ _ _ Q)). lia. }
  cbn [happen]. rewrite E, VL, UP, NEXT, PR. unfold arrives in AR. destruct (v_lost w) eqn:VW.
  { subst out. exists c1, d2. rewrite app_nil_r. split; [reflexivity|]. split; [exact KS|]. split; [exact KD2|].
    constructor; unfold c1, d2; cbn [dv_ctx]; try assumption; try lia. apply LV2. right. reflexivity. }
  destruct AR as (o' & RO' & ->).
  destruct RCV as (c2 & o & RO & E' & TC4 & TD4 & KR' & NR2 & EB1 & EB2 & EB3 & HX2); [exact SP| |intros _; symmetry; exact NE|].
  { exists (record_for m piv (c_sid (dv_ctx c))). split; [apply HX; auto|]. split; [symmetry; exact TOK|auto]. }
  assert (o = o') as -> by exact (message_unique _ _ _ RO RO').
  unfold unprotect. unfold c1 at 1. cbn [dv_ctx]. rewrite E', written_take. eexists _, d2. split; [reflexivity|]. unfold c1. cbn [dv_ctx dv_mem].
  split; [eapply same_keys_trans; eassumption|]. split; [exact KD2|].
  constructor; unfold d2; cbn [dv_ctx]; try assumption; try lia.
  - intros z Z. apply AC1. apply HX2 in Z. apply Z.
  - apply LV2. left. exact HX2.
  - apply (home_same p c1 _ s' s' HC1); cbn [dv_ctx dv_mem c1]; [exact KR'| |].
    + apply (standing_kept (s_ctx st)); [exact EB1|exact EB2|exact EB3|exact (ho_standing _ _ _ HC1)].
    + apply (saved_kept (s_ctx st)); [exact KR'|exact NR2|exact (ho_saved _ _ _ HC1)].
Qed.

Lemma report_event (live : bytes -> Prop) p q s t c d n f v m s' out :
  quiet live p q s t c d n -> n + 1 < OSCORE_SSN_OVERFLOW_VALUE ->
  answer_fits v m 8 -> notifies m = true -> live (m_token m) -> sends s m s' -> arrives v m out ->
  exists c' d', happen cr p c d (Report f v) = Some (c', d', out) /\
    same_keys (dv_ctx c) (dv_ctx c') /\ same_keys (dv_ctx d) (dv_ctx d') /\ quiet live p q s' t c' d' (n + 1).
Proof.
  intros [TC TD AC AD LV NC ND HC HD] LN (GM & CO & SP & NW) NT LT SE AR.
  destruct (LV _ LT) as (x & y & X1 & X2 & X3 & X4 & X5 & X6 & X7). rewrite <- X5, <- X6 in X7.
  assert (TN : takes_number (dv_ctx c) m = true) by (unfold takes_number; rewrite NT; reflexivity).
  destruct (answer_out v (dv_ctx d) (dv_ctx c) m x TD TC (standing_ready _ _ _ _ (ho_standing _ _ _ HC) SE)) as (st & wire & k & HS & TC1 & TD1 & KS & NS & HX & RCV).
  { rewrite TN. exact GM. }
  { exact CO. }
  { exact NW. }
  { exact X1. }
  { exact X3. }
  { exact X7. }
  { rewrite TN. discriminate. }
  { lia. }
  { lia. }
  assert (HX0 : forall z, held (c_inter (s_ctx st)) z <-> held (c_inter (dv_ctx c)) z).
  { intros z. rewrite (HX z), NT. split; [tauto|]. intros Z. split; [exact Z|]. intros [W _]. discriminate. }
  pose proof GM as (HM & SUP & HB & _ & _ & L1).
  assert (LB : lenN (v_buf v) < 2 ^ 32) by (change (2 ^ 32) with 4294967296; change (2 ^ 16) with 65536 in L1; lia).
  destruct (standing_after v (dv_ctx c) (dv_mem c) m st wire k HM SUP HB LB NW HS ltac:(lia) ltac:(lia) s s' (ho_standing _ _ _ HC) (ho_saved _ _ _ HC) SE) as [ST SV].
  assert (AC1 : tame (c_inter (s_ctx st))) by (intros z Z; apply AC; apply HX0; exact Z).
  set (c1 := {| dv_ctx := s_ctx st; dv_mem := stored v (dv_mem c) st |}).
  assert (HC1 : home p c1 s') by (apply (home_same p c c1 s s' HC); assumption).
  cbn [happen]. unfold protect. rewrite HS. fold c1. unfold arrives in AR. destruct (v_lost v) eqn:VL.
  { subst out. exists c1, d. split; [reflexivity|]. split; [exact KS|]. split; [apply same_keys_refl|].
    constructor; unfold c1; cbn [dv_ctx]; try assumption; try lia.
    intros z L. destruct (LV z L) as (a & b & A1 & A2 & A). exists a, b. split; [apply HX0; exact A1|]. auto. }
  destruct AR as (o' & RO' & ->).
  destruct RCV as (d1 & o & RO & E & TD2 & TC2 & KR & NR & EB1 & EB2 & EB3 & HX1); [exact SP| |rewrite TN; discriminate|].
  { exists y. split; [exact X2|]. split; [exact X4|]. split; congruence. }
  assert (o = o') as -> by exact (message_unique _ _ _ RO RO').
  assert (HX10 : forall z, held (c_inter d1) z <-> held (c_inter (dv_ctx d)) z).
  { intros z. rewrite (HX1 z), NT. split; [tauto|]. intros Z. split; [exact Z|]. intros [W _]. discriminate. }
  unfold unprotect. rewrite E, written_take. eexists c1, _. split; [reflexivity|]. cbn [dv_ctx]. split; [exact KS|]. split; [exact KR|].
  constructor; unfold c1; cbn [dv_ctx]; try assumption; try lia.
  - intros z Z. apply AD. apply HX10. exact Z.
  - intros z L. destruct (LV z L) as (a & b & A1 & A2 & A). exists a, b. split; [apply HX0; exact A1|]. split; [apply HX10; exact A2|]. auto.
  - apply (home_same q d _ t t HD); cbn [dv_ctx dv_mem]; [exact KR| |].
    + apply (standing_kept (dv_ctx d)); [exact EB1|exact EB2|exact EB3|exact (ho_standing _ _ _ HD)].
    + apply (saved_kept (dv_ctx d)); [exact KR|exact NR|exact (ho_saved _ _ _ HD)].
Qed.

Lemma intrusion_event live p q s t c d n f bs buf :
  quiet live p q s t c d n -> foreign cr (c_rkey (dv_ctx c)) bs buf ->
  happen cr p c d (Intrusion f bs buf) = Some (c, d, []) /\ quiet live p q s t c d (n + 1).
Proof.
  intros Q FO. pose proof Q as [TC TD AC AD LV NC ND HC HD].
  destruct (foreign_receive cr OK (dv_ctx c) bs buf (td_usable _ _ TC) (td_keyed _ _ TC)) as (b & e & E); [|exact FO|].
  { destruct (td_hears _ _ TD) as (_ & H & _). rewrite <- H. pose proof (td_sid _ _ TD). lia. }
  split; [cbn [happen]; rewrite E; destruct c; reflexivity|]. constructor; try assumption; lia.
Qed.

Lemma init_again p v gn ge gf c0 v' gn' ge' gf' : oscore_context_init cr p (Ok v) gn ge gf = Ok c0 ->
  exists c1, oscore_context_init cr p (Ok v') gn' ge' gf' = Ok c1 /\ same_keys c0 c1.
Proof.
  unfold oscore_context_init. intros H. destruct (negb _) in *; [discriminate|]. destruct (negb _) in *; [discriminate|].
  apply bind_ok in H as (iv & EI & H). rewrite EI. cbn [bind]. destruct (_ <? _) in *; [discriminate|].
  apply bind_ok in H as (rk & ER & H). rewrite ER. cbn [bind].
  apply bind_ok in H as (ss & ES & H). apply bind_ok in H as (sk & EK & H).
  assert (X : exists ss', ssn_init (Ok v') (ip_fresh p) = Ok ss') by (unfold ssn_init; destruct (ip_fresh p); cbn; eauto).
  destruct X as (ss' & ->). cbn [bind]. rewrite EK. cbn [bind]. eexists. split; [reflexivity|]. injection H as <-. repeat split.
Qed.
Lemma same_keys_sym a b : same_keys a b -> same_keys b a.
Proof. unfold same_keys. intuition congruence. Qed.

Lemma restart_event live p q s t c d n f gn ge gf :
  quiet live p q s t c d n -> n + 20 < OSCORE_SSN_OVERFLOW_VALUE -> ip_fresh p = false -> lenN ge = 12 ->
  exists c', happen cr p c d (Restart f gn ge gf) = Some (c', d, []) /\ same_keys (dv_ctx c) (dv_ctx c') /\
    quiet (fun _ => False) p q Booted t c' d (n + 20).
Proof.
  intros [TC TD AC AD LV NC ND HC HD] LN FR LG. pose proof HC as [(v & gn0 & ge0 & gf0 & c0 & IN & KE) ST SV].
  destruct (init_again p v gn0 ge0 gf0 c0 (dv_mem c) gn ge gf IN) as (c1 & I1 & K01).
  assert (K : same_keys (dv_ctx c) c1) by (eapply same_keys_trans; [apply same_keys_sym; exact KE|exact K01]).
  cbn [happen]. rewrite I1. eexists. split; [reflexivity|]. cbn [dv_ctx]. split; [exact K|].
  destruct (init_numbers cr p _ _ _ _ _ I1 FR) as (N1 & F1 & E1). pose proof I1 as I1'. apply init_inter in I1 as (J1 & J2 & J3 & J4 & J5 & J6 & J7 & J8 & J9 & J10).
  assert (FC : c_fresh (dv_ctx c) = false) by (destruct K as (_ & _ & _ & KF & _); congruence).
  pose proof (saved_near _ _ _ SV FC) as NR.
  assert (N2 : c_ssn c1 = dv_mem c + 20).
  { rewrite N1. unfold u64. apply N.mod_small. unfold OSCORE_SSN_OVERFLOW_VALUE in LN. lia. }
  assert (EMP : forall x, ~ held (c_inter c1) x).
  { intros x Hx. unfold held in Hx. rewrite J1 in Hx. cbn in Hx. destruct Hx as [Hx|[Hx|[Hx|[]]]]; discriminate. }
  constructor; cbn [dv_ctx dv_mem]; try assumption; try lia.
  - apply (tied_sender (dv_ctx c) c1 (dv_ctx d) K); [|lia|exact TC]. intros _.
    apply (reachable_table cr c1). exists p, (Ok (dv_mem c)), gn, ge, gf, c1, []. auto.
  - apply (tied_receiver (dv_ctx d) (dv_ctx c) c1 K); [| |exact TD].
    + rewrite E1. discriminate.
    + rewrite J3. discriminate.
  - intros x X. destruct (EMP x X).
  - apply (home_same p c _ s Booted HC); cbn [dv_ctx dv_mem]; [exact K| |].
    + split; [rewrite J7; exact LG|]. auto.
    + intros _. lia.
Qed.

(** *** All of it *)
Lemma quiet_mono (live live' : bytes -> Prop) p q s t c d n n' : (forall k, live' k -> live k) -> n <= n' -> quiet live p q s t c d n -> quiet live' p q s t c d n'.
Proof. intros I L [TC TD AC AD LV NC ND HC HD]. constructor; try assumption; try lia. auto. Qed.

Lemma history_course l : forall p q (key : bool -> bytes) (is_fresh : bool -> bool) live st c d n outs,
  quiet live p q (st true) (st false) c d n -> n + total_price l < OSCORE_SSN_OVERFLOW_VALUE ->
  key true = c_rkey (dv_ctx c) -> key false = c_rkey (dv_ctx d) -> is_fresh true = ip_fresh p -> is_fresh false = ip_fresh q ->
  course cr key is_fresh resources owner live st l outs ->
  exists c' d', history cr p q c d l = Some (c', d', outs).
Proof.
  induction l as [|e l IH]; intros p q key is_fresh live st c d n outs Q LN K1 K2 F1 F2 P.
  { inversion P; subst. exists c, d. reflexivity. }
  cbn [total_price fold_right] in LN. fold (total_price l) in LN.
  assert (STEP : exists live' st' c' d' out outs', outs = out :: outs' /\
    (if by_the_first e then happen cr p c d e else option_map (fun x => let '(d', c', o) := x in (c', d', o)) (happen cr q d c e)) = Some (c', d', out) /\
    same_keys (dv_ctx c) (dv_ctx c') /\ same_keys (dv_ctx d) (dv_ctx d') /\
    quiet live' p q (st' true) (st' false) c' d' (n + price e) /\ course cr key is_fresh resources owner live' st' l outs').
  { inversion P; subst; cbn [by_the_first price] in *.
    - destruct f.
      + edestruct (lost_event live p q) as (c' & d' & E & G1 & G2 & Q'); [exact Q|lia|eassumption|eassumption|eassumption|].
        eexists _, _, c', d', [], _. split; [reflexivity|]. rewrite E. split; [reflexivity|]. split; [exact G1|]. split; [exact G2|]. split; [|eassumption]. exact Q'.
      + edestruct (lost_event live q p) as (c' & d' & E & G1 & G2 & Q'); [apply quiet_sym; exact Q|lia|eassumption|eassumption|eassumption|].
        eexists _, _, d', c', [], _. split; [reflexivity|]. rewrite E. cbn [option_map]. split; [reflexivity|]. split; [exact G2|]. split; [exact G1|]. split; [|eassumption].
        apply quiet_sym. exact Q'.
    - destruct f; cbn [negb] in *.
      + edestruct (dialogue_event live p q (st true) (st false) c d n true q0 r h m m' s Synced out) as (c' & d' & E & G1 & G2 & Q');
          try match goal with H : trusts _ _ = true |- _ => rewrite H end; [exact Q|lia|eassumption|eassumption|eassumption|eassumption|eassumption|eassumption|reflexivity|].
        match goal with H : trusts _ _ = true |- _ => rewrite H in E end.
        eexists _, _, c', d', _, _. split; [reflexivity|]. rewrite E. split; [reflexivity|]. split; [exact G1|]. split; [exact G2|]. split; [|eassumption]. exact Q'.
      + edestruct (dialogue_event live q p (st false) (st true) d c n false q0 r h m m' s Synced out) as (c' & d' & E & G1 & G2 & Q');
          try match goal with H : trusts _ _ = true |- _ => rewrite H end; [apply quiet_sym; exact Q|lia|eassumption|eassumption|eassumption|eassumption|eassumption|eassumption|reflexivity|].
        match goal with H : trusts _ _ = true |- _ => rewrite H in E end.
        eexists _, _, d', c', _, _. split; [reflexivity|]. rewrite E. cbn [option_map]. split; [reflexivity|]. split; [exact G2|]. split; [exact G1|]. split; [|eassumption].
        apply quiet_sym. exact Q'.
    - destruct f; cbn [negb] in *.
      + edestruct (dialogue_event live p q (st true) (st false) c d n true q0 r h m m' s (Asked v)) as (c' & d' & E & G1 & G2 & Q');
          try match goal with H : trusts _ _ = false |- _ => rewrite H end; [exact Q|lia|eassumption|eassumption|eassumption|eassumption|eassumption|eassumption|eauto|].
        match goal with H : trusts _ _ = false |- _ => rewrite H in E end.
        eexists _, _, c', d', _, _. split; [reflexivity|]. rewrite E. split; [reflexivity|]. split; [exact G1|]. split; [exact G2|]. split; [|eassumption].
        eapply quiet_mono; [|apply N.le_refl|exact Q']. cbv beta. auto.
      + edestruct (dialogue_event live q p (st false) (st true) d c n false q0 r h m m' s (Asked v)) as (c' & d' & E & G1 & G2 & Q');
          try match goal with H : trusts _ _ = false |- _ => rewrite H end; [apply quiet_sym; exact Q|lia|eassumption|eassumption|eassumption|eassumption|eassumption|eassumption|eauto|].
        match goal with H : trusts _ _ = false |- _ => rewrite H in E end.
        eexists _, _, d', c', _, _. split; [reflexivity|]. rewrite E. cbn [option_map]. split; [reflexivity|]. split; [exact G2|]. split; [exact G1|]. split; [|eassumption].
        eapply quiet_mono; [|apply N.le_refl|apply quiet_sym; exact Q']. cbv beta. auto.
    - destruct f.
      + edestruct (report_event live p q) as (c' & d' & E & G1 & G2 & Q'); [exact Q|lia|eassumption|eassumption|eassumption|eassumption|eassumption|].
        eexists _, _, c', d', _, _. split; [reflexivity|]. rewrite E. split; [reflexivity|]. split; [exact G1|]. split; [exact G2|]. split; [|eassumption]. exact Q'.
      + edestruct (report_event live q p) as (c' & d' & E & G1 & G2 & Q'); [apply quiet_sym; exact Q|lia|eassumption|eassumption|eassumption|eassumption|eassumption|].
        eexists _, _, d', c', _, _. split; [reflexivity|]. rewrite E. cbn [option_map]. split; [reflexivity|]. split; [exact G2|]. split; [exact G1|]. split; [|eassumption].
        apply quiet_sym. exact Q'.
    - destruct f.
      + edestruct (intrusion_event live p q) with (f := true) as (E & Q'); [exact Q|rewrite <- K1; eassumption|].
        eexists _, _, c, d, [], _. split; [reflexivity|]. rewrite E. split; [reflexivity|]. split; [apply same_keys_refl|]. split; [apply same_keys_refl|].
        split; [exact Q'|eassumption].
      + edestruct (intrusion_event live q p) with (f := false) as (E & Q'); [apply quiet_sym; exact Q|rewrite <- K2; eassumption|].
        eexists _, _, c, d, [], _. split; [reflexivity|]. rewrite E. cbn [option_map]. split; [reflexivity|]. split; [apply same_keys_refl|]. split; [apply same_keys_refl|].
        split; [apply quiet_sym; exact Q'|eassumption].
    - destruct f.
      + edestruct (restart_event live p q) with (f := true) as (c' & E & G1 & Q'); [exact Q|lia|congruence|eassumption|].
        eexists _, _, c', d, [], _. split; [reflexivity|]. rewrite E. split; [reflexivity|]. split; [exact G1|]. split; [apply same_keys_refl|].
        split; [|eassumption]. exact Q'.
      + edestruct (restart_event live q p) with (f := false) as (c' & E & G1 & Q'); [apply quiet_sym; exact Q|lia|congruence|eassumption|].
        eexists _, _, c, c', [], _. split; [reflexivity|]. rewrite E. cbn [option_map]. split; [reflexivity|]. split; [apply same_keys_refl|]. split; [exact G1|].
        split; [|eassumption]. apply quiet_sym. exact Q'. }
  destruct STEP as (live' & st' & c' & d' & out & outs' & -> & E & G1 & G2 & Q' & P').
  destruct (IH p q key is_fresh live' st' c' d' (n + price e) outs' Q' ltac:(lia)) as (c2 & d2 & E2); try assumption.
  { destruct G1 as (_ & _ & _ & _ & _ & _ & _ & ->). exact K1. }
  { destruct G2 as (_ & _ & _ & _ & _ & _ & _ & ->). exact K2. }
  exists c2, d2. cbn [history]. rewrite E, E2. reflexivity.
Qed.
End Reboot.

(** Without an Echo option of the right size, nothing is sent while an Echo value is awaited. *)
Lemma unready_send cr nw c m input buf s b r : rfc_message m input -> supported m input -> is_bytes input -> 0 < m_code m ->
  verifying c = true -> (forall v, echo_of m = Some v -> c_echo_len c < lenN v) ->
  coap2oscore cr nw c input buf = (s, b, r) -> s = s0 c /\ b = buf /\ is_ok r = false.
Proof.
  intros HM SUP HB CZ VE NE H. destruct (coap_parse_rfc m input HM (proj1 SUP)) as (k & EK & EM & _ & _).
  assert (LI : lenN input < 2 ^ 32).
  { destruct SUP as ((_ & _ & _ & _ & L) & _). change (2 ^ 32) with 4294967296. change (2 ^ 16) with 65536 in L. lia. }
  assert (ECD : h_code (k_hdr k) = m_code m) by (rewrite <- EM; reflexivity).
  assert (CORE : fst (coap2oscore_core cr nw c input) = s0 c /\ is_ok (snd (coap2oscore_core cr nw c input)) = false).
  { destruct (coap2oscore_core cr nw c input) as [s1 r1] eqn:C. cbn [fst snd]. clear H. unfold coap2oscore_core in C.
    apply tryc_inv in C as [([] & _ & C)|[-> G]]; [|split; [reflexivity|eapply failure_not_ok; exact G]].
    apply tryc_inv in C as [(k' & EK' & C)|[-> G]]; [|split; [reflexivity|eapply failure_not_ok; exact G]].
    assert (k' = k) as -> by congruence.
    replace (h_code (k_hdr k) =? 0) with false in C by (symmetry; apply N.eqb_neq; lia). rewrite andb_false_r in C.
    apply tryc_inv in C as [([[e u] elen] & ES & C)|[-> G]]; [|split; [reflexivity|eapply failure_not_ok; exact G]].
    apply tryc_inv in C as [([] & _ & C)|[-> G]]; [|split; [reflexivity|eapply failure_not_ok; exact G]].
    apply tryc_inv in C as [(pt & _ & C)|[-> G]]; [|split; [reflexivity|eapply failure_not_ok; exact G]].
    apply tryc_inv in C as [([] & _ & C)|[-> G]]; [|split; [reflexivity|eapply failure_not_ok; exact G]].
    assert (EI : map nv e = map (inner_value (is_request k)) (inside_opts m)).
    { pose proof ES as ES'. unfold inner_outer_option_split in ES'. destruct (_ <? _) in ES'; [discriminate|]. injection ES' as ES'.
      destruct (coap_parse_sound _ _ EK HB LI) as (_ & _ & _ & _ & NC & _).
      destruct (split_loop_spec (is_request k) (k_opts k) 0 0 0 0 e u elen NC eq_refl eq_refl eq_refl ES') as (inner & SI & EI & _).
      change (map nv (k_opts k)) with (m_opts (msg_of k)) in SI. rewrite EM in SI.
      apply (selects_filter _ (fun p => negb (is_class_u (fst p)))) in SI; [|intros x; apply inside_dec]. fold (inside_opts m) in SI. congruence. }
    pose proof (echo_inside _ m e EI) as F. unfold verifying in VE. destruct (c_echo c); try discriminate.
    assert (X : exists er, cache_echo_val (c_echo_buf c) (c_echo_len c) e = Err er).
    { unfold cache_echo_val. destruct (find _ e) as [o|]; [|eauto]. cbn [option_map] in F. specialize (NE _ (eq_sym F)).
      unfold memcpy_s. destruct (N.eqb_spec (lenN (o_val o)) 0); [lia|]. unfold check_buffer_size.
      destruct (N.ltb_spec (c_echo_len c) (lenN (o_val o))); [|lia]. cbn [bind]. eauto. }
    destruct X as (er & X). rewrite X in C. cbn [tryc callc] in C. injection C as <- <-. split; reflexivity. }
  unfold coap2oscore in H. destruct (coap2oscore_core cr nw c input) as [s1 r1]. cbn [fst snd] in CORE. destruct CORE as [-> R].
  destruct r1 as [x|e|u]; [discriminate|injection H as <- <- <-; auto..].
Qed.
