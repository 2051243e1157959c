(** Lemmas about single calls of oscore2coap, used by the theorems about sessions. *)
From Verif Require Import Base Proof_Base Model_Common Model_Crypto Model_Cbor Model_OscorePrims Spec_OscorePrims
  Proof_OscorePrims Model_Coap Proof_Coap Model_Interactions Model_Replay Spec_Replay Proof_Replay Model_Context
  Model_Send Model_Recv Model_Run Spec_Interactions Proof_Interactions Proof_Send Proof_Recv
  Proof_Options Spec_Session Proof_Run.

Lemma packet_fun input k k' piv piv' : packet input k piv -> packet input k' piv' -> k' = k /\ piv' = piv.
Proof.
  intros (P & o & O & <-) (P' & o' & O' & <-). rewrite P in P'. injection P' as <-.
  rewrite O in O'. injection O' as <-. auto.
Qed.

Section WithCrypto.
Variable cr : crypto.

Lemma recv_result c input buf c' b r : oscore2coap cr c input buf = (c', b, r) ->
  exists rc, oscore2coap_core cr c input = (c', rc) /\ (is_ok r = true -> is_ok rc = true) /\
    (is_ok rc = false -> b = buf /\ is_ok r = false).
Proof.
  unfold oscore2coap. destruct (oscore2coap_core cr c input) as [c1 rc]. intros H.
  destruct rc as [out|e|u].
  - destruct (coap_serialize out (lenN buf)) as [w [x|e|u]]; injection H as <- <- <-; exists (Ok out); cbn;
      (split; [reflexivity|]); split; congruence.
  - injection H as <- <- <-. exists (Err e). cbn. auto.
  - injection H as <- <- <-. exists (UB u). cbn. auto.
Qed.

Lemma accepts_core c input buf c' : accepts cr c input buf c' ->
  exists out, oscore2coap_core cr c input = (c', Ok out).
Proof.
  intros (b & n & H). apply recv_result in H as (rc & H & A & _). specialize (A eq_refl).
  destruct rc as [out|e|u]; try discriminate. eauto.
Qed.

Lemma recv_err c input buf c' e : oscore2coap_core cr c input = (c', Err e) -> oscore2coap cr c input buf = (c', buf, Err e).
Proof. unfold oscore2coap. intros ->. reflexivity. Qed.

(** What an accepted request did. *)
Lemma accepted_request c input c' out piv : is_bytes input -> lenN input < 2 ^ 32 ->
  request_packet input piv -> oscore2coap_core cr c input = (c', Ok out) ->
  c_echo c' = ECHO_SYNCHRONIZED /\
  ((c_echo c = ECHO_SYNCHRONIZED /\ rw_valid (be_val piv) (c_win c) = true /\
    exists b t, piv = b :: t /\ c_win c' = snd (rw_update b (c_win c))) \/
   (c_echo c = ECHO_VERIFY /\ c_win c' = rw_reinit (be_val piv))).
Proof.
  intros HB HL (k & HP & HC) H. destruct (packet_piv _ _ _ HB HL HP) as (PB & P5 & PS).
  apply recv_core_inv in H as [[_ H]|(k' & o & _ & EK & EO & H)]; [discriminate|].
  destruct (packet_fun input k k' piv (co_piv o) HP) as [-> EP]; [split; eauto|].
  apply is_request_spec in HC. rewrite HC in H.
  apply recv_request_inv in H as [[_ H]|(ssn & rd & _ & _ & ES & V & c1 & D & H)]; [discriminate|].
  rewrite EP, PS in ES. injection ES as <-. rewrite EP in H.
  apply decrypt_wrapper_effect in D as ((_ & (SW & _ & _ & SE) & _) & _).
  destruct H as [(_ & _ & H)|(pt & out' & _ & H)]; [discriminate|].
  destruct (c_echo c) eqn:EE.
  - destruct H as [_ H]; discriminate.
  - destruct H as [(_ & -> & _)|(_ & _ & H)]; [|discriminate]. cbn. auto.
  - destruct H as [(_ & _ & H)|(b & t & EB & -> & _)]; [discriminate|]. cbn. rewrite SE. split; [reflexivity|]. left.
    split; [reflexivity|]. split; [exact (V eq_refl)|]. exists b, t. auto.
Qed.

(** A spent number is refused. *)
Lemma spent_refused n c input piv : is_bytes input -> lenN input < 2 ^ 32 ->
  spent n c -> request_packet input piv -> be_val piv = n ->
  forall c' r, oscore2coap_core cr c input = (c', r) -> c' = c /\ is_ok r = false.
Proof.
  intros HB HL SP (k & HP & HC) EN c' r H. destruct (packet_piv _ _ _ HB HL HP) as (PB & P5 & PS).
  apply recv_core_inv in H as [X|(k' & o & _ & EK & EO & H)]; [exact X|].
  destruct (packet_fun input k k' piv (co_piv o) HP) as [-> EP]; [split; eauto|].
  apply is_request_spec in HC. rewrite HC in H.
  apply recv_request_inv in H as [X|(ssn & rd & _ & _ & ES & V & _)]; [exact X|].
  rewrite EP, PS, EN in ES. injection ES as <-. apply spent_invalid in SP as SV. destruct SP as [SE _].
  rewrite (V SE) in SV. discriminate.
Qed.

Lemma later_inv (P : ctx -> Prop) :
  (forall c a c' o, P c -> exec cr c a = (c', o) -> P c') -> forall c c', later cr c c' -> P c -> P c'.
Proof. intros HS c c' (l & <-) HP. apply run_inv; assumption. Qed.

Lemma later_keys c c' : later cr c c' -> same_keys c c'.
Proof.
  intros H. apply (later_inv (same_keys c)) with (c := c) (c' := c') in H; [exact H| |apply same_keys_refl].
  intros c0 a c1 o K X. apply exec_keys in X as [K' _]. eapply same_keys_trans; eassumption.
Qed.

Lemma accepts_keys c input buf c' : accepts cr c input buf c' -> same_keys c c'.
Proof. intros H. apply accepts_core in H as (out & H). apply recv_core_effect in H as ((K & _) & _). exact K. Qed.

(** The refusal of a replayed packet that was accepted before, in detail. *)
Lemma replay_error c0 c0' c out input piv : is_bytes input -> lenN input < 2 ^ 32 -> request_packet input piv ->
  oscore2coap_core cr c0 input = (c0', Ok out) -> same_keys c0 c -> spent (be_val piv) c ->
  oscore2coap_core cr c input =
    (c, Err (if OSCORE_SSN_OVERFLOW_VALUE <=? c_ssn c then oscore_ssn_overflow else oscore_replay_window_protection_error)).
Proof.
  intros HB HL (k & HP & HC) H0 K SP. destruct (packet_piv _ _ _ HB HL HP) as (PB & P5 & PS).
  pose proof HP as (EK & o & EO & EP). subst piv.
  unfold oscore2coap_core in *. unfold check_context_freshness in *.
  destruct (OSCORE_SSN_OVERFLOW_VALUE <=? c_ssn c); [reflexivity|].
  apply tryc_ok in H0 as (? & _ & H0). rewrite EK in *. cbn [tryc] in *. rewrite EO in *. cbn [tryc] in *.
  apply tryc_ok in H0 as (u & EB & H0). rewrite EB. cbn [tryc].
  apply is_request_spec in HC. rewrite HC in *.
  apply recv_request_inv in H0 as [[_ X]|(ssn & rd & KV & KL & _)]; [discriminate|].
  assert (ER : c_rid c = c_rid c0) by (unfold same_keys in K; tauto).
  unfold recv_request. rewrite ER, KL, N.eqb_refl, KV. cbn [negb tryc].
  assert (EA : array_equals (c_rid c0) (c_rid c0) = true) by (apply array_equals_eq; reflexivity).
  rewrite EA, PS. cbn [negb tryc]. destruct SP as [SE SH]. rewrite SE.
  rewrite (spent_invalid (be_val (co_piv o)) c) by (split; assumption). reflexivity.
Qed.

(** What an accepted notification did. *)
Lemma accepted_notification c input c' out piv : is_bytes input -> lenN input < 2 ^ 32 ->
  response_packet input piv true -> oscore2coap_core cr c input = (c', Ok out) ->
  seen_notif (be_val piv) c' /\ c_notif c' = be_val piv /\ (c_notif_init c = true -> c_notif c < be_val piv).
Proof.
  intros HB HL (k & HP & HC & HO) H. destruct (packet_piv _ _ _ HB HL HP) as (PB & P5 & PS).
  apply recv_core_inv in H as [[_ H]|(k' & o & _ & EK & EO & H)]; [discriminate|].
  destruct (packet_fun input k k' piv (co_piv o) HP) as [-> EP]; [split; eauto|].
  assert (RQ : is_request k = false).
  { destruct (is_request k) eqn:E; [|reflexivity]. apply is_request_spec in E. lia. }
  rewrite RQ in H.
  assert (OB : is_observe (k_opts k) = true) by (apply is_observe_spec, HO; reflexivity).
  apply recv_response_inv in H as [[_ H]|(c1 & rd & D & OBS & H)]; [discriminate|].
  destruct H as [(_ & _ & H)|(pt & out' & _ & _ & H)]; [discriminate|]. rewrite OB in H.
  destruct H as (ssn & E1 & ->). destruct (OBS OB) as (_ & ssn' & E2 & L). rewrite EP, PS in E1, E2.
  injection E1 as <-. injection E2 as <-. unfold seen_notif. cbn. split; [|auto]. split; [reflexivity|lia].
Qed.

(** Whatever a call changes or delivers comes from an authenticated packet. *)
Lemma core_authentic c input c' r : lenN (c_iv c) = 13 -> table_ok (c_inter c) ->
  oscore2coap_core cr c input = (c', r) ->
  (c' = c /\ is_ok r = false) \/
  exists k pt, authentic cr c input k pt /\ (forall out, r = Ok out -> o_coap_pkg_generate pt k = Ok out).
Proof.
  intros HI TL H. apply recv_core_inv in H as [X|(k & o & _ & EK & EO & H)]; [auto|].
  destruct (is_request k) eqn:RQ.
  - apply recv_request_inv in H as [X|(ssn & rd & KV & KL & _ & _ & c1 & D & H)]; [auto|].
    apply decrypt_wrapper_effect in D as (_ & _ & [[-> F]|(rp & rk & n & a & pt & O & _ & G)]).
    { destruct H as [(_ & -> & X)|(pt & out & -> & _)]; [auto|discriminate]. }
    right. exists k, pt. split.
    { eapply opened_authentic; try eassumption; [|congruence]. intros _. auto. }
    intros out' ->. destruct H as [(_ & _ & X)|(pt' & out & E & H)]; [discriminate|].
    destruct (G _ _ E) as (-> & GO & _).
    destruct (c_echo c).
    + destruct H as [_ X]; discriminate.
    + destruct H as [(_ & _ & X)|(_ & _ & X)]; [injection X as <-; exact GO|discriminate].
    + destruct H as [(_ & _ & X)|(? & ? & _ & _ & X)]; [discriminate|injection X as <-; exact GO].
  - apply recv_response_inv in H as [X|(c1 & rd & D & _ & H)]; [auto|].
    apply decrypt_wrapper_effect in D as (_ & _ & [[-> F]|(rp & rk & n & a & pt & O & _ & G)]).
    { destruct H as [(_ & -> & X)|(pt & out & -> & _)]; [auto|discriminate]. }
    right. exists k, pt. split.
    { eapply opened_authentic; try eassumption; [congruence|]. auto. }
    intros out' ->. destruct H as [(_ & _ & X)|(pt' & out & E & X & _)]; [discriminate|].
    destruct (G _ _ E) as (-> & GO & _). injection X as <-. exact GO.
Qed.

Lemma recv_output c input buf c' b n : oscore2coap cr c input buf = (c', b, Ok n) ->
  exists out w, oscore2coap_core cr c input = (c', Ok out) /\ coap_serialize out (lenN buf) = (w, Ok tt) /\
    b = written w buf /\ n = lenN w.
Proof.
  unfold oscore2coap. destruct (oscore2coap_core cr c input) as [c1 rc]. intros H.
  destruct rc as [out|e|u]; try discriminate.
  destruct (coap_serialize out (lenN buf)) as [w [[]|e|u]] eqn:S; try discriminate.
  injection H as <- <- <-. exists out, w. auto.
Qed.
End WithCrypto.

Lemma written_take w buf : takeN (lenN w) (written w buf) = w.
Proof. unfold written. apply takeN_app. Qed.

(** A decrypted packet is a well-formed message. *)
Lemma pkg_generate_wf input k pt out : is_bytes input -> lenN input < 2 ^ 32 -> coap_deserialize input = Ok k ->
  is_bytes pt -> lenN pt < 2 ^ 32 -> o_coap_pkg_generate pt k = Ok out ->
  pkt_wf out /\ hdr_wf (k_hdr out) /\ delta_consistent 0 (k_opts out) /\ Forall (fun o => o_num o < 2 ^ 16) (k_opts out) /\
  exists code body eopts, pt = code :: body /\ options_deserialize body MAX_E_OPTION_COUNT = Ok (eopts, k_payload out) /\
    k_hdr out = {| h_ver := h_ver (k_hdr k); h_type := h_type (k_hdr k); h_tkl := h_tkl (k_hdr k); h_code := code;
                   h_mid := h_mid (k_hdr k) |} /\
    k_token out = k_token k /\ options_reorder (k_opts k) eopts = Ok (k_opts out) /\
    num_chain 0 eopts /\ Forall opt_wf eopts.
Proof.
  intros HB HL EK HPB HPL H. unfold o_coap_pkg_generate in H.
  apply bind_ok in H as ([[code eopts] payload] & EP & H). apply bind_ok in H as (opts & EO & H). injection H as <-.
  destruct (coap_parse_sound _ _ EK HB HL) as (W & HW & L19 & OW & NC & _).
  unfold oscore_decrypted_payload_parser in EP. destruct pt as [|code' body]; [discriminate|].
  apply bind_ok in EP as ([eo pl] & ED & EP). injection EP as <- <- <-.
  inversion HPB as [|? ? B1 B2]; subst. rewrite lenN_cons in HPL.
  destruct (options_parse_sound _ _ _ _ ED B2) as (E19 & E10 & EW & EC & EPL & _).
  cbn [k_hdr k_token k_opts k_payload h_tkl h_ver h_type h_code h_mid].
  pose proof EO as EO'. unfold options_reorder in EO'. apply bind_ok in EO' as ([] & _ & EO').
  set (l := filter _ (k_opts k) ++ eo) in *. destruct (N.ltb_spec MAX_OPTION_COUNT (lenN l)) as [?|LL]; [discriminate|].
  injection EO' as EO'.
  assert (LF : Forall opt_wf l).
  { unfold l. apply Forall_app. split; [|exact EW]. rewrite Forall_forall in *. intros x Hx. apply filter_In in Hx as [Hx _]. auto. }
  assert (LN : Forall (fun o => o_num o < 2 ^ 16) l).
  { eapply Forall_impl; [|exact LF]. intros x (_ & A & _). exact A. }
  assert (OF : Forall (fun o => lenN (o_val o) < 2 ^ 16) opts).
  { subst opts. pose proof (exchange_sort_perm _ l 0 eq_refl) as P. rewrite Forall_forall in *. intros x Hx.
    assert (IN : In (nv x) (map nv l)) by (eapply Permutation.Permutation_in; [symmetry; exact P|apply in_map; exact Hx]).
    apply in_map_iff in IN as (y & E & Hy). unfold nv in E. injection E as _ E. rewrite <- E. apply (LF y Hy). }
  assert (OL : length opts = length l).
  { subst opts. pose proof (exchange_sort_perm _ l 0 eq_refl) as P. apply Permutation.Permutation_length in P. rewrite !map_length in P. auto. }
  destruct W as (W1 & W2 & W3 & W4 & W5). destruct HW as (H1 & H2 & H3 & H4 & H5).
  split; [|split; [|split; [|split]]].
  - unfold pkt_wf; cbn [k_hdr k_token k_opts k_payload h_tkl]. repeat split; try assumption.
    + unfold lenN in *. rewrite OL. unfold MAX_OPTION_COUNT in LL. lia.
    + lia.
  - unfold hdr_wf; cbn. unfold is_byte in B1. repeat split; try assumption.
  - subst opts. apply exchange_sort_sorted; [reflexivity|exact LN|]. apply Forall_forall. intros. lia.
  - subst opts. apply exchange_sort_nums; [reflexivity|exact LN].
  - exists code', body, eo. auto 8.
Qed.

(** ** The interaction table *)
Lemma update_wrapper_held ty tok uri t piv kid t' s : table_ok t -> update_wrapper ty tok uri t piv kid = Ok t' ->
  held t' s -> held t s \/ (i_piv s = piv /\ i_kid s = kid /\ i_token s = tok).
Proof.
  intros HT H HS. unfold update_wrapper in H.
  destruct ty; try (injection H as <-; auto);
    try (apply remove_record_held in H as (_ & _ & G); [apply G in HS; tauto|assumption]);
    repeat (apply bind_ok in H as (? & _ & H)); apply set_record_held in H as (_ & _ & G); try assumption;
    apply G in HS as [->|[HS _]]; auto.
Qed.

Lemma update_wrapper_sets ty tok uri t piv kid t' : table_ok t -> update_wrapper ty tok uri t piv kid = Ok t' ->
  ty = MREQUEST \/ ty = MREGISTRATION \/ ty = MCANCELLATION ->
  exists s, held t' s /\ i_piv s = piv /\ i_kid s = kid /\ i_token s = tok.
Proof.
  intros HT H HR. unfold update_wrapper in H.
  destruct HR as [-> | [-> | ->]]; repeat (apply bind_ok in H as (? & _ & H)); apply set_record_held in H as (_ & _ & G); try assumption;
    (eexists; split; [apply G; left; reflexivity|auto]).
Qed.

Section Tables.
Variable cr : crypto.

Lemma encrypt_wrapper_table nw s pt k s' r : encrypt_wrapper cr nw s pt k = (s', r) ->
  is_ok r = false -> c_inter (s_ctx s') = c_inter (s_ctx s).
Proof.
  intros H F. unfold encrypt_wrapper in H.
  set (new := needs_new_piv (coap_get_message_type k) (c_echo (s_ctx s))) in *.
  destruct (if new then _ else _) as [s1 rx] eqn:HX in H.
  assert (I1 : c_inter (s_ctx s1) = c_inter (s_ctx s)).
  { destruct new; [|injection HX as <- <-; reflexivity].
    apply tryc_inv in HX as [(piv & _ & HX)|[-> _]]; [|reflexivity].
    apply callc_inv in HX as [(s2 & [] & HG & HX)|[HX _]].
    - apply generate_new_ssn_spec in HG as (G & _). apply tryc_inv in HX as [(n & _ & HX)|[-> _]].
      + injection HX as <- <-. rewrite G. reflexivity.
      + rewrite G. reflexivity.
    - destruct (generate_new_ssn nw s) as [s2 r2] eqn:HG. cbn [fst] in HX. subst s2.
      apply generate_new_ssn_spec in HG as (G & _). rewrite G. reflexivity. }
  destruct rx as [[[[nonce piv] kid] kctx]|e|u]; cbn [callc] in H; [|injection H as <- <-; exact I1..].
  apply tryc_inv in H as [(opt & _ & H)|[-> _]]; [|exact I1].
  apply tryc_inv in H as [([rpiv rkid] & _ & H)|[-> _]]; [|exact I1].
  apply tryc_inv in H as [(aad & _ & H)|[-> _]]; [|exact I1].
  apply tryc_inv in H as [(ct & _ & H)|[-> _]]; [|exact I1].
  assert (I2 : c_inter (if new then set_nonce (s_ctx s1) nonce else s_ctx s1) = c_inter (s_ctx s)).
  { destruct new; exact I1. }
  apply tryc_inv in H as [(uri & _ & H)|[-> _]]; [|exact I2].
  apply tryc_inv in H as [(t & _ & H)|[-> _]]; [|exact I2].
  injection H as <- <-. discriminate F.
Qed.

Lemma decrypt_wrapper_table c nn k c' r : decrypt_wrapper cr c nn k = (c', r) ->
  is_ok r = false -> c_inter c' = c_inter c.
Proof.
  intros H F. unfold decrypt_wrapper in H.
  apply tryc_inv in H as [([rpiv rkid] & _ & H)|[-> _]]; [|reflexivity].
  apply tryc_inv in H as [(nonce & _ & H)|[-> _]]; [|reflexivity].
  apply tryc_inv in H as [(aad & _ & H)|[-> _]]; [|reflexivity].
  apply tryc_inv in H as [(pt & _ & H)|[-> _]]; [|reflexivity].
  set (c1 := match nn with Some _ => set_nonce c nonce | None => c end) in *.
  assert (I1 : c_inter c1 = c_inter c) by (unfold c1; destruct nn; reflexivity).
  apply tryc_inv in H as [(out & _ & H)|[-> _]]; [|exact I1].
  apply tryc_inv in H as [(uri & _ & H)|[-> _]]; [|exact I1].
  apply tryc_inv in H as [(t & _ & H)|[-> _]]; [|exact I1].
  injection H as <- <-. discriminate F.
Qed.

(** Sending changes the table only by the entry of the request sent, or removes one. *)
Lemma core_table nw c input s r x : table_ok (c_inter c) -> coap2oscore_core cr nw c input = (s, r) ->
  held (c_inter (s_ctx s)) x ->
  held (c_inter c) x \/
  (i_kid x = c_sid c /\ ssn2piv (c_ssn c) = Ok (i_piv x) /\ c_ssn (s_ctx s) = u64 (c_ssn c + 1) /\
   c_ssn c < OSCORE_SSN_OVERFLOW_VALUE).
Proof.
  intros HT H HX. pose proof H as HE. apply core_effect in HE as (_ & _ & SE & _). unfold coap2oscore_core in H.
  apply tryc_inv in H as [([] & CF & H)|[-> _]]; [|auto].
  apply tryc_inv in H as [(k & EK & H)|[-> _]]; [|auto].
  destruct (_ && _); [injection H as <- <-; auto|].
  apply tryc_inv in H as [([[e u] elen] & _ & H)|[-> _]]; [|auto].
  apply tryc_inv in H as [([] & _ & H)|[-> _]]; [|auto].
  apply tryc_inv in H as [(pt & _ & H)|[-> _]]; [|auto].
  apply tryc_inv in H as [([] & _ & H)|[-> _]]; [|auto].
  change (match c_echo c with
          | ECHO_VERIFY => try (s0 c) let (b, n) := cache_echo_val (c_echo_buf c) (c_echo_len c) e in
              (s_set (s0 c) (set_echo_val c b n), Ok tt)
          | _ => (s0 c, Ok tt) end) with (echo_stage c e) in H.
  destruct (echo_stage c e) as [s1 r1] eqn:ES. apply echo_stage_spec in ES as (_ & _ & ES).
  assert (I1 : c_inter (s_ctx s1) = c_inter c /\ c_sid (s_ctx s1) = c_sid c /\ c_ssn (s_ctx s1) = c_ssn c /\ c_echo (s_ctx s1) = c_echo c).
  { destruct ES as [->|(b & n & _ & _ & ->)]; cbn; auto. }
  destruct I1 as (I1 & I2 & I3 & I4).
  destruct r1 as [[]|er|ub]; cbn [callc] in H; [|injection H as <- <-; rewrite I1 in HX; auto..].
  destruct (encrypt_wrapper cr nw s1 pt k) as [s2 r2] eqn:EW.
  assert (S2 : s = s2).
  { destruct r2 as [[ct opt]|er|ub]; cbn [callc] in H; [|injection H as <- <-; reflexivity..].
    apply tryc_inv in H as [(out & _ & H)|[-> _]]; [injection H as <- <-|]; reflexivity. }
  subst s2. destruct r2 as [[ct opt]|er|ub].
  2,3: apply encrypt_wrapper_table in EW; [|reflexivity]; rewrite EW, I1 in HX; auto.
  apply encrypt_wrapper_ok in EW as (piv & kid & kctx & nonce & rpiv & rkid & aad & uri & t & WI & _ & _ & RW & _ & _ & _ & UW & <- & EE).
  rewrite I1 in UW, RW. destruct (update_wrapper_held _ _ _ _ _ _ _ _ HT UW HX) as [X|(XP & XK & XT)]; [auto|].
  unfold uses_new_piv in WI. rewrite I4 in WI.
  assert (HT' : table_ok (c_inter (s_ctx s))) by (eapply update_wrapper_ok; eassumption).
  assert (TY : (coap_get_message_type k = MRESPONSE \/ coap_get_message_type k = MNOTIFICATION) \/
               ((coap_get_message_type k = MREQUEST \/ coap_get_message_type k = MREGISTRATION \/ coap_get_message_type k = MCANCELLATION))).
  { destruct (coap_get_message_type k); auto. }
  destruct TY as [TY|TY].
  - left. destruct TY as [TY|TY]; rewrite TY in UW; cbn [update_wrapper] in UW.
    + apply remove_record_held in UW as (_ & _ & G); [|assumption]. apply G in HX. tauto.
    + injection UW as UW. rewrite UW. exact HX.
  - right.
    assert (NP : needs_new_piv (coap_get_message_type k) (c_echo c) = true).
    { destruct TY as [-> | [-> | ->]]; reflexivity. }
    rewrite NP in WI. cbn [wire_ids] in WI. destruct WI as (WP & WK & _). rewrite I3 in WP. rewrite I2 in WK.
    assert (EP : (rpiv, rkid) = (piv, kid)).
    { destruct TY as [T|[T|T]]; rewrite T in RW; cbn [read_wrapper] in RW; congruence. }
    injection EP as -> ->. unfold msg_uses_new_piv in SE. rewrite EK in SE. unfold uses_new_piv in SE. rewrite NP in SE.
    unfold send_effect in SE. rewrite EE in SE. subst. conj; auto; try tauto.
    unfold check_context_freshness in CF. destruct (N.leb_spec OSCORE_SSN_OVERFLOW_VALUE (c_ssn c)); [discriminate|assumption].
Qed.

(** Receiving adds at most the entry of the received request. *)
Lemma recv_table c input c' r x : table_ok (c_inter c) -> oscore2coap_core cr c input = (c', r) ->
  held (c_inter c') x ->
  held (c_inter c) x \/ i_kid x = c_rid c \/ exists y, held (c_inter c) y /\ i_kid x = i_kid y /\ i_piv x = i_piv y.
Proof.
  intros HT H HX. apply recv_core_inv in H as [[-> _]|(k & o & _ & EK & EO & H)]; [auto|].
  assert (DW : forall nn c1 rd, decrypt_wrapper cr c nn k = (c1, rd) -> held (c_inter c1) x -> held (c_inter c) x \/
     exists rp rk n a pt, opened cr c nn k rp rk n a pt /\ i_piv x = rp /\ i_kid x = rk).
  { intros nn c1 rd D HX1. pose proof (decrypt_wrapper_table _ _ _ _ _ D) as D'.
    destruct rd as [[pt out]|e|u]; try (rewrite D' in HX1 by reflexivity; auto).
    apply decrypt_wrapper_ok in D as (rp & rk & n & a & uri & OP & _ & _ & _ & UW).
    destruct (update_wrapper_held _ _ _ _ _ _ _ _ HT UW HX1) as [X|(XP & XK & _)]; [auto|].
    right. exists rp, rk, n, a, pt. auto. }
  destruct (is_request k) eqn:RQ.
  - apply recv_request_inv in H as [[-> _]|(ssn & rd & KV & KL & _ & _ & c1 & D & H)]; [auto|].
    assert (I1 : c_inter c' = c_inter c1).
    { destruct H as [(_ & -> & _)|(pt & out & _ & H)]; [reflexivity|]. destruct (c_echo c).
      - destruct H as [-> _]; reflexivity.
      - destruct H as [(_ & -> & _)|(_ & -> & _)]; reflexivity.
      - destruct H as [(_ & -> & _)|(b & t & _ & -> & _)]; reflexivity. }
    rewrite I1 in HX. destruct (DW _ _ _ D HX) as [X|(rp & rk & n & a & pt & (RW & _) & XP & XK)]; [auto|].
    right; left. rewrite XK.
    assert (EP : rk = takeN (co_kid_len o) (co_kid_mem o)).
    { apply type_request in RQ as [T|[T|T]]; rewrite T in RW; cbn in RW; congruence. }
    rewrite EP. unfold kid_view in KV. apply slice_ok in KV as (_ & _ & KV). rewrite dropN_0 in KV. auto.
  - apply recv_response_inv in H as [[-> _]|(c1 & rd & D & _ & H)]; [auto|].
    assert (I1 : c_inter c' = c_inter c1).
    { destruct H as [(_ & -> & _)|(pt & out & _ & _ & H)]; [reflexivity|].
      destruct (is_observe (k_opts k)); [destruct H as (s & _ & ->)|subst c']; reflexivity. }
    rewrite I1 in HX. destruct (DW _ _ _ D HX) as [X|(rp & rk & n & a & pt & (RW & _) & XP & XK)]; [auto|].
    right; right.
    assert (ER' : exists r, get_record (c_inter c) (k_token k) = Ok r /\ (rp, rk) = (i_piv r, i_kid r)).
    { apply type_response in RQ as [T|T]; rewrite T in RW; cbn [read_wrapper] in RW;
        apply bind_ok in RW as (y & G & RW); exists y; (split; [exact G|congruence]). }
    destruct ER' as (y & G & EP). injection EP as -> ->. exists y. apply get_record_held in G; [|assumption]. tauto.
Qed.
End Tables.
