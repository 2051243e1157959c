(** Property C75: calls of coap2oscore on different contexts that run at the same time.
    The steps of ssn2piv and its static array are in Model_Threads.v, vocabulary in
    Spec_Threads.v. *)
From Verif Require Import Base Proof_Base Model_Common Model_Crypto Model_OscorePrims Spec_OscorePrims Proof_OscorePrims
  Model_Coap Spec_Coap Proof_Coap Model_Interactions Model_Context Spec_Options Model_Send Model_Recv Model_Run Spec_Interactions Proof_Interactions
  Proof_Send Proof_Recv Proof_Run Spec_Session Proof_Session Proof_Nonce Proof_Wire Spec_RoundTrip Proof_RoundTrip Spec_UriPath Spec_Protect Proof_Protect Spec_EdhocRun
  Model_Threads Spec_Threads Proof_Threads Model_Toy Proof_Toy Model_ToyRun Prop_RoundTrip Prop_EdhocRun Prop_Protect.

(** A call whose conversion of the number is not disturbed by another one, before, after
    or between any other calls: it does what Model_Send.v says. *)
Theorem C75_undisturbed_partial :
  forall (cr : crypto) (nw : N -> res unit) (tmp : tmp_array) (numbers : list N) (sched : list nat) (i : nat)
    (c : ctx) (input buf : bytes) (r : res bytes),
  nth_error numbers i = Some (c_ssn c) -> undisturbed sched i -> returned tmp numbers sched i = Some r ->
  coap2oscore_with cr nw r c input buf = coap2oscore cr nw c input buf.
Proof.
  intros cr nw tmp numbers sched i c input buf r EN U E. rewrite (undisturbed_right _ _ _ _ _ _ EN U E). apply with_own_result.
Qed.
Print Assumptions C75_undisturbed_partial.

(** Whatever the others do, every call returns after twelve turns. *)
Theorem C75_returns :
  forall (tmp : tmp_array) (numbers : list N) (sched : list nat) (i : nat),
  (i < length numbers)%nat -> (12 <= turns_of sched i)%nat -> exists r, returned tmp numbers sched i = Some r.
Proof.
  intros tmp numbers sched i LI LT. destruct (nth_error numbers i) as [n|] eqn:EN; [|apply nth_error_None in EN; lia].
  destruct (turns sched tmp (map at_start numbers)) as [m sts] eqn:ET.
  destruct (turns_progress i sched tmp _ m sts (at_start n) (map_nth_error at_start i numbers EN)) as (st & ES & L); [|exact ET|].
  - unfold at_start. destruct (_ <? _); cbn; lia.
  - unfold returned. rewrite ET. cbn [snd]. rewrite ES.
    assert (left_over (at_start n) <= 12)%nat by (unfold at_start; destruct (_ <? _); cbn; lia).
    destruct st as [rest len|len pos out|r]; [| |eauto]; cbn [left_over] in L; [|lia].
    exfalso. destruct (turns_progress i sched tmp (map at_start numbers) m sts (at_start n) (map_nth_error at_start i numbers EN)) as (st' & ES' & L'); [|exact ET|].
    { unfold at_start. destruct (_ <? _); cbn; lia. }
    clear L'. enough (W : within (Digits rest len)) by (cbn in W; lia).
    clear - ET ES. assert (F : Forall within (map at_start numbers)).
    { apply Forall_forall. intros x Hx. apply in_map_iff in Hx as (y & <- & _). unfold at_start. destruct (_ <? _); cbn; lia. }
    revert tmp F ET. generalize (map at_start numbers) as l. induction sched as [|j s IH]; intros l tmp F ET; cbn [turns] in ET.
    + injection ET as <- <-. rewrite Forall_forall in F. apply F. apply nth_error_In in ES. exact ES.
    + destruct (nth_error l j) as [sj|] eqn:EJ; [|apply (IH _ _ F ET)]. destruct (one_step tmp sj) as [m1 s1] eqn:E1.
      apply (IH _ _) in ET; [exact ET|]. apply Forall_forall. intros x Hx. apply In_nth_error in Hx as (q & Hq).
      rewrite Forall_forall in F. destruct (Nat.eq_dec j q) as [->|NE].
      * rewrite set_nth_same in Hq by (apply nth_error_Some; congruence). injection Hq as <-.
        apply (step_progress tmp sj m1 s1 (F _ (nth_error_In _ _ EJ)) E1).
      * rewrite set_nth_other in Hq by exact NE. apply F. apply nth_error_In in Hq. exact Hq.
Qed.
Print Assumptions C75_returns.

(** With any number of calls and any schedule: the Partial IV is as long as it has to be,
    nothing outside of the array is touched, and each of its bytes is the byte of the same
    weight of the number of one of the calls. *)
Theorem C75_mixture_partial :
  forall (tmp : tmp_array) (numbers : list N) (sched : list nat) (i : nat) (n : N) (r : res bytes),
  nth_error numbers i = Some n -> returned tmp numbers sched i = Some r ->
  if n <? 2 ^ 40 then exists out own, r = Ok out /\ ssn2piv n = Ok own /\ length out = length own /\
    (n = 0 -> out = own) /\
    (n <> 0 -> forall j, (j < length out)%nat ->
      exists n', In n' numbers /\ has_byte n' j /\ nth j (rev out) 0 = byte_of n' j)
  else r = Err wrong_parameter.
Proof.
  intros tmp numbers sched i n r EN E. destruct (returned_inv tmp numbers sched i n r EN E) as (m & V). unfold inv in V.
  destruct (N.ltb_spec n (2 ^ 40)) as [L|L]; [|congruence].
  destruct V as (out & -> & V). destruct (digits_of n L) as (l & ED & Z & _). exists out. eexists. split; [reflexivity|].
  split; [apply (ssn2piv_digits n l L ED)|]. destruct (N.eqb_spec n 0) as [Z0|Z0].
  - subst out. apply Z in Z0 as ->. split; [reflexivity|]. split; [reflexivity|]. intros X. destruct X. apply Z. reflexivity.
  - destruct V as (NL & V). assert (NL0 : l <> []) by (intros X; apply Z in X; contradiction).
    assert (LL : length out = length l).
    { assert (KL : forall j, (j < length l)%nat <-> has_byte n j).
      { clear - ED. unfold has_byte. revert n l ED. generalize 5%nat as room. induction room as [|room IH]; intros n l H j; cbn [ssn_digits] in H; pose proof (pow_pos j).
        - destruct (N.ltb_spec 0 n); [discriminate|]. injection H as <-. cbn. lia.
        - destruct (N.ltb_spec 0 n); [|injection H as <-; cbn; lia]. apply bind_ok in H as (t & H & E). injection E as <-. cbn [length].
          destruct j as [|j]; [change (N.of_nat 0) with 0; rewrite N.pow_0_r; lia|].
          rewrite pow_S, <- Nat.succ_lt_mono, (IH _ _ H j). pose proof (pow_pos j). split; intros X.
          + pose proof (N.mul_div_le n 256 ltac:(discriminate)). nia.
          + apply N.div_le_lower_bound; [discriminate|exact X]. }
      destruct (Nat.lt_trichotomy (length out) (length l)) as [X|[X|X]]; [|exact X|].
      - apply KL in X. unfold has_byte in X. lia.
      - destruct (V _ X) as [B _]. apply KL in B. lia. }
    split; [rewrite LL; destruct l; [congruence|rewrite rev_length; reflexivity]|]. split; [intros X; contradiction|]. intros _ j J.
    destruct (V j J) as [_ (n' & I & _ & B & Q)]. eauto.
Qed.
Print Assumptions C75_mixture_partial.

(** It can be the number of the other call: for every two numbers of the same width there
    is a schedule after which both calls have the Partial IV of the second, and what the
    first call sends is the message that belongs to the other number. *)
Theorem C75_wrong_number_refuted :
  forall (cr : crypto) (nw : N -> res unit) (tmp : tmp_array) (c : ctx) (other : N) (input buf : bytes),
  0 < c_ssn c -> c_ssn c < OSCORE_SSN_OVERFLOW_VALUE -> other < OSCORE_SSN_OVERFLOW_VALUE -> same_width (c_ssn c) other ->
  c_fresh c = true \/ (forall v, nw v = Ok tt) ->
  exists sched r, returned tmp [c_ssn c; other] sched 0 = Some r /\ returned tmp [c_ssn c; other] sched 1 = Some r /\
    let '(s, b, x) := coap2oscore_with cr nw r c input buf in
    let '(s', b', x') := coap2oscore cr nw (set_ssn c other) input buf in
    b = b' /\ x = x' /\ s_enc s = s_enc s'.
Proof.
  unfold OSCORE_SSN_OVERFLOW_VALUE. intros cr nw tmp c other input buf P L1 L2 SW F.
  destruct (swapped tmp (c_ssn c) other P ltac:(change (2 ^ 40) with 1099511627776; lia) ltac:(change (2 ^ 40) with 1099511627776; lia) SW) as (sched & R0 & R1).
  exists sched, (ssn2piv other). split; [exact R0|]. split; [exact R1|].
  pose proof (send_as_if cr nw c input buf other L1 L2 F) as X.
  destruct (coap2oscore_with cr nw (ssn2piv other) c input buf) as [[s b] x], (coap2oscore cr nw (set_ssn c other) input buf) as [[s' b'] x'].
  destruct X as (X1 & X2 & X3 & _). auto.
Qed.
Print Assumptions C75_wrong_number_refuted.

(** So nonces are used twice with the same key: if the other call is one number ahead,
    the first call succeeds with the nonce that the next call on its own context will
    use, although that one is not disturbed. *)
Theorem C75_nonce_refuted :
  forall (cr : crypto) (nw : N -> res unit) (tmp : tmp_array) (c : ctx) (m : message) (input buf : bytes),
  crypto_ok cr -> aead_total cr -> reachable cr c ->
  rfc_message m input -> supported m input -> is_bytes input -> 0 < m_code m < 32 -> growth m = 0 ->
  may_request nw c m -> fits m (request_olen c) (lenN buf) -> lenN buf < 2 ^ 32 ->
  0 < c_ssn c -> c_ssn c + 1 < OSCORE_SSN_OVERFLOW_VALUE -> same_width (c_ssn c) (c_ssn c + 1) ->
  exists sched r s wire n nonce aad pt,
    returned tmp [c_ssn c; c_ssn c + 1] sched 0 = Some r /\ returned tmp [c_ssn c; c_ssn c + 1] sched 1 = Some r /\
    coap2oscore_with cr nw r c input buf = (s, wire, Ok n) /\ s_enc s = Some (nonce, aad, pt) /\
    c_ssn (s_ctx s) = c_ssn c + 1 /\ c_skey (s_ctx s) = c_skey c /\
    forall nw' input' buf' s' wire' x nonce' aad' pt',
      coap2oscore cr nw' (s_ctx s) input' buf' = (s', wire', x) -> s_enc s' = Some (nonce', aad', pt') ->
      ~ plain_response (s_ctx s) input' -> nonce' = nonce.
Proof.
  intros cr nw tmp c m input buf OK AT HC HM SUP HB CO GR MR FI LB P LO SW.
  destruct (reachable_both cr c OK HC) as [UC KC]. set (n2 := c_ssn c + 1) in *.
  assert (L1 : c_ssn c < OSCORE_SSN_OVERFLOW_VALUE) by lia.
  destruct (swapped tmp (c_ssn c) n2 P ltac:(unfold OSCORE_SSN_OVERFLOW_VALUE in *; change (2 ^ 40) with 1099511627776; lia)
    ltac:(unfold OSCORE_SSN_OVERFLOW_VALUE in *; change (2 ^ 40) with 1099511627776; lia) SW) as (sched & R0 & R1).
  assert (PL : piv_len n2 = piv_len (c_ssn c)).
  { pose proof (SW 1%nat) as S1. pose proof (SW 2%nat) as S2. unfold has_byte in S1, S2.
    change (256 ^ N.of_nat 1) with 256 in S1. change (256 ^ N.of_nat 2) with 65536 in S2. unfold piv_len.
    destruct (N.ltb_spec n2 256), (N.ltb_spec (c_ssn c) 256), (N.ltb_spec n2 65536), (N.ltb_spec (c_ssn c) 65536); try reflexivity; exfalso; lia. }
  destruct MR as ((M1 & F & M3) & M4 & M5 & M6).
  assert (MR' : may_request nw (set_ssn c n2) m).
  { split; [split; [exact LO|split; [exact F|cbn [set_ssn c_ssn c_sid c_id_context]; rewrite PL; exact M3]]|].
    split; [exact M4|]. split; [cbn [set_ssn c_ssn c_sid]; rewrite PL; exact M5|exact M6]. }
  assert (FI' : fits m (request_olen (set_ssn c n2)) (lenN buf)).
  { replace (request_olen (set_ssn c n2)) with (request_olen c); [exact FI|]. unfold request_olen. cbn [set_ssn c_ssn c_sid c_id_context]. rewrite PL. reflexivity. }
  destruct (request_total cr OK AT nw (set_ssn c n2) m input buf UC KC HM SUP HB CO MR' FI' LB) as (_ & RT).
  destruct (RT GR) as (s' & wire & n & HS).
  pose proof (send_as_if cr nw c input buf n2 L1 LO F) as X. rewrite HS in X.
  destruct (coap2oscore_with cr nw (ssn2piv n2) c input buf) as [[s b] x] eqn:EW. destruct X as (-> & -> & X3 & (y & X4) & X5).
  destruct (coap_parse_rfc m input HM (proj1 SUP)) as (k & EK & EM & _ & _).
  assert (ECD : h_code (k_hdr k) = m_code m) by (rewrite <- EM; reflexivity).
  assert (RQ : is_request k = true) by (rewrite is_request_code, ECD; apply N.ltb_lt; lia).
  assert (NEW : forall c0, uses_new_piv c0 k = true).
  { intros c0. unfold uses_new_piv, needs_new_piv. destruct (type_request k RQ) as [-> | [-> | ->]]; reflexivity. }
  assert (EX : exec cr (set_ssn c n2) (ASend nw input buf) = (s_ctx s', {| ob_enc := s_enc s'; ob_nvm := s_nvm s'; ob_buf := wire; ob_res := Ok n |}))
    by (unfold exec; rewrite HS; reflexivity).
  assert (LIN : lenN input < 2 ^ 32). { destruct SUP as ((_ & _ & _ & _ & L) & _). change (2 ^ 32) with 4294967296. change (2 ^ 16) with 65536 in L. lia. }
  assert (SE : exists nonce aad pt, s_enc s' = Some (nonce, aad, pt)).
  { destruct (send_result cr nw (set_ssn c n2) input k buf s' wire n OK HB LIN LB EK HS) as (_ & [((_ & Z) & _)|(_ & w & W & _)]); [lia|].
    destruct W as (e & u & elen & pt & ct & opt & nonce & aad & piv & kid & kctx & rpiv & rkid & out & _ & _ & _ & _ & _ & _ & _ & _ & SE & _). eauto. }
  destruct SE as (nonce & aad & pt & SE).
  destruct (send_nonce cr nw (set_ssn c n2) input buf _ _ nonce aad pt EX SE) as [(_ & _ & _ & piv & PV & NN)|(PR & _)].
  2:{ apply (plain_spec (set_ssn c n2) input k EK) in PR. rewrite NEW in PR. discriminate. }
  pose proof EX as KX. apply exec_keys in KX as [(K1 & K2 & K3 & K4 & K5 & K6 & K7 & K8) _].
  assert (CS : c_ssn (s_ctx s) = n2).
  { rewrite (X5 n k eq_refl) by (rewrite ?X3, ?SE; try discriminate; auto). unfold u64, n2, OSCORE_SSN_OVERFLOW_VALUE in *. apply N.mod_small. change (2 ^ 64) with 18446744073709551616. lia. }
  rewrite X4 in K1, K2, K3, K4, K5, K6, K7, K8. cbn [set_ssn c_alg c_id_context c_iv c_fresh c_sid c_skey c_rid c_rkey] in *.
  exists sched, (ssn2piv n2), s, wire, n, nonce, aad, pt. split; [exact R0|]. split; [exact R1|]. split; [exact EW|]. split; [congruence|].
  split; [exact CS|]. split; [congruence|]. intros nw' input' buf' t wire' x nonce' aad' pt' HS' SE' NP.
  assert (EX' : exec cr (s_ctx s) (ASend nw' input' buf') = (s_ctx t, {| ob_enc := s_enc t; ob_nvm := s_nvm t; ob_buf := wire'; ob_res := x |}))
    by (unfold exec; rewrite HS'; reflexivity).
  destruct (send_nonce cr nw' (s_ctx s) input' buf' _ _ nonce' aad' pt' EX' SE') as [(_ & _ & _ & piv' & PV' & NN')|(PR & _)]; [|contradiction].
  rewrite CS in PV'. cbn [set_ssn c_ssn] in PV. rewrite PV in PV'. injection PV' as <-. cbn [set_ssn c_sid c_iv] in NN. congruence.
Qed.
Print Assumptions C75_nonce_refuted.

(** Client and server of two exchanges: two threads, each with its own context, numbers 1
    and 2. The first thread's two messages have different plaintexts and the same nonce. *)
Definition toy_at (n : N) : ctx := set_ssn toy_client n.
Definition toy_sched : list nat := [0; 0; 1; 1; 0; 0; 1; 1]%nat.
Example C75_example :
  returned (fun _ => 0) [1; 2] toy_sched 0 = Some (Ok [2]) /\ returned (fun _ => 0) [1; 2] toy_sched 1 = Some (Ok [2]) /\
  (* three calls, one of them with a mixture *)
  returned (fun _ => 0) [0x0102; 0x0304; 0x05] [0; 0; 0; 2; 0; 1; 0; 0]%nat 0 = Some (Ok [1; 4]) /\
  undisturbed (repeat 1%nat 4 ++ repeat 0%nat 4) 0 /\ returned (fun _ => 0) [1; 2] (repeat 1%nat 4 ++ repeat 0%nat 4) 0 = Some (Ok [1]) /\
  same_width 1 2 /\
  (let '(s, w, r) := coap2oscore_with toy_crypto toy_nw (Ok [2]) (toy_at 1) (toy_get 5) toy_out in
   let '(s', w', r') := coap2oscore toy_crypto toy_nw (s_ctx s) toy_post toy_out in
   exists nonce aad pt aad' pt', s_enc s = Some (nonce, aad, pt) /\ s_enc s' = Some (nonce, aad', pt') /\ pt <> pt' /\
     c_skey (s_ctx s') = c_skey (toy_at 1)).
Proof.
  do 3 (split; [vm_compute; reflexivity|]).
  split; [exists (repeat 1%nat 4), 4%nat, []; split; [reflexivity|]; split; cbn; intuition discriminate|].
  split; [vm_compute; reflexivity|]. split.
  { intros j. unfold has_byte. destruct j as [|j]; [change (256 ^ N.of_nat 0) with 1; lia|]. rewrite pow_S. pose proof (pow_pos j). lia. }
  vm_compute. do 5 eexists. split; [reflexivity|]. split; [reflexivity|]. split; [discriminate|reflexivity].
Qed.
