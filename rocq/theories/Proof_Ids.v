(** Lemmas for C67: how long identifiers may be. *)
From Verif Require Import Base Proof_Base Model_Common Model_Crypto Model_Cbor Proof_Cbor Model_OscorePrims Proof_OscorePrims Model_Coap Spec_Coap Proof_Coap
  Model_Interactions Model_Replay Model_Context Model_Send Model_Recv Model_Run Spec_Interactions Proof_Interactions Proof_Send Proof_Recv Proof_Run Proof_Session
  Spec_RoundTrip Proof_RoundTrip Spec_OuterCode Spec_Safe Proof_Safe Spec_Protect Proof_Protect.

Lemma ok_inj A (a b : A) : Ok a = Ok b -> b = a.
Proof. congruence. Qed.
Lemma aad_len kid piv cap aad : create_aad 10 kid piv cap = Ok aad -> 7 + lenN kid + lenN piv <= lenN aad.
Proof.
  unfold create_aad, cbor_put. destruct (_ <=? _); [|discriminate]. intros E. apply ok_inj in E. rewrite E.
  rewrite !lenN_app, !enc_bstr_len. change (lenN (enc_list 5)) with 1. change (lenN (enc_uint 1)) with 1. change (lenN (enc_list 1)) with 1. change (lenN (enc_int 10)) with 1.
  rewrite lenN_nil. change (head_len 0) with 1.
  assert (Q : forall n, 1 <= head_len n) by (intros n; unfold head_len; repeat destruct (_ <? _); lia).
  pose proof (Q (lenN kid)). pose proof (Q (lenN piv)). lia.
Qed.
Lemma aad_cap kid piv aad : create_aad 10 kid piv MAX_AAD_LEN = Ok aad -> lenN aad <= 30.
Proof. unfold create_aad, cbor_put. destruct (N.leb_spec (lenN (enc_list 5 ++ enc_uint 1 ++ enc_list 1 ++ enc_int 10 ++ enc_bstr kid ++ enc_bstr piv ++ enc_bstr [])) MAX_AAD_LEN) as [L|L]; [|discriminate].
  intros E. apply ok_inj in E. rewrite E. exact L.
Qed.
Lemma too_long (aad : bytes) : 14 < lenN aad <= 30 -> exists e, byte_array_new MAX_AAD_LEN (u32 (lenN aad + ENCRYPT0_ENCODING_OVERHEAD)) = Err e.
Proof.
  intros H. unfold byte_array_new, check_buffer_size, ENCRYPT0_ENCODING_OVERHEAD, u32, MAX_AAD_LEN. change (2 ^ 32) with 4294967296.
  rewrite N.mod_small by lia. destruct (N.ltb_spec 30 (lenN aad + 16)); [eauto|lia].
Qed.
Lemma seal_fails cr kid piv aad pt nonce key : 7 < lenN kid + lenN piv -> create_aad 10 kid piv MAX_AAD_LEN = Ok aad ->
  exists e, oscore_cose_encrypt cr pt nonce aad key = Err e.
Proof.
  intros L E. pose proof (aad_len _ _ _ _ E). pose proof (aad_cap _ _ _ E). destruct (too_long aad) as (e & B); [lia|].
  unfold oscore_cose_encrypt. rewrite B. cbn [bind]. eauto.
Qed.
Lemma open_fails cr kid piv aad ct nonce key : 7 < lenN kid + lenN piv -> create_aad 10 kid piv MAX_AAD_LEN = Ok aad ->
  exists e, oscore_cose_decrypt cr ct nonce aad key = Err e.
Proof.
  intros L E. pose proof (aad_len _ _ _ _ E). pose proof (aad_cap _ _ _ E). destruct (too_long aad) as (e & B); [lia|].
  unfold oscore_cose_decrypt. rewrite B. cbn [bind]. eauto.
Qed.

Lemma request_code bs k : is_request_message bs -> coap_deserialize bs = Ok k -> is_request k = true /\ h_code (k_hdr k) <> 0.
Proof.
  intros (b & E & L) H. assert (C : h_code (k_hdr k) = b).
  { unfold coap_deserialize in H. destruct (_ <? _) in H; [discriminate|]. apply bind_ok in H as (b0 & _ & H). apply bind_ok in H as (b1 & R & H).
    assert (b1 = b) as -> by (destruct bs as [|x [|y bs]]; try discriminate; injection E as ->; change (rd (x :: b :: bs) 1) with (@Ok N b) in R; congruence).
    apply bind_ok in H as (b2 & _ & H). apply bind_ok in H as (b3 & _ & H). cbv zeta in H.
    destruct (_ <? _) in H; [discriminate|]. destruct (_ <? _) in H; [discriminate|]. apply bind_ok in H as ([o p] & _ & H). injection H as <-. reflexivity. }
  unfold is_request. rewrite C. split; [|lia]. apply N.eqb_eq. apply N.div_small. lia.
Qed.
Lemma request_reads k t p : is_request k = true -> read_wrapper (coap_get_message_type k) (k_token k) t (Some p) = Ok p.
Proof.
  intros R. unfold coap_get_message_type. rewrite R. destruct (get_observe_value (k_opts k)) as [[|v [|w l]]|]; try reflexivity.
  destruct (v =? 0); [reflexivity|]. destruct (v =? 1); reflexivity.
Qed.
Lemma request_new k e : is_request k = true -> needs_new_piv (coap_get_message_type k) e = true.
Proof.
  intros R. unfold coap_get_message_type. rewrite R. destruct (get_observe_value (k_opts k)) as [[|v [|w l]]|]; try reflexivity.
  destruct (v =? 0); [reflexivity|]. destruct (v =? 1); reflexivity.
Qed.

Lemma piv_len_mono a b : a <= b -> piv_len a <= piv_len b.
Proof. intros L. unfold piv_len. destruct (N.ltb_spec a 256), (N.ltb_spec b 256), (N.ltb_spec a 65536), (N.ltb_spec b 65536); lia. Qed.

Lemma not_ok A B (z : res A) (r : res B) : same_failure z r -> is_ok r = false.
Proof. destruct z, r; intros []; reflexivity. Qed.

(** A request with too long identifiers. *)
Lemma long_encrypt cr nw s pt k s' r : c_alg (s_ctx s) = 10%Z -> c_ssn (s_ctx s) < OSCORE_SSN_OVERFLOW_VALUE -> s_enc s = None ->
  7 < lenN (c_sid (s_ctx s)) + piv_len (c_ssn (s_ctx s)) -> is_request k = true ->
  encrypt_wrapper cr nw s pt k = (s', r) -> s_enc s' = None /\ is_ok r = false.
Proof.
  intros AL SL SE LONG RQ H. unfold encrypt_wrapper in H. rewrite (request_new _ _ RQ) in H.
  apply callc_inv in H as [(s1 & x & HX & H)|[HX G]].
  2:{ split; [|eapply not_ok; exact G]. destruct (tryc s (ssn2piv (c_ssn (s_ctx s))) _) as [s1 r1] eqn:T in HX. cbn [fst] in HX. subst s1.
    apply tryc_inv in T as [(piv & EP & T)|[-> _]]; [|exact SE].
    apply callc_inv in T as [(s1 & u & HG & T)|[HG _]].
    - apply generate_new_ssn_spec in HG as [_ G2]. apply tryc_inv in T as [(n & _ & T)|[-> _]]; [injection T as <- <-|]; congruence.
    - destruct (generate_new_ssn nw s) as [s1 r2] eqn:HG'. cbn [fst] in HG. subst s1. apply generate_new_ssn_spec in HG' as [_ G2]. congruence. }
  destruct x as [[[nonce piv] kid] kctx].
  apply tryc_ok in HX as (p & EP & HX). apply callc_ok in HX as (s2 & [] & HG & HX).
  apply generate_new_ssn_spec in HG as [G1 G2]. apply tryc_ok in HX as (n & EN & HX). injection HX as <- <- <- <- <-.
  destruct (piv_len_spec _ _ SL EP) as [PL _].
  apply tryc_inv in H as [(opt & _ & H)|[-> G]]; [|split; [congruence|eapply not_ok; exact G]].
  rewrite (request_reads _ _ _ RQ) in H. cbn [tryc] in H.
  apply tryc_inv in H as [(aad & EA & H)|[-> G]]; [|split; [congruence|eapply not_ok; exact G]].
  rewrite G1 in EA. cbn [set_ssn c_alg c_sid] in EA. rewrite AL in EA.
  destruct (seal_fails cr (c_sid (s_ctx s)) p aad pt n (c_skey (s_ctx s2)) ltac:(rewrite PL; exact LONG) EA) as (e & EE). rewrite EE in H. cbn [tryc] in H.
  injection H as <- <-. split; [congruence|reflexivity].
Qed.

Definition long_ids (c : ctx) : Prop := c_alg c = 10%Z /\ 7 < lenN (c_sid c) + piv_len (c_ssn c).

Lemma long_core cr nw c input s r : long_ids c -> is_request_message input -> coap2oscore_core cr nw c input = (s, r) ->
  s_enc s = None /\ is_ok r = false.
Proof.
  intros [AL LONG] RQ C. unfold coap2oscore_core in C.
  apply tryc_inv in C as [([] & FR & C)|[-> G]]; [|split; [reflexivity|eapply not_ok; exact G]].
  unfold check_context_freshness in FR. destruct (N.leb_spec OSCORE_SSN_OVERFLOW_VALUE (c_ssn c)) as [|SL]; [discriminate|].
  apply tryc_inv in C as [(k & EK & C)|[-> G]]; [|split; [reflexivity|eapply not_ok; exact G]].
  destruct (request_code _ _ RQ EK) as [IR CZ].
  replace (h_code (k_hdr k) =? 0) with false in C by (symmetry; apply N.eqb_neq; exact CZ). rewrite andb_false_r in C.
  apply tryc_inv in C as [([[e u] elen] & ES & C)|[-> G]]; [|split; [reflexivity|eapply not_ok; exact G]].
  apply tryc_inv in C as [([] & _ & C)|[-> G]]; [|split; [reflexivity|eapply not_ok; exact G]].
  apply tryc_inv in C as [(pt & _ & C)|[-> G]]; [|split; [reflexivity|eapply not_ok; exact G]].
  apply tryc_inv in C as [([] & _ & C)|[-> G]]; [|split; [reflexivity|eapply not_ok; exact G]].
  change (match c_echo c with ECHO_VERIFY => _ | _ => _ end) with (echo_stage c e) in C.
  apply callc_inv in C as [(s1 & [] & E1 & C)|[E1 G]].
  2:{ destruct (echo_stage c e) as [s1 r1] eqn:E. cbn [fst] in E1. subst s1. apply echo_stage_spec in E as (E & _).
      split; [exact E|eapply not_ok; exact G]. }
  apply echo_stage_spec in E1 as (SE & _ & SC).
  assert (X : c_alg (s_ctx s1) = c_alg c /\ c_ssn (s_ctx s1) = c_ssn c /\ c_sid (s_ctx s1) = c_sid c).
  { destruct SC as [->|(b & n & _ & _ & ->)]; repeat split; reflexivity. }
  destruct X as (X1 & X2 & X3).
  apply callc_inv in C as [(s2 & [ct opt] & EW & C)|[EW G]].
  - apply long_encrypt in EW as [_ F]; [discriminate|congruence..|rewrite X2; exact SL|exact SE|rewrite X2, X3; exact LONG|exact IR].
  - destruct (encrypt_wrapper cr nw s1 pt k) as [s2 r2] eqn:EE. cbn [fst] in EW. subst s2.
    apply long_encrypt in EE as [F _]; [|congruence..|rewrite X2; exact SL|exact SE|rewrite X2, X3; exact LONG|exact IR].
    split; [exact F|eapply not_ok; exact G].
Qed.

Lemma long_send cr nw c input buf s b r : long_ids c -> is_request_message input -> coap2oscore cr nw c input buf = (s, b, r) ->
  b = buf /\ s_enc s = None /\ is_ok r = false.
Proof.
  intros LONG RQ H. unfold coap2oscore in H. destruct (coap2oscore_core cr nw c input) as [s1 r1] eqn:C.
  destruct (long_core _ _ _ _ _ _ LONG RQ C) as [E F]. destruct r1 as [x|e|u]; [discriminate|injection H as <- <- <-; auto..].
Qed.

Lemma long_exec cr c a c' o : long_ids c -> exec cr c a = (c', o) -> long_ids c'.
Proof.
  intros [AL LONG] H. pose proof (exec_keys cr c a c' o H) as ((K1 & _ & _ & _ & K5 & _) & _).
  assert (M : c_ssn c <= c_ssn c').
  { destruct a as [nw input buf|input buf].
    - apply exec_send in H as (s & r & H & -> & _).
      destruct (N.leb_spec OSCORE_SSN_OVERFLOW_VALUE (c_ssn c)) as [B|B].
      + unfold coap2oscore_core, check_context_freshness in H. destruct (N.leb_spec OSCORE_SSN_OVERFLOW_VALUE (c_ssn c)); [|lia].
        cbn [tryc] in H. injection H as <- <-. cbn. lia.
      + apply core_effect in H as (_ & _ & SE & _). unfold send_effect in SE.
        assert (W : u64 (c_ssn c + 1) = c_ssn c + 1).
        { unfold u64. apply N.mod_small. unfold OSCORE_SSN_OVERFLOW_VALUE in B. change (2 ^ 64) with 18446744073709551616. lia. }
        destruct (s_enc s) as [[[? ?] ?]|]; [destruct (msg_uses_new_piv c input)|];
          repeat match goal with X : _ /\ _ |- _ => destruct X | X : _ \/ _ |- _ => destruct X end; lia.
    - apply exec_recv in H as (_ & _ & r & H & _). apply recv_core_effect in H as ((_ & E & _) & _). lia. }
  unfold long_ids. pose proof (piv_len_mono _ _ M). rewrite K1, K5. split; [exact AL|lia].
Qed.

(** Receiving such a request. *)
Lemma long_receive cr c bs buf opts payload v piv kid c' b r : c_alg c = 10%Z ->
  packet bs opts payload -> is_request_message bs -> (forall w, In (9, w) opts -> w = v) -> osc_value v piv kid -> is_bytes v ->
  7 < lenN kid + lenN piv -> oscore2coap cr c bs buf = (c', b, r) -> c' = c /\ b = buf /\ is_ok r = false.
Proof.
  intros AL PK RQ ONE OV BV LONG H.
  enough (X : fst (oscore2coap_core cr c bs) = c /\ is_ok (snd (oscore2coap_core cr c bs)) = false).
  { unfold oscore2coap in H. destruct (oscore2coap_core cr c bs) as [c1 r1]. cbn [fst snd] in X. destruct X as [-> F].
    destruct r1; [discriminate|injection H as <- <- <-; auto..]. }
  clear H. destruct (oscore2coap_core cr c bs) as [c1 r1] eqn:C. cbn [fst snd].
  apply recv_core_inv in C as [C|(k & o & _ & EK & EO & C)]; [exact C|].
  destruct (request_code _ _ RQ EK) as [IR _]. rewrite IR in C.
  destruct (received_parse bs opts payload PK) as [(k' & EK' & EOP & _)|(e & EE)]; [|congruence].
  assert (k' = k) as -> by congruence.
  destruct (osc_parser (k_opts k)) as [(e & EE)|(o' & w & piv' & kid' & EO' & IN & OV' & P1 & P2 & P3 & P4 & P5)]; [|congruence|].
  { rewrite EOP. intros w IN. rewrite (ONE w IN). split; [right; eauto|exact BV]. }
  assert (o' = o) as -> by congruence. rewrite EOP in IN. apply ONE in IN. subst w.
  assert (piv' = piv /\ kid' = kid) as [-> ->].
  { destruct (osc_parse _ _ _ [] OV BV) as (x1 & X1 & A1 & A2 & _ & A4 & _). destruct (osc_parse _ _ _ [] OV' BV) as (x2 & X2 & B1 & B2 & _ & B4 & _).
    assert (x2 = x1) as -> by congruence. split; congruence. }
  apply recv_request_inv in C as [C|(ssn & rd & _ & _ & _ & _ & c2 & ED & C)]; [exact C|].
  assert (F : c2 = c /\ is_ok rd = false).
  { unfold decrypt_wrapper in ED. rewrite (request_reads _ _ _ IR) in ED. cbn [tryc] in ED. rewrite P1, P5 in ED.
    apply tryc_inv in ED as [(nonce & _ & ED)|[-> G]]; [|split; [reflexivity|eapply not_ok; exact G]].
    apply tryc_inv in ED as [(aad & EA & ED)|[-> G]]; [|split; [reflexivity|eapply not_ok; exact G]].
    rewrite AL in EA. destruct (open_fails cr _ _ _ (k_payload k) nonce (c_rkey c) LONG EA) as (e & EE). rewrite EE in ED. cbn [tryc] in ED.
    injection ED as <- <-. split; reflexivity. }
  destruct F as [-> F]. destruct C as [(_ & -> & G)|(pt & out & -> & _)]; [split; [reflexivity|exact G]|discriminate].
Qed.
