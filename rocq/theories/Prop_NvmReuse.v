(** C09: which numbers are used again after a restart. *)
From Verif Require Import Base Proof_Base Model_Common Model_Crypto Model_OscorePrims Model_Coap Model_Context
  Model_Send Model_Recv Model_Run Proof_Send Proof_Recv Proof_Run Proof_Session Proof_Nonce Spec_Session Spec_Nvm Proof_Nvm
  Model_Toy Proof_Toy Model_ToyRun Prop_Channel Prop_Echo Prop_Nonce Prop_Nvm.

(** The call protects a message with a nonce made from a sequence number of its own. *)
Definition protects (cr : crypto) (c : ctx) (nw : N -> res unit) (input buf nonce : bytes) : Prop :=
  ~ plain_response c input /\ exists a p, ob_enc (snd (exec cr c (ASend nw input buf))) = Some (nonce, a, p).
(** Only messages received. *)
Definition receives (l : list api_call) : Prop := Forall (fun a => exists input buf, a = ARecv input buf) l.

Lemma receives_ssn cr l : receives l -> forall c, c_ssn (fst (run cr c l)) = c_ssn c.
Proof.
  intros F. induction F as [|a l (i & b & ->) F IH]; intros c; [reflexivity|]. cbn [run].
  destruct (exec cr c (ARecv i b)) as [c1 o] eqn:E.
  assert (S : c_ssn c1 = c_ssn c).
  { apply exec_recv in E as (_ & _ & r & C & _). apply recv_core_effect in C as ((_ & N & _) & _). exact N. }
  destruct (is_ub (ob_res o)); [exact S|]. specialize (IH c1). destruct (run cr c1 l) as [c2 os]. cbn [fst] in *. congruence.
Qed.
Lemma receives_memory cr l : receives l -> forall v c, memory v l (snd (run cr c l)) = v.
Proof.
  intros F. induction F as [|a l (i & b & ->) F IH]; intros v c; [reflexivity|]. cbn [run].
  destruct (exec cr c (ARecv i b)) as [c1 o]. destruct (is_ub (ob_res o)).
  - cbn [snd memory]. destruct l as [|[nw i' b'|i' b'] l]; reflexivity.
  - specialize (IH v c1). destruct (run cr c1 l) as [c2 os]. exact IH.
Qed.
Lemma receives_then cr l a : receives l -> forall v c, Forall (fun o => is_ub (ob_res o) = false) (snd (run cr c l)) ->
  memory v (l ++ [a]) (snd (run cr c (l ++ [a]))) = memory v [a] [snd (exec cr (fst (run cr c l)) a)].
Proof.
  intros F. induction F as [|x l (i & b & ->) F IH]; intros v c NU.
  - cbn [app run fst]. destruct (exec cr c a) as [c1 o]. destruct (is_ub _); reflexivity.
  - cbn [app run] in *. destruct (exec cr c (ARecv i b)) as [c1 o].
    destruct (is_ub (ob_res o)) eqn:U; [inversion NU as [|? ? X]; cbn in X; congruence|].
    specialize (IH v c1). destruct (run cr c1 l) as [c2 os]. cbn [snd fst] in *. inversion NU; subst.
    specialize (IH ltac:(assumption)). destruct (run cr c1 (l ++ [a])) as [c3 os3]. exact IH.
Qed.

Lemma protects_nonce cr c nw input buf nonce : protects cr c nw input buf nonce ->
  exists piv, ssn2piv (c_ssn c) = Ok piv /\ create_nonce (c_sid c) piv (c_iv c) = Ok nonce.
Proof.
  intros (NP & a & p & E). destruct (exec cr c (ASend nw input buf)) as [c' o] eqn:X.
  destruct (send_nonce cr _ _ _ _ _ _ _ _ _ X E) as [(_ & _ & _ & H)|[H _]]; [exact H|contradiction].
Qed.

(** A boot in which the memory falls behind: if at its end the memory holds 20 less than a
    number that was used, by failed writes or by writes that were not due, then the first
    message of the next boot is protected with the same key and the same nonce. *)
Theorem C09_lag_refuted :
  forall (cr : crypto) (p : init_params) (v : N) (gn ge gn' ge' : bytes) (gf gf' : N) (c c' : ctx)
         (before after received : list api_call) (nw nw' : N -> res unit) (input buf input' buf' nonce nonce' : bytes),
  ip_fresh p = false -> oscore_context_init cr p (Ok v) gn ge gf = Ok c ->
  let calls := before ++ ASend nw input buf :: after in
  let left := memory v calls (snd (run cr c calls)) in
  oscore_context_init cr p (Ok left) gn' ge' gf' = Ok c' -> left + 20 < 2 ^ 64 -> receives received ->
  protects cr (fst (run cr c before)) nw input buf nonce -> c_ssn (fst (run cr c before)) = left + 20 ->
  protects cr (fst (run cr c' received)) nw' input' buf' nonce' ->
  nonce' = nonce /\ c_skey (fst (run cr c' received)) = c_skey (fst (run cr c before)).
Proof.
  intros cr p v gn ge gn' ge' gf gf' c c' before after received nw nw' input buf input' buf' nonce nonce' HF HI calls left HI' LL RE P1 EN P2.
  apply protects_nonce in P1 as (piv & E1 & E2). apply protects_nonce in P2 as (piv' & E1' & E2').
  rewrite receives_ssn in E1' by exact RE. destruct (init_numbers cr p left gn' ge' gf' c' HI' HF) as (N' & _).
  rewrite N' in E1'. unfold u64 in E1'. rewrite N.mod_small in E1' by exact LL. rewrite EN in E1. assert (piv' = piv) as -> by congruence.
  destruct (init_same cr p _ _ _ _ _ _ _ _ _ _ HI HI') as [Q1 Q2].
  destruct (run_keys cr c before) as (k1 & _ & k3 & _ & k5 & k6 & k7 & k8).
  destruct (run_keys cr c' received) as (j1 & _ & j3 & _ & j5 & j6 & j7 & j8).
  assert (SK : c_skey c' = c_skey c).
  { unfold oscore_context_init in HI, HI'. destruct (negb _) in HI, HI'; try discriminate. destruct (negb _) in HI, HI'; try discriminate.
    apply bind_ok in HI as (iv & _ & H). apply bind_ok in HI' as (iv' & _ & H').
    destruct (_ <? _) in H, H'; try discriminate.
    apply bind_ok in H as (rk & _ & H). apply bind_ok in H as (ss & _ & H). apply bind_ok in H as (sk & S1 & H).
    apply bind_ok in H' as (rk' & _ & H'). apply bind_ok in H' as (ss' & _ & H'). apply bind_ok in H' as (sk' & S2 & H').
    injection H as <-. injection H' as <-. cbn [c_skey]. congruence. }
  split; congruence.
Qed.
Print Assumptions C09_lag_refuted.

(** Without any failed write: the first message of a boot that was synchronised without
    a message of its own (C25_stale_refuted says how) is not followed by a write, except for one
    number in ten, and the first message of the next boot uses its nonce again. *)
Theorem C09_stale_echo_refuted :
  forall (cr : crypto) (p : init_params) (v : N) (gn ge gn' ge' : bytes) (gf gf' : N) (c c' : ctx)
         (received received' : list api_call) (nw nw' : N -> res unit) (input buf input' buf' nonce nonce' : bytes),
  ip_fresh p = false -> oscore_context_init cr p (Ok v) gn ge gf = Ok c -> v + 21 < 2 ^ 64 -> (v + 1) mod 10 <> 0 ->
  receives received -> Forall (fun o => is_ub (ob_res o) = false) (snd (run cr c received)) ->
  c_echo (fst (run cr c received)) = ECHO_SYNCHRONIZED ->
  let calls := received ++ [ASend nw input buf] in
  oscore_context_init cr p (Ok (memory v calls (snd (run cr c calls)))) gn' ge' gf' = Ok c' -> receives received' ->
  protects cr (fst (run cr c received)) nw input buf nonce -> protects cr (fst (run cr c' received')) nw' input' buf' nonce' ->
  nonce' = nonce /\ c_skey (fst (run cr c' received')) = c_skey (fst (run cr c received)).
Proof.
  intros cr p v gn ge gn' ge' gf gf' c c' received received' nw nw' input buf input' buf' nonce nonce' HF HI LL MO RE NU SY calls HI' RE' P1 P2.
  destruct (init_numbers cr p v gn ge gf c HI HF) as (N1 & F1 & _). unfold u64 in N1. rewrite N.mod_small in N1 by lia.
  assert (FR : c_fresh (fst (run cr c received)) = false).
  { destruct (run_keys cr c received) as (_ & _ & _ & k4 & _). rewrite <- F1. exact k4. }
  assert (LEFT : memory v calls (snd (run cr c calls)) = v).
  { unfold calls. rewrite receives_then by assumption. cbn [memory].
    destruct (exec cr (fst (run cr c received)) (ASend nw input buf)) as [c1 o] eqn:X. cbn [snd].
    apply exec_send in X as (s & r & C & _ & _ & EN). apply core_nvm in C; [|exact FR]. rewrite EN.
    destruct C as [[_ ->]|(_ & -> & _)]; [reflexivity|]. unfold syncing. rewrite SY. rewrite receives_ssn by exact RE. rewrite N1.
    unfold ssn_store_in_nvm, u64. rewrite (N.mod_small (v + 20 + 1) (2 ^ 64)) by lia. change K_SSN_NVM_STORE_INTERVAL with 10. rewrite orb_false_r.
    replace (v + 20 + 1) with (v + 1 + 2 * 10) by lia. rewrite N.mod_add by lia.
    destruct (N.eqb_spec ((v + 1) mod 10) 0); [contradiction|reflexivity]. }
  rewrite LEFT in HI'.
  refine (C09_lag_refuted cr p v gn ge gn' ge' gf gf' c c' received [] received' nw nw' input buf input' buf' nonce nonce' HF HI _ _ RE' P1 _ P2).
  - fold calls. rewrite LEFT. exact HI'.
  - fold calls. rewrite LEFT. lia.
  - fold calls. rewrite LEFT, receives_ssn by exact RE. exact N1.
Qed.
Print Assumptions C09_stale_echo_refuted.

(** C09_stale_echo_ex and C09_failed_writes_ex as instances. *)
Definition toy_fails : N -> res unit := fun _ => Err unexpected_result_from_ext_lib.
Definition toy_before_41 : list api_call :=
  [ARecv (snd (toy_send toy_client (toy_get 5))) toy_out; ASend toy_nw (toy_unauthorized 5 toy_echo) toy_out;
   ARecv (snd (toy_send toy_client (toy_get_echo 6 toy_echo))) toy_out] ++ repeat (ASend toy_fails (toy_get 7) toy_out) 20.
Definition is_request_bytes (input : bytes) : bool := match coap_deserialize input with Ok k => h_code (k_hdr k) <? 32 | _ => false end.
Lemma request_not_plain c input : is_request_bytes input = true -> ~ plain_response c input.
Proof. unfold is_request_bytes. intros E (_ & k & EK & L & _). rewrite EK in E. apply N.ltb_lt in E. lia. Qed.
Lemma protects_ex cr c nw input buf : is_request_bytes input = true ->
  (match ob_enc (snd (exec cr c (ASend nw input buf))) with Some _ => true | None => false end) = true -> exists n, protects cr c nw input buf n.
Proof.
  intros R E. destruct (ob_enc _) as [[[n a] q]|] eqn:X; [|discriminate]. exists n. split; [apply request_not_plain; exact R|eauto].
Qed.
Example C09_lag_ex :
  oscore_context_init toy_crypto (toy_params [2] [1] false) (Ok 0) (repeat 0 13) (repeat 0 12) 0 = Ok toy_rebooted /\
  (* failed writes *)
  (let calls := toy_before_41 ++ [ASend toy_fails (toy_get 7) toy_out] in
   memory 0 calls (snd (run toy_crypto toy_rebooted calls)) = 21 /\
   c_ssn (fst (run toy_crypto toy_rebooted toy_before_41)) = 41 /\
   (exists n, protects toy_crypto (fst (run toy_crypto toy_rebooted toy_before_41)) toy_fails (toy_get 7) toy_out n) /\
   exists n, protects toy_crypto (toy_init [2] [1] false 21) toy_nw (toy_get 8) toy_out n) /\
  (* a stale Echo value *)
  (let received := [ARecv toy_blind1 toy_out; ARecv toy_blind2 toy_out] in
   receives received /\ forallb (fun o => negb (is_ub (ob_res o))) (snd (run toy_crypto toy_rebooted received)) = true /\
   c_echo (fst (run toy_crypto toy_rebooted received)) = ECHO_SYNCHRONIZED /\
   (exists n, protects toy_crypto (fst (run toy_crypto toy_rebooted received)) toy_nw (toy_get 7) toy_out n) /\
   exists n, protects toy_crypto toy_rebooted toy_nw (toy_get 8) toy_out n).
Proof.
  split; [vm_compute; reflexivity|]. split.
  - cbv zeta. split; [vm_compute; reflexivity|]. split; [vm_compute; reflexivity|]. split; apply protects_ex; vm_compute; reflexivity.
  - cbv zeta. split; [repeat constructor; eauto|]. split; [vm_compute; reflexivity|]. split; [vm_compute; reflexivity|]. split; apply protects_ex; vm_compute; reflexivity.
Qed.
