(** C69: which memory contexts share, for all keys and contexts. *)
From Verif Require Import Base Proof_Base Model_Common Model_Crypto Model_OscorePrims Spec_OscorePrims Proof_OscorePrims
  Model_Coap Spec_Coap Proof_Coap Model_Interactions Model_Replay Model_Context Spec_Options Spec_OscoreOption
  Model_Send Model_Recv Model_Run Spec_Interactions Proof_Interactions Proof_Send Proof_Recv Spec_Session Proof_Run Proof_Session Proof_Nonce
  Spec_RoundTrip Proof_RoundTrip Spec_Protect Proof_Protect Spec_Interop Proof_Interop Spec_Nvm Proof_Nvm
  Model_Store Spec_Store Proof_Store Model_Toy Proof_Toy Model_ToyRun Prop_Store Prop_NvmReuse.

(** In the state [d], this call for the structure [k] encrypts with [key] and with a nonce
    made from a sequence number. *)
Definition uses (cr : crypto) (d : machine) (k : N) (nw : N -> res unit) (input buf key nonce : bytes) : Prop :=
  exists x, mc_ctx d k = Some x /\ c_skey (load (mc_mem d) x) = key /\ protects cr (load (mc_mem d) x) nw input buf nonce.

(** Two structures with the same key, IV, Sender ID and number. *)
Lemma uses_same cr d k x nw input buf key nonce d' k' x' nw' input' buf' key' nonce' :
  uses cr d k nw input buf key nonce -> uses cr d' k' nw' input' buf' key' nonce' -> mc_ctx d k = Some x -> mc_ctx d' k' = Some x' ->
  let c := load (mc_mem d) x in let c' := load (mc_mem d') x' in
  c_skey c' = c_skey c -> c_sid c' = c_sid c -> c_iv c' = c_iv c -> c_ssn c' = c_ssn c -> key' = key /\ nonce' = nonce.
Proof.
  intros (y & EY & KY & PY) (y' & EY' & KY' & PY') EX EX' c c' A B C D. rewrite EX in EY. injection EY as <-. rewrite EX' in EY'. injection EY' as <-.
  fold c in KY, PY. fold c' in KY', PY'. apply protects_nonce in PY as (p & P1 & P2). apply protects_nonce in PY' as (p' & Q1 & Q2).
  rewrite D in Q1. rewrite B, C in Q2. split; congruence.
Qed.

(** The sender key comes from the parameters. *)
Lemma init_skey cr p nvm nvm' gn gn' ge ge' gf gf' c c' :
  oscore_context_init cr p nvm gn ge gf = Ok c -> oscore_context_init cr p nvm' gn' ge' gf' = Ok c' -> c_skey c' = c_skey c.
Proof.
  intros HI HI'. unfold oscore_context_init in HI, HI'. destruct (negb _) in HI, HI'; try discriminate. destruct (negb _) in HI, HI'; try discriminate.
  apply bind_ok in HI as (iv & _ & H). apply bind_ok in HI' as (iv' & _ & H').
  destruct (_ <? _) in H, H'; try discriminate.
  apply bind_ok in H as (rk & _ & H). apply bind_ok in H as (ss & _ & H). apply bind_ok in H as (sk & S1 & H).
  apply bind_ok in H' as (rk' & _ & H'). apply bind_ok in H' as (ss' & _ & H'). apply bind_ok in H' as (sk' & S2 & H').
  injection H as <-. injection H' as <-. cbn [c_skey]. congruence.
Qed.

(** A context with another Sender ID. *)
Definition with_sid (c : ctx) (id : bytes) : ctx :=
  {| c_nonce := c_nonce c; c_inter := c_inter c; c_echo_buf := c_echo_buf c; c_echo_len := c_echo_len c; c_echo := c_echo c;
     c_alg := c_alg c; c_id_context := c_id_context c; c_iv := c_iv c; c_fresh := c_fresh c; c_sid := id; c_skey := c_skey c;
     c_ssn := c_ssn c; c_rid := c_rid c; c_rkey := c_rkey c; c_win := c_win c; c_notif := c_notif c; c_notif_init := c_notif_init c |}.

(** What an initialised structure is after its array with the Sender ID was written. *)
Lemma reused cr d k s gf a b v d1 o d2 o2 : act cr d (DInit k s gf) = Some (d1, o) ->
  array_of (su_sender_id s) a -> array_of (su_id_context s) b -> b <> a -> act cr d1 (DWrite a v) = Some (d2, o2) ->
  let p := given (mc_mem d) s in
  exists gn ge c x, oscore_context_init cr p (Ok (mc_nvm d (key_given p))) gn ge gf = Ok c /\ mc_ctx d2 k = Some x /\
    load (mc_mem d2) x = with_sid c (takeN (w_len (su_sender_id s)) v) /\ settled k x /\ sx_sid x = su_sender_id s /\
    sx_id_context x = su_id_context s /\ mc_nvm d2 = mc_nvm d /\ mc_mem d2 (PArray a) = v.
Proof.
  intros H A B NE W p. unfold act in H. fold p in H.
  destruct (oscore_context_init cr p _ _ _ gf) as [c|?|?] eqn:EI; try discriminate.
  destruct (laid_out (mc_mem d) k s c) as [m' x] eqn:EL. injection H as <- <-.
  pose proof (load_laid_out cr _ _ _ _ _ _ _ _ _ (ex_intro _ a A) (ex_intro _ b B) eq_refl EI EL) as LD.
  destruct (laid_out_settled _ _ _ _ _ _ EL (ex_intro _ a A) (ex_intro _ b B)) as (ST & S1 & S2).
  cbn [act mc_mem mc_ctx mc_nvm] in W. injection W as <- <-. cbn [mc_mem mc_ctx mc_nvm].
  do 3 eexists. exists x. split; [exact EI|]. split; [apply put_same|]. split; [|split; [exact ST|split; [exact S1|split; [exact S2|split; [reflexivity|apply upd_same]]]]].
  rewrite <- LD. destruct ST as (V1 & V2 & V3 & V4 & V5 & V6 & _).
  assert (M : forall w, w_at w <> PArray a -> look (upd m' (PArray a) v) w = look m' w) by (intros w NW; apply look_eq, upd_other; exact NW).
  apply ctx_ext; try reflexivity; cbn [load with_sid c_nonce c_echo_buf c_id_context c_iv c_sid c_skey c_rid c_rkey].
  - apply M. rewrite V1. discriminate.
  - apply upd_other. rewrite V2. discriminate.
  - apply M. rewrite S2, B. intros E. injection E. congruence.
  - apply M. rewrite V3. discriminate.
  - rewrite S1. unfold look. rewrite A, upd_same. reflexivity.
  - apply M. rewrite V4. discriminate.
  - apply M. rewrite V5. discriminate.
  - apply M. rewrite V6. discriminate.
Qed.

(** The array that held the Sender ID gets other contents, for example because it is the
    place for the C_R of the next handshake (c_r of edhoc_initiator_run). Every request of
    the context that was made from it is then refused by its peer. (C19_request_partial: without
    the write it is delivered.) *)
Theorem C69_sender_id_refuted :
  forall (cr : crypto) (d d1 d2 d3 : machine) (k : N) (s : setup) (gf a b : N) (v : bytes) (o o2 : option obs) (ob : obs)
    (nw : N -> res unit) (m : message) (input buf out : bytes) (n : N) (e : ctx),
  crypto_ok cr -> act cr d (DInit k s gf) = Some (d1, o) -> array_of (su_sender_id s) a -> array_of (su_id_context s) b -> b <> a ->
  act cr d1 (DWrite a v) = Some (d2, o2) -> takeN (w_len (su_sender_id s)) v <> ip_sender_id (given (mc_mem d) s) ->
  rfc_message m input -> supported m input -> is_bytes input -> 0 < m_code m < 32 -> (forall v, In (6, v) (m_opts m) -> lenN v <= 3) ->
  lenN buf < 2 ^ 32 -> n <= 1032 ->
  act cr d2 (DCall k (ASend nw input buf)) = Some (d3, Some ob) -> ob_res ob = Ok n ->
  c_rid e = ip_sender_id (given (mc_mem d) s) -> c_ssn e < OSCORE_SSN_OVERFLOW_VALUE ->
  oscore2coap cr e (takeN n (ob_buf ob)) out = (e, out, Err oscore_kid_recipient_id_mismatch).
Proof.
  intros cr d d1 d2 d3 k s gf a b v o o2 ob nw m input buf out n e OK HI A B NE W NI HM SUP HB CO O3 LB LN HC HR RE SE.
  destruct (reused cr d k s gf a b v d1 o d2 o2 HI A B NE W) as (gn & ge & c & x & EI & EX & LD & _).
  set (id := takeN _ v) in *. assert (RC : reachable cr c) by (do 5 eexists; exists c, []; split; [exact EI|reflexivity]).
  destruct (reachable_both cr c OK RC) as [UC KC].
  cbn [act] in HC. rewrite EX, LD in HC. cbn [exec] in HC.
  destruct (coap2oscore cr nw (with_sid c id) input buf) as [[st b1] r] eqn:CS. cbn [ob_res] in HC.
  destruct (is_ub r); [discriminate|]. destruct (save _ _ _) as [m' x']. injection HC as <- <-. cbn [ob_res ob_buf] in *. subst r.
  destruct (interop_send cr nw (with_sid c id) st m input buf b1 n OK UC KC HM SUP HB ltac:(lia) O3 LB CS)
    as (oo & nonce & rkid & rpiv & RP & [(EO & _)|(X & _)] & _); [|lia].
  assert (LW : lenN (takeN n b1) <= 1032) by (rewrite lenN_takeN; lia).
  destruct (opens_rfc cr _ _ _ m input oo _ OK HM SUP HB RP LW) as
    (k' & co & r & pt & EK' & EO' & OP & OK' & P5 & TK' & AE & LC & LPT & RQ' & OB' & _).
  assert (KM : kid_view co = Ok id) by (rewrite OK', EO; reflexivity).
  unfold oscore2coap, oscore2coap_core, check_context_freshness. destruct (N.leb_spec OSCORE_SSN_OVERFLOW_VALUE (c_ssn e)); [lia|]. cbn [tryc].
  rewrite EK'. cbn [tryc]. rewrite EO'. cbn [tryc]. rewrite LC. change AUTH_TAG_LEN with 8. rewrite sub32_small by lia.
  unfold byte_array_new. replace (lenN pt + 8 - 8) with (lenN pt) by lia. unfold check_buffer_size, MAX_PLAINTEXT_LEN.
  destruct (N.ltb_spec 1024 (lenN pt)); [lia|]. cbn [tryc]. rewrite RQ'. destruct (N.ltb_spec (m_code m) 32); [|lia].
  unfold recv_request. destruct (N.eqb_spec (lenN (c_rid e)) (co_kid_len co)) as [EL|NL]; cbn [negb]; [|reflexivity].
  rewrite KM. cbn [tryc]. destruct (array_equals (c_rid e) id) eqn:AQ; cbn [negb]; [|reflexivity].
  exfalso. apply NI. rewrite <- RE. symmetry. apply array_equals_eq. exact AQ.
Qed.
Print Assumptions C69_sender_id_refuted.

(** Calls for one structure leave the others, the arrays and the numbers stored for other
    identifiers as they are. *)
Definition writes_to (x : scontext) (p : place) : Prop := In p (variable x).
Lemma calls_for_one cr k l : forall d x d' os, mc_ctx d k = Some x -> perform cr d (map (DCall k) l) = Some (d', os) ->
  (forall j, j <> k -> mc_ctx d' j = mc_ctx d j) /\ (forall p, ~ writes_to x p -> mc_mem d' p = mc_mem d p) /\
  (exists x', mc_ctx d' k = Some x' /\ variable x' = variable x /\ sx_sid x' = sx_sid x) /\
  forall key, ~ writes_to x (w_at (sx_sid x)) -> fst (fst key) <> look (mc_mem d) (sx_sid x) -> mc_nvm d' key = mc_nvm d key.
Proof.
  induction l as [|c l IH]; intros d x d' os EX EP; cbn [map perform] in EP.
  - injection EP as <- <-. repeat split; auto. exists x. auto.
  - destruct (act cr d (DCall k c)) as [[d1 o]|] eqn:EA; [|discriminate]. destruct (perform cr d1 (map (DCall k) l)) as [[d2 os2]|] eqn:EP2; [|discriminate].
    injection EP as <- _. cbn [act] in EA. rewrite EX in EA. destruct (exec cr (load (mc_mem d) x) c) as [c' ob]. destruct (is_ub _); [discriminate|].
    set (x1 := snd (save (mc_mem d) x c')). injection EA as <- _.
    assert (EX1 : put (mc_ctx d) k (Some x1) k = Some x1) by apply put_same.
    pose proof (fun H => IH _ x1 _ _ H EP2) as J.
    destruct (J EX1) as (I1 & I2 & (x' & I3 & I4 & I5) & I6). cbn [mc_ctx mc_mem mc_nvm] in *.
    assert (M : forall p, ~ writes_to x p -> upd (upd (mc_mem d) (w_at (sx_nonce x)) (c_nonce c')) (w_at (sx_echo_val x)) (c_echo_buf c') p = mc_mem d p).
    { intros p NP. unfold writes_to, variable in NP. cbn in NP. rewrite !upd_other by (intros ->; tauto). reflexivity. }
    split; [intros j NJ; rewrite I1 by exact NJ; apply put_other; exact NJ|].
    split; [intros p NP; rewrite I2 by exact NP; apply M; exact NP|].
    split; [exists x'; repeat split; assumption|].
    intros key NW NK. rewrite I6; [|exact NW|].
    + unfold kept. destruct c as [nw input buf|input buf]; [|reflexivity]. destruct (ob_nvm ob) as [v|]; [|reflexivity].
      destruct (nw v); try reflexivity. rewrite key_eqb_neq; [reflexivity|]. intros ->. apply NK. reflexivity.
    + change (sx_sid x1) with (sx_sid x). unfold look. rewrite M by exact NW. exact NK.
Qed.

(** The array with the Sender ID is used again in each boot of a device that keeps its
    context. All numbers are then stored for the other identifier, so that the next boot
    starts with the same number, and the first message of a boot is encrypted with the
    same key and the same nonce as that of the boot before, although every write succeeded. *)
Theorem C69_sender_id_memory_refuted :
  forall (cr : crypto) (d d1 d2 d3 : machine) (m m' : store) (k k' : N) (s : setup) (gf gf' a b : N) (v : bytes) (os1 os2 os3 : list (N * obs))
    (nw nw' : N -> res unit) (input buf key nonce input' buf' key' nonce' : bytes) (l : list api_call),
  array_of (su_sender_id s) a -> array_of (su_id_context s) b -> b <> a -> su_fresh s = false ->
  takeN (w_len (su_sender_id s)) v <> ip_sender_id (given m s) -> given m' s = given m s ->
  perform cr d [DRestart m; DInit k s gf; DWrite a v] = Some (d1, os1) -> uses cr d1 k nw input buf key nonce ->
  perform cr d1 (map (DCall k) (ASend nw input buf :: l)) = Some (d2, os2) ->
  perform cr d2 [DRestart m'; DInit k' s gf'; DWrite a v] = Some (d3, os3) -> uses cr d3 k' nw' input' buf' key' nonce' ->
  key' = key /\ nonce' = nonce.
Proof.
  intros cr d d1 d2 d3 m m' k k' s gf gf' a b v os1 os2 os3 nw nw' input buf key nonce input' buf' key' nonce' l A B NE FR NI GM P1 U1 P2 P3 U3.
  assert (B1 : forall d m k gf d1 os1, perform cr d [DRestart m; DInit k s gf; DWrite a v] = Some (d1, os1) ->
    exists gn ge c x, oscore_context_init cr (given m s) (Ok (mc_nvm d (key_given (given m s)))) gn ge gf = Ok c /\ mc_ctx d1 k = Some x /\
    load (mc_mem d1) x = with_sid c (takeN (w_len (su_sender_id s)) v) /\ settled k x /\ sx_sid x = su_sender_id s /\
    sx_id_context x = su_id_context s /\ mc_nvm d1 = mc_nvm d /\ mc_mem d1 (PArray a) = v).
  { clear - A B NE. intros d m k gf d1 os1 P. cbn [perform] in P. change (act cr d (DRestart m)) with (Some ({| mc_mem := m; mc_ctx := fun _ => None; mc_nvm := mc_nvm d |}, @None obs)) in P. cbv iota beta in P.
    destruct (act cr {| mc_mem := m; mc_ctx := fun _ => None; mc_nvm := mc_nvm d |} (DInit k s gf)) as [[da oa]|] eqn:EA; [|discriminate].
    destruct (act cr da (DWrite a v)) as [[db ob]|] eqn:EB; [|discriminate]. injection P as <- _.
    exact (reused cr _ k s gf a b v da oa db ob EA A B NE EB). }
  destruct (B1 _ _ _ _ _ _ P1) as (gn & ge & c & x & EI & EX & LD & ST & S1 & S2 & EN & EV).
  destruct (B1 _ _ _ _ _ _ P3) as (gn' & ge' & c' & x' & EI' & EX' & LD' & _).
  destruct (calls_for_one cr k _ _ x _ _ EX P2) as (_ & _ & _ & NV).
  assert (VA : ~ writes_to x (w_at (sx_sid x))).
  { rewrite S1, A. unfold writes_to, variable. destruct ST as (V1 & V2 & _). rewrite V1, V2. intros [X|[X|[]]]; discriminate X. }
  assert (KN : mc_nvm d2 (key_given (given m s)) = mc_nvm d (key_given (given m s))).
  { rewrite NV; [rewrite EN; reflexivity|exact VA|]. cbn [key_given fst]. unfold look. rewrite S1, A, EV. intros E. apply NI. symmetry. exact E. }
  rewrite GM, KN in EI'.
  destruct (init_fields cr _ _ _ _ _ _ EI) as (_ & _ & F3 & _ & _). destruct (init_fields cr _ _ _ _ _ _ EI') as (_ & _ & F3' & _ & _).
  destruct (init_same cr _ _ _ _ _ _ _ _ _ _ _ EI EI') as [IV _].
  destruct (init_numbers cr _ _ _ _ _ _ EI FR) as (N1 & _). destruct (init_numbers cr _ _ _ _ _ _ EI' FR) as (N1' & _).
  eapply (uses_same cr d1 k x); try eassumption; rewrite LD, LD'; cbn [with_sid c_skey c_sid c_iv c_ssn]; try congruence.
  exact (init_skey cr _ _ _ _ _ _ _ _ _ _ _ EI EI').
Qed.
Print Assumptions C69_sender_id_memory_refuted.

(** Contexts with the same identifiers share a number in the memory, whatever their
    secrets are. The structure [k], made from the parameters [p], has sent a message with
    the number [w + 20]; later, after whatever happened in between, another context with
    these identifiers stores [w]. After a restart the first message of a context made
    from [p] is encrypted with the same key and the same nonce. *)
Theorem C69_same_ids_refuted :
  forall (cr : crypto) (d0 d1 d2 d3 : machine) (p : init_params) (nvm : res N) (gn ge : bytes) (gf : N) (c0 : ctx) (sofar : list api_call)
    (k j k' : N) (x y : scontext) (l : list action) (os os3 : list (N * obs)) (ob : obs) (m : store) (s : setup) (gf' w a b : N)
    (nw nw' nw2 : N -> res unit) (input buf key nonce input' buf' key' nonce' input2 buf2 : bytes),
  oscore_context_init cr p nvm gn ge gf = Ok c0 -> ip_fresh p = false ->
  mc_ctx d0 k = Some x -> load (mc_mem d0) x = fst (run cr c0 sofar) -> uses cr d0 k nw input buf key nonce ->
  c_ssn (load (mc_mem d0) x) = w + 20 -> w + 20 < 2 ^ 64 ->
  perform cr d0 (DCall k (ASend nw input buf) :: l) = Some (d1, os) ->
  mc_ctx d1 j = Some y -> key_of (load (mc_mem d1) y) = key_given p ->
  act cr d1 (DCall j (ASend nw2 input2 buf2)) = Some (d2, Some ob) -> ob_nvm ob = Some w -> nw2 w = Ok tt ->
  given m s = p -> array_of (su_sender_id s) a -> array_of (su_id_context s) b ->
  perform cr d2 [DRestart m; DInit k' s gf'] = Some (d3, os3) -> uses cr d3 k' nw' input' buf' key' nonce' ->
  key' = key /\ nonce' = nonce.
Proof.
  intros cr d0 d1 d2 d3 p nvm gn ge gf c0 sofar k j k' x y l os os3 ob m s gf' w a b nw nw' nw2 input buf key nonce input' buf' key' nonce' input2 buf2
    HI FR EX LX U1 NX LW P1 EY KY AC NB NS GM A B P3 U3.
  cbn [act] in AC. rewrite EY in AC. destruct (exec cr (load (mc_mem d1) y) (ASend nw2 input2 buf2)) as [c' o']. destruct (is_ub _); [discriminate|].
  destruct (save _ _ _) as [m' x1]. injection AC as <- <-. rewrite KY in P3.
  cbn [perform] in P3. match type of P3 with context [act cr ?d (DRestart m)] => change (act cr d (DRestart m)) with
    (Some ({| mc_mem := m; mc_ctx := fun _ => None; mc_nvm := mc_nvm d |}, @None obs)) in P3 end.
  cbv iota beta in P3. cbn [mc_nvm act mc_mem mc_ctx] in P3. rewrite GM in P3.
  unfold kept in P3. rewrite NB, NS, key_eqb_refl in P3.
  destruct (oscore_context_init cr p (Ok w) _ _ gf') as [c3|?|?] eqn:EI; try discriminate.
  destruct (laid_out m k' s c3) as [m3 x3] eqn:EL. injection P3 as <- _.
  pose proof (load_laid_out cr _ _ _ _ _ _ _ _ _ (ex_intro _ a A) (ex_intro _ b B) (eq_sym GM) EI EL) as LD.
  destruct (Prop_Channel.run_keys cr c0 sofar) as (k1 & _ & k3 & _ & k5 & k6 & k7 & k8).
  destruct (init_same cr _ _ _ _ _ _ _ _ _ _ _ HI EI) as [Q1 Q2]. destruct (init_numbers cr _ _ _ _ _ _ EI FR) as (N3 & _).
  pose proof (init_skey cr _ _ _ _ _ _ _ _ _ _ _ HI EI) as SK.
  eapply (uses_same cr d0 k x); [exact U1|exact U3|exact EX|apply put_same|..]; cbn [mc_mem]; rewrite ?LD; [..|rewrite NX, N3; unfold u64; apply N.mod_small; exact LW];
    rewrite LX; congruence.
Qed.
Print Assumptions C69_same_ids_refuted.

Lemma look_own m k s c m' x : laid_out m k s c = (m', x) ->
  m' (PMember k MIv) = c_iv c /\ m' (PMember k MSkey) = c_skey c /\
  sx_iv x = {| w_at := PMember k MIv; w_len := lenN (c_iv c) |} /\ sx_skey x = {| w_at := PMember k MSkey; w_len := lenN (c_skey c) |} /\
  sx_sid x = su_sender_id s /\ sx_ssn x = c_ssn c /\ variable x = [PMember k MNonce; PMember k MEcho] /\
  (forall p, (forall q, p <> PMember k q) -> m' p = m p).
Proof.
  unfold laid_out. intros H. injection H as <- <-. cbn [sx_iv sx_skey sx_sid sx_ssn]. repeat split.
  - rewrite !upd_other by discriminate. apply upd_same.
  - apply upd_same.
  - intros p N. rewrite !upd_other by apply N. reflexivity.
Qed.
Lemma init_key_lens cr p nvm gn ge gf c : crypto_ok cr -> oscore_context_init cr p nvm gn ge gf = Ok c -> lenN (c_skey c) = 16 /\ lenN (c_iv c) = 13.
Proof.
  intros OK EI. assert (RC : reachable cr c) by (do 5 eexists; exists c, []; split; [exact EI|reflexivity]).
  destruct (reachable_both cr c OK RC) as [_ (_ & A & B)]. auto.
Qed.

(** A structure is assigned to another one, and the first one is initialised for a new
    session. The copy points to the key and the IV inside the first one. If the Sender IDs
    and the numbers are equal, as they are for two fresh sessions that chose the same
    identifier, then the first message of the copy, meant for the old peer, is encrypted
    with the key of the new session and a nonce that was used with it. *)
Theorem C69_copy_refuted :
  forall (cr : crypto) (d d1 d2 : machine) (k j : N) (s1 s2 : setup) (gf1 gf2 a1 a2 : N) (os1 os2 : list (N * obs)) (x y : scontext)
    (nw nw' : N -> res unit) (input buf key nonce input' buf' key' nonce' : bytes) (l : list api_call),
  crypto_ok cr -> k <> j -> array_of (su_sender_id s1) a1 -> array_of (su_sender_id s2) a2 ->
  perform cr d [DInit k s1 gf1; DCopy k j; DInit k s2 gf2] = Some (d1, os1) ->
  mc_ctx d1 k = Some x -> mc_ctx d1 j = Some y ->
  c_sid (load (mc_mem d1) y) = c_sid (load (mc_mem d1) x) -> c_ssn (load (mc_mem d1) y) = c_ssn (load (mc_mem d1) x) ->
  uses cr d1 k nw input buf key nonce -> perform cr d1 (map (DCall k) (ASend nw input buf :: l)) = Some (d2, os2) ->
  uses cr d2 j nw' input' buf' key' nonce' ->
  key' = key /\ nonce' = nonce.
Proof.
  intros cr d d1 d2 k j s1 s2 gf1 gf2 a1 a2 os1 os2 x y nw nw' input buf key nonce input' buf' key' nonce' l OK NE A1 A2 P1 EX EY SI SN U1 P2 U2.
  cbn [perform] in P1. destruct (act cr d (DInit k s1 gf1)) as [[da oa]|] eqn:EA; [|discriminate].
  destruct (act cr da (DCopy k j)) as [[db ob]|] eqn:EB; [|discriminate].
  destruct (act cr db (DInit k s2 gf2)) as [[dc oc]|] eqn:EC; [|discriminate]. injection P1 as -> _.
  cbn [act] in EA. destruct (oscore_context_init cr _ _ _ _ gf1) as [c1|?|?] eqn:EI1; try discriminate.
  destruct (laid_out (mc_mem d) k s1 c1) as [m1 x1] eqn:EL1. injection EA as <- _.
  cbn [act mc_ctx] in EB. rewrite put_same in EB. injection EB as <- _.
  cbn [act] in EC. destruct (oscore_context_init cr _ _ _ _ gf2) as [c2|?|?] eqn:EI2; try discriminate.
  destruct (laid_out _ k s2 c2) as [m2 x2] eqn:EL2. injection EC as <- _. cbn [mc_ctx mc_mem] in *.
  rewrite put_same in EX. injection EX as <-. rewrite put_other in EY by congruence. rewrite put_same in EY. injection EY as <-.
  destruct (look_own _ _ _ _ _ _ EL1) as (_ & _ & V1 & W1 & S1 & N1 & _).
  destruct (look_own _ _ _ _ _ _ EL2) as (Q3 & Q4 & V2 & W2 & S2 & N2 & VV & _).
  destruct (init_key_lens _ _ _ _ _ _ _ OK EI1) as [K1 I1]. destruct (init_key_lens _ _ _ _ _ _ _ OK EI2) as [K2 I2].
  assert (E2 : mc_ctx {| mc_mem := m2; mc_ctx := put (put (put (mc_ctx d) k (Some x1)) j (Some x1)) k (Some x2); mc_nvm := mc_nvm d |} k = Some x2) by apply put_same.
  destruct (calls_for_one cr k _ _ _ _ _ E2 P2) as (C1 & C2 & _). cbn [mc_ctx mc_mem] in C1, C2.
  assert (NW : forall p, p = PMember k MIv \/ p = PMember k MSkey \/ p = PArray a1 -> mc_mem d2 p = m2 p).
  { intros p P. apply C2. unfold writes_to. rewrite VV. intros [X|[X|[]]]; subst p; destruct P as [P|[P|P]]; discriminate P. }
  eapply (uses_same cr _ k x2 nw input buf key nonce d2 j x1); [exact U1|exact U2|exact E2| |..]; cbn [mc_mem].
  - rewrite C1 by congruence. rewrite put_other by congruence. apply put_same.
  - cbn [load c_skey]. rewrite W1, W2. unfold look. cbn [w_at w_len]. rewrite NW by auto. congruence.
  - rewrite <- SI. cbn [load c_sid]. apply look_eq. apply NW. rewrite S1. auto.
  - cbn [load c_iv]. rewrite V1, V2. unfold look. cbn [w_at w_len]. rewrite NW by auto. congruence.
  - rewrite <- SN. reflexivity.
Qed.
Print Assumptions C69_copy_refuted.

(** An array of structures, whose first session ends: the others are moved down by
    assignment. The session that was in [i] and is now in [h] points into [i], whose
    buffers were overwritten by the assignment of [j]: it uses the key of that session,
    and its nonces if Sender IDs and numbers are equal. *)
Theorem C69_moved_down_refuted :
  forall (cr : crypto) (d d1 d2 : machine) (h i j : N) (s1 s2 : setup) (gf1 gf2 a1 a2 : N) (os1 os2 : list (N * obs)) (x y : scontext)
    (nw nw' : N -> res unit) (input buf key nonce input' buf' key' nonce' : bytes) (l : list api_call),
  crypto_ok cr -> h <> i -> h <> j -> i <> j -> array_of (su_sender_id s1) a1 -> array_of (su_sender_id s2) a2 ->
  perform cr d [DInit i s1 gf1; DInit j s2 gf2; DCopy i h; DCopy j i] = Some (d1, os1) ->
  mc_ctx d1 h = Some x -> mc_ctx d1 i = Some y ->
  c_sid (load (mc_mem d1) x) = c_sid (load (mc_mem d1) y) -> c_ssn (load (mc_mem d1) x) = c_ssn (load (mc_mem d1) y) ->
  uses cr d1 i nw input buf key nonce -> perform cr d1 (map (DCall i) (ASend nw input buf :: l)) = Some (d2, os2) ->
  uses cr d2 h nw' input' buf' key' nonce' ->
  key' = key /\ nonce' = nonce.
Proof.
  intros cr d d1 d2 h i j s1 s2 gf1 gf2 a1 a2 os1 os2 x y nw nw' input buf key nonce input' buf' key' nonce' l OK HI HJ IJ A1 A2 P1 EX EY SI SN U1 P2 U2.
  cbn [perform] in P1. destruct (act cr d (DInit i s1 gf1)) as [[da oa]|] eqn:EA; [|discriminate].
  destruct (act cr da (DInit j s2 gf2)) as [[db ob]|] eqn:EB; [|discriminate].
  destruct (act cr db (DCopy i h)) as [[dc oc]|] eqn:EC; [|discriminate].
  destruct (act cr dc (DCopy j i)) as [[dd od]|] eqn:ED; [|discriminate]. injection P1 as -> _.
  cbn [act] in EA. destruct (oscore_context_init cr _ _ _ _ gf1) as [c1|?|?] eqn:EI1; try discriminate.
  destruct (laid_out (mc_mem d) i s1 c1) as [m1 x1] eqn:EL1. injection EA as <- _.
  cbn [act] in EB. destruct (oscore_context_init cr _ _ _ _ gf2) as [c2|?|?] eqn:EI2; try discriminate.
  cbn [mc_mem mc_ctx mc_nvm] in *. destruct (laid_out m1 j s2 c2) as [m2 x2] eqn:EL2. injection EB as <- _.
  cbn [act mc_ctx mc_mem mc_nvm] in EC. rewrite put_other, put_same in EC by congruence. injection EC as <- _.
  cbn [act mc_ctx mc_mem mc_nvm] in ED. rewrite put_other, put_same in ED by congruence.
  set (m3 := fun q : place => match q with PMember k b => if k =? h then m2 (PMember i b) else m2 q | _ => m2 q end) in ED.
  set (m4 := fun q : place => match q with PMember k b => if k =? i then m3 (PMember j b) else m3 q | _ => m3 q end) in ED.
  injection ED as <- _. cbn [mc_ctx mc_mem mc_nvm] in *.
  rewrite put_other, put_same in EX by congruence. injection EX as <-. rewrite put_same in EY. injection EY as <-.
  destruct (look_own _ _ _ _ _ _ EL1) as (_ & _ & V1 & W1 & S1 & N1 & _).
  destruct (look_own _ _ _ _ _ _ EL2) as (Q3 & Q4 & V2 & W2 & S2 & N2 & VV & _).
  destruct (init_key_lens _ _ _ _ _ _ _ OK EI1) as [K1 I1]. destruct (init_key_lens _ _ _ _ _ _ _ OK EI2) as [K2 I2].
  assert (M : forall b, m4 (PMember i b) = m2 (PMember j b) /\ m4 (PMember j b) = m2 (PMember j b)).
  { intros b. unfold m4, m3. rewrite N.eqb_refl. destruct (N.eqb_spec j h); [congruence|]. destruct (N.eqb_spec j i); [congruence|]. auto. }
  match type of U1 with uses cr ?d1 _ _ _ _ _ _ => assert (E2 : mc_ctx d1 i = Some x2) by apply put_same end.
  destruct (calls_for_one cr i _ _ _ _ _ E2 P2) as (C1 & C2 & _). cbn [mc_ctx mc_mem] in C1, C2.
  assert (NW : forall p, p = PMember i MIv \/ p = PMember i MSkey \/ p = PArray a1 -> mc_mem d2 p = m4 p).
  { intros p P. apply C2. unfold writes_to. rewrite VV. intros [X|[X|[]]]; subst p; destruct P as [P|[P|P]]; discriminate P. }
  eapply (uses_same cr _ i x2 nw input buf key nonce d2 h x1); [exact U1|exact U2|exact E2| |..]; cbn [mc_mem].
  - rewrite C1 by congruence. rewrite put_other by congruence. apply put_same.
  - cbn [load c_skey]. rewrite W1, W2. unfold look. cbn [w_at w_len]. rewrite NW by auto. rewrite (proj1 (M _)). destruct (N.eqb_spec j i); [congruence|]. destruct (N.eqb_spec j h); congruence.
  - rewrite <- SI. cbn [load c_sid]. apply look_eq. apply NW. rewrite S1. auto.
  - cbn [load c_iv]. rewrite V1, V2. unfold look. cbn [w_at w_len]. rewrite NW by auto. rewrite (proj1 (M _)). destruct (N.eqb_spec j i); [congruence|]. destruct (N.eqb_spec j h); congruence.
  - rewrite <- SN. reflexivity.
Qed.
Print Assumptions C69_moved_down_refuted.

(** The histories of Prop_Store.v meet the hypotheses. *)
Lemma uses_ex d k nw input buf : is_request_bytes input = true ->
  match mc_ctx d k with
  | Some x => match ob_enc (snd (exec toy_crypto (load (mc_mem d) x) (ASend nw input buf))) with Some _ => true | None => false end
  | None => false
  end = true -> exists key nonce, uses toy_crypto d k nw input buf key nonce.
Proof.
  intros R E. destruct (mc_ctx d k) as [x|] eqn:EX; [|discriminate].
  destruct (protects_ex toy_crypto _ _ _ _ R E) as (n & P). do 2 eexists. exists x. split; [exact EX|]. split; [reflexivity|exact P].
Qed.
Definition after (d : machine) (l : list action) : machine := match perform toy_crypto d l with Some (d', _) => d' | None => d end.
Definition happens (d : machine) (l : list action) : bool := match perform toy_crypto d l with Some _ => true | None => false end.
Definition used_by (d : machine) (k : N) : bool :=
  match mc_ctx d k with
  | Some x => match ob_enc (snd (exec toy_crypto (load (mc_mem d) x) (ASend toy_nw (toy_get 5) toy_out))) with Some _ => true | None => false end
  | None => false
  end.
Example C69_shared_ex :
  (* the array is used again *)
  (let boot := [DRestart toy_store; DInit 0 (toy_setup 3 1 2 false) 0; DWrite 1 [8]] in
   takeN 1 [8] <> ip_sender_id (given toy_store (toy_setup 3 1 2 false)) /\ happens toy_machine boot = true /\ used_by (after toy_machine boot) 0 = true /\
   happens (after toy_machine boot) [toy_request 0 5] = true /\
   happens (after (after toy_machine boot) [toy_request 0 5]) boot = true /\ used_by (after (after (after toy_machine boot) [toy_request 0 5]) boot) 0 = true) /\
  (* a copy, and structures moved down *)
  (let l := [DInit 0 (toy_setup 3 1 2 true) 0; DCopy 0 1; DInit 0 (toy_setup 5 1 2 true) 0] in
   happens toy_machine l = true /\ used_by (after toy_machine l) 0 = true /\
   happens (after toy_machine l) [toy_request 0 5] = true /\ used_by (after (after toy_machine l) [toy_request 0 5]) 1 = true) /\
  (let l := [DInit 1 (toy_setup 3 1 2 true) 0; DInit 2 (toy_setup 5 1 2 true) 0; DCopy 1 0; DCopy 2 1] in
   happens toy_machine l = true /\ used_by (after toy_machine l) 1 = true /\
   happens (after toy_machine l) [toy_request 1 5] = true /\ used_by (after (after toy_machine l) [toy_request 1 5]) 0 = true).
Proof. split; [split; [vm_compute; discriminate|]|split]; vm_compute; repeat split. Qed.
(** Two contexts with different secrets: the second one has sent one message before the
    first one was initialised, which then uses the numbers 41 and 42. *)
Definition toy_shared : list action :=
  [DInit 1 (toy_setup 5 1 2 false) 0; toy_request 1 6; DInit 0 (toy_setup 3 1 2 false) 0; toy_request 0 5].
Definition context_in (d : machine) (k : N) : option ctx := match mc_ctx d k with Some x => Some (load (mc_mem d) x) | None => None end.
Example C69_same_ids_hypotheses :
  let d0 := after toy_machine toy_shared in let d1 := after d0 [toy_request 0 5] in let d2 := after d1 [toy_request 1 6] in
  let boot := [DRestart toy_store; DInit 0 (toy_setup 3 1 2 false) 0] in
  used_by d0 0 = true /\ happens d0 [toy_request 0 5] = true /\ option_map c_ssn (context_in d0 0) = Some 42 /\
  option_map key_of (context_in d1 1) = Some (key_given (given toy_store (toy_setup 3 1 2 false))) /\
  (match perform toy_crypto d1 [toy_request 1 6] with Some (_, [(_, o)]) => ob_nvm o | _ => None end) = Some 22 /\
  happens d2 boot = true /\ used_by (after d2 boot) 0 = true /\
  option_map c_skey (context_in d0 0) = option_map c_skey (context_in (after d2 boot) 0) /\
  option_map c_skey (context_in d1 1) <> option_map c_skey (context_in d0 0).
Proof. vm_compute. repeat split. discriminate. Qed.
