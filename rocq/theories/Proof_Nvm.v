(** Sequence numbers over reboots. *)
From Verif Require Import Base Proof_Base Model_Common Model_Crypto Model_OscorePrims Model_Coap Model_Interactions
  Model_Context Model_Send Model_Recv Model_Run Spec_Interactions Proof_Interactions Proof_Send Proof_Recv Spec_Session Proof_OscorePrims
  Proof_OscorePrims Proof_Run Proof_Session Proof_Nonce Spec_Nvm.

Section WithCrypto.
Variable cr : crypto.

Definition syncing (c : ctx) : bool := match c_echo c with ECHO_SYNCHRONIZED => false | _ => true end.

Definition nvm_effect (nw : N -> res unit) (c : ctx) (s : sstate) : Prop :=
  (c_ssn (s_ctx s) = c_ssn c /\ s_nvm s = None) \/
  (c_ssn (s_ctx s) = u64 (c_ssn c + 1) /\ s_nvm s = ssn_store_in_nvm (u64 (c_ssn c + 1)) (syncing c) /\
   forall x, s_nvm s = Some x -> nw x <> Ok tt -> s_enc s = None).

Lemma generate_nvm nw s s' r : c_fresh (s_ctx s) = false -> s_enc s = None -> generate_new_ssn nw s = (s', r) ->
  c_ssn (s_ctx s') = u64 (c_ssn (s_ctx s) + 1) /\ s_nvm s' = ssn_store_in_nvm (u64 (c_ssn (s_ctx s) + 1)) (syncing (s_ctx s)) /\
  s_enc s' = None /\ (forall x, s_nvm s' = Some x -> r = Ok tt -> nw x = Ok tt).
Proof.
  intros HF HE H. unfold generate_new_ssn in H. rewrite HF in H. cbn [set_ssn c_ssn c_echo] in H. fold (syncing (s_ctx s)) in H.
  destruct (ssn_store_in_nvm (u64 (c_ssn (s_ctx s) + 1)) (syncing (s_ctx s))) as [v|]; injection H as <- <-; cbn [s_ctx set_ssn c_ssn s_nvm s_enc].
  - repeat split; auto. intros x E R. injection E as <-. exact R.
  - repeat split; auto. discriminate.
Qed.

Lemma encrypt_wrapper_nvm nw s pt k s' r : c_fresh (s_ctx s) = false -> s_enc s = None -> s_nvm s = None ->
  encrypt_wrapper cr nw s pt k = (s', r) -> nvm_effect nw (s_ctx s) s'.
Proof.
  intros HF HE HN H. unfold encrypt_wrapper in H. set (new := needs_new_piv (coap_get_message_type k) (c_echo (s_ctx s))) in *.
  destruct (if new then _ else _) as [s1 r1] eqn:HX in H.
  assert (S1 : nvm_effect nw (s_ctx s) s1 /\ s_enc s1 = None /\
     (forall y, r1 = Ok y -> forall x, s_nvm s1 = Some x -> nw x = Ok tt)).
  { destruct new.
    - apply tryc_inv in HX as [(piv & EP & HX)|[-> E]].
      + destruct (generate_new_ssn nw s) as [s2 r2] eqn:HG. destruct (generate_nvm _ _ _ _ HF HE HG) as (G1 & G2 & G3 & G4).
        assert (NE : nvm_effect nw (s_ctx s) s2) by (right; repeat split; auto).
        cbn [callc] in HX. destruct r2 as [[]|e|u].
        * destruct (tryc_inv _ _ _ _ _ HX) as [(n & _ & Q)|[-> E]]; [injection Q as <- <-|]; (split; [exact NE|split; [exact G3|eauto]]).
        * injection HX as <- <-. split; [exact NE|]. split; [exact G3|]. discriminate.
        * injection HX as <- <-. split; [exact NE|]. split; [exact G3|]. discriminate.
      + split; [left; auto|]. split; [exact HE|]. intros y _ x E'. congruence.
    - injection HX as <- <-. split; [left; auto|]. split; [exact HE|]. intros y _ x E. congruence. }
  destruct S1 as (NE & E1 & W1). destruct r1 as [[[[nonce piv] kid] kctx]|e|u]; cbn [callc] in H.
  2,3: injection H as <- <-; exact NE.
  specialize (W1 _ eq_refl).
  assert (KEEP : forall t, c_ssn (s_ctx t) = c_ssn (s_ctx s1) -> s_nvm t = s_nvm s1 -> nvm_effect nw (s_ctx s) t).
  { intros t T1 T2. destruct NE as [[A B]|(A & B & C)]; [left; split; congruence|right]. split; [congruence|]. split; [congruence|].
    intros x Hx. rewrite T2 in Hx. intros N. elim N. apply W1. exact Hx. }
  apply tryc_inv in H as [(o & EO & H)|[-> _]]; [|exact NE]. apply tryc_inv in H as [([rpiv rkid] & ER & H)|[-> _]]; [|exact NE].
  apply tryc_inv in H as [(a & EA & H)|[-> _]]; [|exact NE]. apply tryc_inv in H as [(ct' & EC & H)|[-> _]]; [|exact NE].
  apply tryc_inv in H as [(uri & EU & H)|[-> _]]; [|apply KEEP; [destruct new; reflexivity|reflexivity]].
  apply tryc_inv in H as [(t & ET & H)|[-> _]]; [|apply KEEP; [destruct new; reflexivity|reflexivity]].
  injection H as <- _. apply KEEP; [destruct new; reflexivity|reflexivity].
Qed.

Lemma core_nvm nw c input s r : c_fresh c = false -> coap2oscore_core cr nw c input = (s, r) -> nvm_effect nw c s.
Proof.
  intros HF H. assert (Z : nvm_effect nw c (s0 c)) by (left; split; reflexivity).
  unfold coap2oscore_core in H.
  apply tryc_inv in H as [([] & _ & H)|[-> _]]; [|exact Z]. apply tryc_inv in H as [(k & EK & H)|[-> _]]; [|exact Z].
  destruct (_ && _) in H; [injection H as <- _; exact Z|].
  apply tryc_inv in H as [([[e u] elen] & ES & H)|[-> _]]; [|exact Z].
  apply tryc_inv in H as [([] & _ & H)|[-> _]]; [|exact Z]. apply tryc_inv in H as [(pt & EP & H)|[-> _]]; [|exact Z].
  apply tryc_inv in H as [([] & _ & H)|[-> _]]; [|exact Z].
  change (callc (echo_stage c e) (fun s1 (_ : unit) => callc (encrypt_wrapper cr nw s1 pt k) (fun s2 y => let (ct, opt) := y in
    tryc s2 (oscore_pkg_generate k u ct opt) (fun out => (s2, Ok (inl out))))) = (s, r)) in H.
  destruct (echo_stage c e) as [s1 r1] eqn:EE. apply echo_stage_spec in EE as (E1 & E2 & EE).
  assert (I : c_ssn (s_ctx s1) = c_ssn c /\ c_fresh (s_ctx s1) = c_fresh c /\ syncing (s_ctx s1) = syncing c).
  { destruct EE as [->|(bb & m & _ & _ & ->)]; cbn; auto. }
  destruct I as (I1 & I2 & I3).
  assert (Z1 : nvm_effect nw c s1) by (left; auto).
  destruct r1 as [[]|er|ur]; cbn [callc] in H; [|injection H as <- _; exact Z1..].
  destruct (encrypt_wrapper cr nw s1 pt k) as [s2 r2] eqn:EW.
  apply encrypt_wrapper_nvm in EW; [|congruence|assumption..].
  assert (Z2 : nvm_effect nw c s2) by (unfold nvm_effect in *; rewrite I1, I3 in EW; exact EW).
  destruct r2 as [[ct opt]|er|ur]; cbn [callc] in H; [|injection H as <- _; exact Z2..].
  apply tryc_inv in H as [(out & _ & H)|[-> _]]; [injection H as <- _|]; exact Z2.
Qed.

(** *** Boots *)
Definition boots (p : init_params) (c : ctx) : Prop := exists nvm gn ge gf c0,
  oscore_context_init cr p nvm gn ge gf = Ok c0 /\ c_iv c = c_iv c0 /\ c_sid c = c_sid c0.

Lemma init_numbers p v gn ge gf c : oscore_context_init cr p (Ok v) gn ge gf = Ok c -> ip_fresh p = false ->
  c_ssn c = u64 (v + 20) /\ c_fresh c = false /\ c_echo c = ECHO_REBOOT.
Proof.
  intros HI HF. unfold oscore_context_init in HI. destruct (negb _) in HI; [discriminate|]. destruct (negb _) in HI; [discriminate|].
  apply bind_ok in HI as (iv & _ & HI). destruct (_ <? _) in HI; [discriminate|].
  apply bind_ok in HI as (rk & _ & HI). apply bind_ok in HI as (ss & ES & HI). apply bind_ok in HI as (sk & _ & HI).
  injection HI as <-. cbn [c_ssn c_fresh c_echo]. rewrite HF. repeat split.
  rewrite HF in ES. cbn in ES. injection ES as <-. reflexivity.
Qed.

Lemma init_same p nvm nvm' gn gn' ge ge' gf gf' c c' :
  oscore_context_init cr p nvm gn ge gf = Ok c -> oscore_context_init cr p nvm' gn' ge' gf' = Ok c' ->
  c_iv c = c_iv c' /\ c_sid c = c_sid c'.
Proof.
  unfold oscore_context_init. intros H H'. destruct (negb _) in H, H'; try discriminate. destruct (negb _) in H, H'; try discriminate.
  apply bind_ok in H as (iv & EI & H). apply bind_ok in H' as (iv' & EI' & H'). assert (iv' = iv) as -> by congruence.
  destruct (_ <? _) in H, H'; try discriminate.
  apply bind_ok in H as (rk & _ & H). apply bind_ok in H as (ss & ES & H). apply bind_ok in H as (sk & _ & H).
  apply bind_ok in H' as (rk' & _ & H'). apply bind_ok in H' as (ss' & ES' & H'). apply bind_ok in H' as (sk' & _ & H').
  injection H as <-. injection H' as <-. cbn. auto.
Qed.

Lemma boots_same p c c' : boots p c -> boots p c' -> c_iv c = c_iv c' /\ c_sid c = c_sid c'.
Proof.
  intros (n & a & b & d & c0 & H & E1 & E2) (n' & a' & b' & d' & c0' & H' & E1' & E2').
  destruct (init_same _ _ _ _ _ _ _ _ _ _ _ H H') as [Q1 Q2]. split; congruence.
Qed.

Lemma boots_step p c a c' o : boots p c -> exec cr c a = (c', o) -> boots p c'.
Proof.
  intros (n & x & b & d & c0 & H & E1 & E2) X. apply exec_keys in X as ((_ & _ & EI & _ & ES & _) & _).
  exists n, x, b, d, c0. split; [exact H|]. split; congruence.
Qed.

Lemma boots_iv p c : (forall k m, lenN (cr_hmac cr k m) = 32) -> boots p c -> lenN (c_iv c) = 13.
Proof. intros HL (n & x & b & d & c0 & H & E & _). rewrite E. eapply init_iv; eassumption. Qed.

(** The nonce belongs to a sequence number below [b]. *)
Definition below (p : init_params) (b : N) (n : bytes) : Prop :=
  exists c m piv, boots p c /\ m < b /\ ssn2piv m = Ok piv /\ create_nonce (c_sid c) piv (c_iv c) = Ok n.

Lemma below_le p b b' used : b <= b' -> Forall (below p b) used -> Forall (below p b') used.
Proof. intros L. apply Forall_impl. intros n (c & m & piv & B & M & R). exists c, m, piv. split; [exact B|]. split; [lia|exact R]. Qed.

(** What one call of coap2oscore does to the numbers. *)
Lemma send_step p nw c input buf c' o ns : (forall k m, lenN (cr_hmac cr k m) = 32) ->
  boots p c -> c_fresh c = false -> c_ssn c < 2 ^ 63 ->
  exec cr c (ASend nw input buf) = (c', o) -> numbered c input o ns ->
  boots p c' /\ c_fresh c' = false /\ c_echo c' = c_echo c /\
  forall used, NoDup used -> Forall (below p (c_ssn c)) used ->
  NoDup (ns ++ used) /\ Forall (below p (c_ssn c')) (ns ++ used) /\
  ((c_ssn c' = c_ssn c /\ ob_nvm o = None /\ ns = []) \/
   (c_ssn c' = c_ssn c + 1 /\ c_ssn c < 2 ^ 23 /\ ob_nvm o = ssn_store_in_nvm (c_ssn c + 1) (syncing c) /\
    (forall x, ob_nvm o = Some x -> nw x <> Ok tt -> ns = []))).
Proof.
  intros HL HB HF HS X HN. pose proof (boots_step _ _ _ _ _ HB X) as HB'. split; [exact HB'|].
  pose proof X as X'. apply exec_send in X' as (s & r & H & EC & EE & EN).
  assert (K : c_fresh c' = c_fresh c /\ c_echo c' = c_echo c).
  { apply core_effect in H as (K & R & _). subst c'. destruct K as (_ & _ & _ & K & _). destruct R as (_ & _ & _ & R).
    split; [exact K|exact R]. }
  destruct K as [K1 K2]. split; [congruence|]. split; [exact K2|]. intros used ND F.
  pose proof (send_ssn _ _ _ _ _ _ H) as SS. apply core_nvm in H; [|exact HF]. unfold nvm_effect in H. rewrite <- EC, <- EN, <- EE in H.
  assert (U : u64 (c_ssn c + 1) = c_ssn c + 1) by (unfold u64; apply N.mod_small; lia).
  rewrite U in H.
  assert (MONO : c_ssn c <= c_ssn c') by (eapply exec_ssn; exact X).
  assert (LIM : c_ssn c' = c_ssn c + 1 -> c_ssn c < 2 ^ 23).
  { intros E. destruct SS as [SS|[_ SS]]; [rewrite <- EC in SS; lia|]. unfold OSCORE_SSN_OVERFLOW_VALUE in SS. lia. }
  destruct HN as [[HN ->]|[HN ->]].
  { cbn [app]. split; [exact ND|]. split; [eapply below_le; eassumption|].
    destruct H as [[A B]|(A & B & C)]; [left; auto|right; repeat split; auto]. }
  unfold nonce_of. destruct (ob_enc o) as [[[n a] pt]|] eqn:EO.
  - destruct (send_nonce _ _ _ _ _ _ _ _ _ _ X EO) as [(_ & S1 & _ & piv & EP & EM)|[P _]]; [|contradiction].
    assert (NI : ~ In n used).
    { intros I. rewrite Forall_forall in F. destruct (F n I) as (c2 & m & q & B & M & Q1 & Q2).
      destruct (boots_same _ _ _ HB B) as [E1 E2]. rewrite <- E1, <- E2 in Q2.
      destruct (create_nonce_inj _ _ _ _ _ _ (boots_iv _ _ HL HB) EM Q2) as [_ E]. pose proof (ssn2piv_inj _ _ _ _ EP Q1 E). lia. }
    cbn [app]. split; [constructor; assumption|]. split.
    { constructor; [|eapply below_le; eassumption]. exists c, (c_ssn c), piv. split; [exact HB|]. split; [lia|auto]. }
    destruct H as [[A B]|(A & B & C)]; [lia|]. right. split; [exact A|]. split; [auto|]. split; [exact B|].
    intros x Hx Hn. specialize (C x Hx Hn). discriminate.
  - cbn [app]. split; [exact ND|]. split; [eapply below_le; eassumption|].
    destruct H as [[A B]|(A & B & C)]; [left; auto|right; repeat split; auto].
Qed.

(** *** Invariant of lifetimes *)
Definition life_inv (p : init_params) (v : N) (oc : option ctx) (w : bool) (f : N) (used : list bytes) : Prop :=
  NoDup used /\ Forall (below p (v + 20)) used /\ v < 2 ^ 62 /\ f <= 1 /\ (w = false -> f = 0) /\
  match oc with
  | None => True
  | Some c =>
      boots p c /\ c_fresh c = false /\ c_ssn c < 2 ^ 62 + 20 /\ Forall (below p (c_ssn c)) used /\
      (c_echo c = ECHO_SYNCHRONIZED -> w = true) /\
      (w = true -> c_ssn c < 10 * (v / 10 + 1 + f))
  end.

Lemma div10 a : a < 10 * (a / 10 + 1).
Proof. pose proof (N.div_mod a 10). pose proof (N.mod_lt a 10). lia. Qed.
Lemma div10_le a b : a <= b -> a / 10 <= b / 10.
Proof. intros. apply N.div_le_mono; lia. Qed.
Lemma div10_up a : 10 * (a / 10) <= a.
Proof. pose proof (N.div_mod a 10). lia. Qed.
Lemma next_ten a q : a < 10 * q -> (a + 1) mod 10 <> 0 -> a + 1 < 10 * q.
Proof.
  intros L M. destruct (N.eq_dec (a + 1) (10 * q)) as [E|E]; [|lia]. rewrite E, N.mul_comm, N.mod_mul in M; lia.
Qed.

Lemma store_none n b : ssn_store_in_nvm n b = None -> n mod 10 <> 0 /\ b = false.
Proof.
  unfold ssn_store_in_nvm. change K_SSN_NVM_STORE_INTERVAL with 10. destruct (N.eqb_spec (n mod 10) 0) as [E|E]; cbn; [discriminate|].
  destruct b; [discriminate|auto].
Qed.
Lemma store_some n b x : ssn_store_in_nvm n b = Some x -> x = n.
Proof. unfold ssn_store_in_nvm. destruct (_ || _); [|discriminate]. congruence. Qed.

Lemma lives_inv p v0 v oc w f used : (forall k m, lenN (cr_hmac cr k m) = 32) -> ip_fresh p = false -> v0 < 2 ^ 62 ->
  lives cr p v0 v oc w f used -> life_inv p v oc w f used.
Proof.
  intros HL HF HV H. induction H as
    [|v c w f used gn ge gf c' H IH HI
     |v c w f used nw input buf c' o ns H IH X HN EN
     |v c w f used nw input buf c' o ns x H IH X HN EN EW
     |v c w f used nw input buf c' o ns x v' H IH F0 X HN EN EW EV
     |v c w f used nw input buf c' o x H IH X EN
     |v c w f used input buf c' o H IH X HS].
  - unfold life_inv. split; [constructor|]. split; [constructor|]. split; [exact HV|]. split; [lia|]. split; [reflexivity|exact I].
  - destruct IH as (I1 & I2 & I3 & I4 & I5 & _). destruct (init_numbers _ _ _ _ _ _ HI HF) as (E1 & E2 & E3).
    unfold life_inv. split; [exact I1|]. split; [exact I2|]. split; [exact I3|]. split; [lia|]. split; [reflexivity|].
    assert (U : u64 (v + 20) = v + 20) by (unfold u64; apply N.mod_small; lia). rewrite U in E1. rewrite E1.
    split. { exists (Ok v), gn, ge, gf, c'. auto. }
    split; [exact E2|]. split; [lia|]. split; [exact I2|]. split; [congruence|discriminate].
  - destruct IH as (I1 & I2 & I3 & I4 & I5 & B & FR & SB & FB & SY & BD).
    destruct (send_step p nw c input buf c' o ns HL B FR ltac:(lia) X HN) as (B' & FR' & EE & ST).
    destruct (ST used I1 FB) as (ND & FB' & CASES). unfold life_inv.
    destruct CASES as [(E & _ & ->)|(E & LM & EQ & _)].
    + cbn [app] in *. rewrite E in *. rewrite EE. auto 12.
    + rewrite EN in EQ. symmetry in EQ. apply store_none in EQ as [M S].
      assert (W : w = true). { apply SY. unfold syncing in S. destruct (c_echo c); congruence. }
      specialize (BD W). pose proof (next_ten _ _ BD M) as NX. pose proof (div10_up v) as DU.
      split; [exact ND|]. split. { apply below_le with (2 := FB'). lia. }
      split; [exact I3|]. split; [exact I4|]. split; [exact I5|]. split; [exact B'|]. split; [exact FR'|].
      split; [lia|]. split; [exact FB'|]. split; [auto|]. intros _. lia.
  - destruct IH as (I1 & I2 & I3 & I4 & I5 & B & FR & SB & FB & SY & BD).
    destruct (send_step p nw c input buf c' o ns HL B FR ltac:(lia) X HN) as (B' & FR' & EE & ST).
    destruct (ST used I1 FB) as (ND & FB' & CASES). unfold life_inv.
    destruct CASES as [(E & EQ & ->)|(E & LM & EQ & _)]; [congruence|].
    rewrite EN in EQ. symmetry in EQ. apply store_some in EQ as ->.
    split; [exact ND|]. split. { apply below_le with (2 := FB'). lia. }
    split; [lia|]. split; [lia|]. split; [reflexivity|]. split; [exact B'|]. split; [exact FR'|].
    split; [lia|]. split; [exact FB'|]. split; [auto|]. intros _. rewrite E. pose proof (div10 (c_ssn c + 1)). lia.
  - destruct IH as (I1 & I2 & I3 & I4 & I5 & B & FR & SB & FB & SY & BD).
    destruct (send_step p nw c input buf c' o ns HL B FR ltac:(lia) X HN) as (B' & FR' & EE & ST).
    destruct (ST used I1 FB) as (ND & FB' & CASES). unfold life_inv.
    destruct CASES as [(E & EQ & ->)|(E & LM & EQ & NE)]; [congruence|].
    rewrite (NE x EN EW) in *. cbn [app] in *.
    rewrite EN in EQ. symmetry in EQ. apply store_some in EQ as ->.
    split; [exact ND|]. split. { destruct EV as [->| ->]; [exact I2|]. apply below_le with (2 := FB). lia. }
    split. { destruct EV as [->| ->]; [exact I3|lia]. }
    split; [destruct w; lia|]. split; [intros ->; reflexivity|]. split; [exact B'|]. split; [exact FR'|].
    split; [lia|]. split; [exact FB'|]. split; [rewrite EE; exact SY|].
    intros W. specialize (BD W). rewrite (F0 W) in BD. rewrite W, E.
    destruct EV as [->| ->]; [lia|]. pose proof (div10 (c_ssn c + 1)). lia.
  - destruct IH as (I1 & I2 & I3 & I4 & I5 & B & FR & SB & FB & SY & BD).
    pose proof X as X'. apply exec_send in X' as (s & r & HC & EC & _ & ENV).
    pose proof (send_ssn _ _ _ _ _ _ HC) as SS. apply core_nvm in HC; [|exact FR].
    assert (U : u64 (c_ssn c + 1) = c_ssn c + 1) by (unfold u64; apply N.mod_small; lia).
    unfold nvm_effect in HC. rewrite <- ENV, EN, U in HC. destruct HC as [[_ Q]|(Q1 & Q & _)]; [discriminate|].
    symmetry in Q. apply store_some in Q as ->.
    assert (LIM : c_ssn c < 2 ^ 23). { destruct SS as [SS|[_ SS]]; [lia|]. unfold OSCORE_SSN_OVERFLOW_VALUE in SS. lia. }
    unfold life_inv. split; [exact I1|]. split. { apply below_le with (2 := FB). lia. }
    split; [lia|]. split; [lia|]. split; [reflexivity|exact I].
  - destruct IH as (I1 & I2 & I3 & I4 & I5 & B & FR & SB & FB & SY & BD).
    assert (ES : c_ssn c' = c_ssn c).
    { pose proof X as X'. apply exec_recv in X' as (_ & _ & r & X' & _). apply recv_core_effect in X' as ((_ & E & _) & _). exact E. }
    pose proof (boots_step _ _ _ _ _ B X) as B'. pose proof (exec_keys _ _ _ _ _ X) as (K & _).
    unfold life_inv. rewrite ES. do 5 (split; [assumption|]). split; [exact B'|].
    split. { destruct K as (_ & _ & _ & K & _). congruence. }
    split; [exact SB|]. split; [exact FB|]. split; [|exact BD].
    intros E. destruct (c_echo c) eqn:EC; try (apply HS; [congruence|exact E]). apply SY. reflexivity.
Qed.
End WithCrypto.
