(** Proofs for C63: what holds between two events. *)
From Verif Require Import Base Proof_Base Model_Common Model_Crypto Model_OscorePrims
  Model_Coap Spec_Coap Proof_Coap Model_Interactions Model_Replay Model_Context
  Model_Send Model_Recv Spec_Interactions Proof_Interactions Model_Run Proof_Send Proof_Recv Proof_Run Proof_Session Proof_Nonce Proof_Wire
  Spec_RoundTrip Proof_RoundTrip Spec_UriPath Spec_Protect Proof_Protect Spec_EdhocRun Spec_Traffic Model_Net Proof_Net Proof_Safe Spec_Safe Spec_Net.

Section Loss.
Variable cr : crypto.
Hypothesis OK : crypto_ok cr.
Hypothesis AT : aead_total cr.
Variable resources : list resource.
Variable owner : bytes -> resource.
Hypothesis FEW : (length resources <= 3)%nat.

Definition what (x : inter) : resource := (i_type x, i_uri x).
Lemma concerns_what x m : concerns x m <-> what x = resource_of m.
Proof. unfold concerns, what, resource_of. split; [intros [-> ->]; reflexivity|intros E; injection E; auto]. Qed.

(** The records of one endpoint are for the known resources. *)
Definition tame (t : itable) : Prop := forall x, held t x -> In (what x) resources /\ owner (i_token x) = what x.

Lemma tame_room t m : table_ok t -> tame t -> In (resource_of m) resources -> owner (m_token m) = resource_of m -> room t m.
Proof.
  intros (L & S & U) T I O. split.
  - intros F. destruct t as [|[a|] [|[b|] [|[e|] [|]]]]; try discriminate L; try (exfalso; apply F; cbn; tauto).
    assert (D : forall i j x y, nth_error [Some a; Some b; Some e] i = Some (Some x) -> nth_error [Some a; Some b; Some e] j = Some (Some y) ->
      i <> j -> what x <> what y).
    { intros i j x y X Y N E. apply N. apply (U i j x y X Y). right. unfold what in E. injection E. split; assumption. }
    assert (ND : NoDup [what a; what b; what e]).
    { pose proof (D 0 1 a b eq_refl eq_refl ltac:(discriminate))%nat as D1. pose proof (D 0 2 a e eq_refl eq_refl ltac:(discriminate))%nat as D2.
      pose proof (D 1 2 b e eq_refl eq_refl ltac:(discriminate))%nat as D3.
      constructor; [intros [H|[H|[]]]; congruence|]. constructor; [intros [H|[]]; congruence|]. constructor; [intros []|constructor]. }
    assert (IN : incl [what a; what b; what e] resources).
    { intros z [<-|[<-|[<-|[]]]]; apply T; unfold held; cbn; auto. }
    assert (IN2 : incl resources [what a; what b; what e]) by (apply NoDup_length_incl; [exact ND|cbn; exact FEW|exact IN]).
    destruct (IN2 _ I) as [E|[E|[E|[]]]]; [exists a|exists b|exists e]; (split; [unfold held; cbn; auto|apply concerns_what; exact E]).
  - intros x X E. apply concerns_what. rewrite <- O, <- E. symmetry. apply T. exact X.
Qed.

(** Between two events. *)
Record calm (live : bytes -> Prop) (c d : ctx) (n : N) : Prop := {
  cl_cd : linked c d; cl_dc : linked d c; cl_c : tame (c_inter c); cl_d : tame (c_inter d);
  cl_live : forall t, live t -> exists x y, held (c_inter c) x /\ held (c_inter d) y /\ i_token x = t /\ i_token y = t /\
    i_piv x = i_piv y /\ i_kid x = i_kid y /\ lenN (i_kid y) + lenN (i_piv y) <= 7;
  cl_nc : c_ssn c <= n; cl_nd : c_ssn d <= n }.

Lemma calm_sym live c d n : calm live c d n -> calm live d c n.
Proof.
  intros [A B C D E F G]. constructor; try assumption. intros t L. destruct (E t L) as (x & y & X1 & X2 & X3 & X4 & X5 & X6 & X7).
  exists y, x. rewrite X5, X6. auto 10.
Qed.

Lemma tame_request t t' m piv kid : tame t -> In (resource_of m) resources -> owner (m_token m) = resource_of m ->
  (forall x, held t' x <-> x = record_for m piv kid \/ held t x /\ ~ concerns x m) -> tame t'.
Proof. intros T I O H x X. apply H in X as [->|[X _]]; [|apply T; exact X]. split; assumption. Qed.

Lemma stays t t' m piv kid x : tame t -> (forall x, held t' x <-> x = record_for m piv kid \/ held t x /\ ~ concerns x m) ->
  held t x -> owner (i_token x) <> resource_of m -> held t' x.
Proof. intros T H X N. apply H. right. split; [exact X|]. intros C. apply N. apply concerns_what in C. rewrite <- C. apply T. exact X. Qed.

Lemma exchange_event live c d n f q p m m' :
  calm live c d n -> n + 1 < OSCORE_SSN_OVERFLOW_VALUE ->
  good_message m (v_msg q) 8 (lenN (v_buf q)) -> 0 < m_code m < 32 -> lenN (v_msg q) <= lenN (v_out q) < 2 ^ 32 ->
  In (resource_of m) resources -> owner (m_token m) = resource_of m ->
  good_message m' (v_msg p) (if notifies m' then 8 else 0) (lenN (v_buf p)) -> 32 <= m_code m' -> space m' p ->
  m_token m' = m_token m ->
  exists c' d' out, act cr c d (Exchange f q p) = Some (c', d', out) /\
    (if v_lost q then out = [] else if v_lost p then out = [v_msg q] else exists o, rfc_message (received m') o /\ out = [v_msg q; o]) /\
    same_keys c c' /\ same_keys d d' /\
    calm (fun t => live t /\ owner t <> resource_of m \/ v_lost q = false /\ notifies m' = true /\ t = m_token m) c' d' (n + 1).
Proof.
  intros [LC LD TC TD LV NC ND] LN GM CO LQ IN OW GM' CO' (SP1 & SP2) TOK.
  pose proof (tame_room _ m (proj1 (lk_usable _ _ LC)) TC IN OW) as RC.
  pose proof (tame_room _ m (proj1 (lk_usable _ _ LD)) TD IN OW) as RD.
  destruct (request_step cr OK AT (v_nw q) c d m (v_msg q) (v_buf q) LC LD GM CO RC ltac:(lia) ltac:(lia))
    as (s & wire & k & piv & HS & P3 & LC1 & LD1 & KS & NS & HX & RCV).
  pose proof (tame_request _ _ _ _ _ TC IN OW HX) as TC1.
  cbn [act]. unfold transfer at 1. rewrite HS. destruct (v_lost q) eqn:VQ.
  { exists (s_ctx s), d, []. split; [reflexivity|]. split; [reflexivity|]. split; [exact KS|]. split; [apply same_keys_refl|].
    constructor; try assumption; try lia. intros t [[L NO]|[X _]]; [|discriminate].
    destruct (LV t L) as (x & y & X1 & X2 & X3 & X4 & X). exists x, y. split; [|auto].
    apply (stays _ _ _ _ _ x TC HX X1). rewrite X3. exact NO. }
  destruct (RCV (v_out q) RD LQ) as (d1 & E & LC2 & LD2 & KR & NR & HX1 & NE & N13). rewrite E, written_take.
  pose proof (tame_request _ _ _ _ _ TD IN OW HX1) as TD1.
  destruct (response_step cr OK AT (v_nw p) (s_ctx s) d1 m' (v_msg p) (v_buf p) (record_for m piv (c_sid c)) LC2 LD2 GM' CO')
    as (s' & wire' & k' & HS' & LD3 & LC3 & KS' & NS' & HX' & RCV').
  { apply HX1. auto. }
  { symmetry. exact TOK. }
  { cbn [record_for i_kid i_piv]. pose proof (lk_sid _ _ LC). lia. }
  { intros _. exact N13. }
  { lia. }
  { lia. }
  assert (NB : c_ssn (s_ctx s') <= n + 1) by (rewrite NS'; destruct (notifies m'); lia).
  assert (TD2 : tame (c_inter (s_ctx s'))) by (intros z Z; apply TD1; apply HX' in Z; apply Z).
  assert (LV2 : forall c2, (forall x, held (c_inter c2) x <-> held (c_inter (s_ctx s)) x /\ ~ (notifies m' = false /\ i_token x = m_token m')) \/
      c_inter c2 = c_inter (s_ctx s) -> forall t,
    live t /\ owner t <> resource_of m \/ false = false /\ notifies m' = true /\ t = m_token m ->
    exists x y, held (c_inter c2) x /\ held (c_inter (s_ctx s')) y /\ i_token x = t /\ i_token y = t /\
      i_piv x = i_piv y /\ i_kid x = i_kid y /\ lenN (i_kid y) + lenN (i_piv y) <= 7).
  { intros c2 G t Ht.
    assert (GG : forall x, held (c_inter (s_ctx s)) x -> ~ (notifies m' = false /\ i_token x = m_token m') -> held (c_inter c2) x).
    { intros x X Y. destruct G as [G|G]; [apply G; auto|rewrite G; exact X]. }
    destruct Ht as [[L NO]|(_ & NT & ->)].
    - destruct (LV t L) as (x & y & X1 & X2 & X3 & X4 & X). exists x, y.
      assert (NG : ~ (notifies m' = false /\ t = m_token m')) by (intros [_ Z]; apply NO; rewrite Z, TOK; exact OW).
      split; [|split; [|auto]].
      + apply GG; [|rewrite X3; exact NG]. apply (stays _ _ _ _ _ x TC HX X1). rewrite X3. exact NO.
      + apply HX'. split; [|rewrite X4; exact NG]. apply (stays _ _ _ _ _ y TD HX1 X2). rewrite X4. exact NO.
    - exists (record_for m piv (c_sid c)), (record_for m piv (c_sid c)).
      split; [apply GG; [apply HX; auto|rewrite NT; intros [Z _]; discriminate]|].
      split; [apply HX'; split; [apply HX1; auto|rewrite NT; intros [Z _]; discriminate]|].
      repeat (split; [reflexivity|]). cbn [record_for i_kid i_piv]. pose proof (lk_sid _ _ LC). lia. }
  unfold transfer. rewrite HS'. destruct (v_lost p) eqn:VP.
  { exists (s_ctx s), (s_ctx s'), [v_msg q]. split; [reflexivity|]. split; [reflexivity|]. split; [exact KS|].
    split; [eapply same_keys_trans; eassumption|]. constructor; try assumption; try lia. apply LV2. right. reflexivity. }
  destruct (RCV' (v_out p) SP1 SP2) as (c1 & o & RO & E' & LC4 & LD4 & KR' & NR2 & HX2).
  { exists (record_for m piv (c_sid c)). split; [apply HX; auto|]. auto. }
  { intros _. congruence. }
  rewrite E', written_take. exists c1, (s_ctx s'), [v_msg q; o]. split; [reflexivity|]. split; [eauto|].
  split; [eapply same_keys_trans; eassumption|]. split; [eapply same_keys_trans; eassumption|].
  constructor; try assumption; try lia.
  - intros z Z. apply TC1. apply HX2 in Z. apply Z.
  - apply LV2. left. exact HX2.
Qed.

Lemma notification_event (live : bytes -> Prop) c d n f p m :
  calm live c d n -> n + 1 < OSCORE_SSN_OVERFLOW_VALUE ->
  good_message m (v_msg p) 8 (lenN (v_buf p)) -> 32 <= m_code m -> notifies m = true -> space m p -> live (m_token m) ->
  exists c' d' out, act cr c d (Notification f p) = Some (c', d', out) /\
    (if v_lost p then out = [] else exists o, rfc_message (received m) o /\ out = [o]) /\
    same_keys c c' /\ same_keys d d' /\ calm live c' d' (n + 1).
Proof.
  intros [LC LD TC TD LV NC ND] LN GM CO NT (SP1 & SP2) LT.
  destruct (LV _ LT) as (x & y & X1 & X2 & X3 & X4 & X5 & X6 & X7). rewrite <- X5, <- X6 in X7.
  destruct (response_step cr OK AT (v_nw p) d c m (v_msg p) (v_buf p) x LD LC) as (s & wire & k & HS & LC1 & LD1 & KS & NS & HX & RCV).
  { rewrite NT. exact GM. }
  { exact CO. }
  { exact X1. }
  { exact X3. }
  { exact X7. }
  { rewrite NT. discriminate. }
  { lia. }
  { lia. }
  rewrite NT in NS. cbn beta in HX.
  assert (HX0 : forall z, held (c_inter (s_ctx s)) z <-> held (c_inter c) z).
  { intros z. rewrite (HX z), NT. split; [tauto|]. intros Z. split; [exact Z|]. intros [W _]. discriminate. }
  cbn [act]. unfold transfer. rewrite HS. destruct (v_lost p) eqn:VP.
  { exists (s_ctx s), d, []. split; [reflexivity|]. split; [reflexivity|]. split; [exact KS|]. split; [apply same_keys_refl|].
    constructor; try assumption; try lia.
    - intros z Z. apply TC. apply HX0. exact Z.
    - intros t L. destruct (LV t L) as (a & b & A1 & A2 & A). exists a, b. split; [apply HX0; exact A1|]. auto. }
  destruct (RCV (v_out p) SP1 SP2) as (d1 & o & RO & E & LD2 & LC2 & KR & NR & HX1).
  { exists y. split; [exact X2|]. split; [exact X4|]. split; congruence. }
  { rewrite NT. discriminate. }
  assert (HX10 : forall z, held (c_inter d1) z <-> held (c_inter d) z).
  { intros z. rewrite (HX1 z), NT. split; [tauto|]. intros Z. split; [exact Z|]. intros [W _]. discriminate. }
  rewrite E, written_take. exists (s_ctx s), d1, [o]. split; [reflexivity|]. split; [eauto|]. split; [exact KS|]. split; [exact KR|].
  constructor; try assumption; try lia.
  - intros z Z. apply TC. apply HX0. exact Z.
  - intros z Z. apply TD. apply HX10. exact Z.
  - intros t L. destruct (LV t L) as (a & b & A1 & A2 & A). exists a, b. split; [apply HX0; exact A1|]. split; [apply HX10; exact A2|]. auto.
Qed.

Lemma foreign_receive c bs buf : usable c -> keyed c -> lenN (c_rid c) <= 7 -> foreign cr (c_rkey c) bs buf ->
  exists b e, oscore2coap cr c bs buf = (c, b, Err e).
Proof.
  intros UC KC HR (opts & payload & HP & B1 & B2 & HO & HD).
  assert (HIV : lenN (c_iv c) = 13) by apply KC.
  assert (HD' : forall nonce a pt, cr_aead_dec cr (c_rkey c) nonce a 8 payload = Some pt ->
     (exists inner, inner_message pt inner /\ path_size (opts ++ inner) <> 30) /\
     (is_req bs -> forall v piv kid, In (9, v) opts -> osc_value v piv kid -> piv <> [])).
  { intros nonce a pt E. rewrite HD in E. discriminate. }
  destruct (core_safe cr c bs opts payload OK HIV HR HP HO HD') as [S1 _].
  unfold oscore2coap. destruct (oscore2coap_core cr c bs) as [c' r] eqn:E.
  destruct (core_authentic cr c bs c' r HIV (proj1 UC) E) as [(-> & F)|(k & pt & (piv & nonce & rkid & rpiv & PK & DE & _) & _)].
  - cbn [snd] in S1. destruct r as [out|e|u]; [discriminate|eauto|discriminate].
  - exfalso. destruct PK as (EK & _).
    destruct (received_parse _ _ _ HP) as [(k' & EK' & _ & PK' & _)|(e & EE)]; [|congruence].
    assert (k' = k) as -> by congruence. rewrite PK', HD in DE. discriminate.
Qed.
Lemma foreign_event c d bs buf : linked c d -> linked d c -> foreign cr (c_rkey c) bs buf ->
  exists b e, oscore2coap cr c bs buf = (c, b, Err e).
Proof.
  intros LC LD. apply foreign_receive; try apply LC.
  destruct (lk_hears _ _ LD) as (_ & H2 & _). pose proof (lk_sid _ _ LD) as H5. rewrite <- H2. lia.
Qed.

Lemma net_plan l : forall live c d n outs, calm live c d n -> n + lenN l < OSCORE_SSN_OVERFLOW_VALUE ->
  plan cr (c_rkey c) (c_rkey d) resources owner live l outs ->
  exists c' d', net cr c d l = Some (c', d', outs).
Proof.
  induction l as [|e l IH]; intros live c d n outs CA LN P.
  { inversion P; subst. exists c, d. reflexivity. }
  rewrite lenN_cons in LN.
  assert (STEP : exists live' c' d' out outs', outs = out :: outs' /\
    (if by_first e then act cr c d e else option_map (fun p => let '(d', c', o) := p in (c', d', o)) (act cr d c e)) = Some (c', d', out) /\
    same_keys c c' /\ same_keys d d' /\ calm live' c' d' (n + 1) /\ plan cr (c_rkey c) (c_rkey d) resources owner live' l outs').
  { inversion P; subst; cbn [by_first].
    - destruct f.
      + edestruct (exchange_event live c d n true q p m m') as (c' & d' & out' & E & O & K1 & K2 & CA'); try eassumption; [lia|].
        eexists _, c', d', out', _. rewrite E. split; [|split; [reflexivity|split; [exact K1|split; [exact K2|split; [exact CA'|eassumption]]]]].
        f_equal. destruct (v_lost q); [congruence|]. destruct (v_lost p); [congruence|].
        destruct O as (o1 & R1 & ->). match goal with H : exists o, rfc_message _ o /\ _ |- _ => destruct H as (o2 & R2 & ->) end. rewrite (message_unique _ _ _ R1 R2). reflexivity.
      + edestruct (exchange_event live d c n false q p m m') as (c' & d' & out' & E & O & K1 & K2 & CA'); try eassumption; [apply calm_sym; exact CA|lia|].
        eexists _, d', c', out', _. rewrite E. cbn [option_map].
        split; [|split; [reflexivity|split; [exact K2|split; [exact K1|split; [apply calm_sym; exact CA'|eassumption]]]]].
        f_equal. destruct (v_lost q); [congruence|]. destruct (v_lost p); [congruence|].
        destruct O as (o1 & R1 & ->). match goal with H : exists o, rfc_message _ o /\ _ |- _ => destruct H as (o2 & R2 & ->) end. rewrite (message_unique _ _ _ R1 R2). reflexivity.
    - destruct f.
      + edestruct (notification_event live c d n true p m) as (c' & d' & out' & E & O & K1 & K2 & CA'); try eassumption; [lia|].
        eexists _, c', d', out', _. rewrite E. split; [|split; [reflexivity|split; [exact K1|split; [exact K2|split; [exact CA'|eassumption]]]]].
        f_equal. destruct (v_lost p); [congruence|]. destruct O as (o1 & R1 & ->). match goal with H : exists o, rfc_message _ o /\ _ |- _ => destruct H as (o2 & R2 & ->) end. rewrite (message_unique _ _ _ R1 R2). reflexivity.
      + edestruct (notification_event live d c n false p m) as (c' & d' & out' & E & O & K1 & K2 & CA'); try eassumption; [apply calm_sym; exact CA|lia|].
        eexists _, d', c', out', _. rewrite E. cbn [option_map].
        split; [|split; [reflexivity|split; [exact K2|split; [exact K1|split; [apply calm_sym; exact CA'|eassumption]]]]].
        f_equal. destruct (v_lost p); [congruence|]. destruct O as (o1 & R1 & ->). match goal with H : exists o, rfc_message _ o /\ _ |- _ => destruct H as (o2 & R2 & ->) end. rewrite (message_unique _ _ _ R1 R2). reflexivity.
    - assert (CA' : calm live c d (n + 1)) by (destruct CA; constructor; try assumption; lia).
      destruct f.
      + edestruct (foreign_event c d bs buf) as (b & e & E); [apply CA|apply CA|eassumption|].
        eexists _, c, d, [], _. cbn [act]. rewrite E. split; [reflexivity|]. split; [reflexivity|].
        split; [apply same_keys_refl|]. split; [apply same_keys_refl|]. split; [exact CA'|eassumption].
      + edestruct (foreign_event d c bs buf) as (b & e & E); [apply CA|apply CA|eassumption|].
        eexists _, c, d, [], _. cbn [act]. rewrite E. cbn [option_map]. split; [reflexivity|]. split; [reflexivity|].
        split; [apply same_keys_refl|]. split; [apply same_keys_refl|]. split; [exact CA'|eassumption]. }
  destruct STEP as (live' & c' & d' & out & outs' & -> & E & K1 & K2 & CA' & P').
  destruct (IH live' c' d' (n + 1) outs' CA' ltac:(lia)) as (c2 & d2 & E2).
  { destruct K1 as (_ & _ & _ & _ & _ & _ & _ & ->). destruct K2 as (_ & _ & _ & _ & _ & _ & _ & ->). exact P'. }
  exists c2, d2. cbn [net]. rewrite E, E2. reflexivity.
Qed.
End Loss.

(** A request for which there is no room. *)
Section Blocked.
Variable cr : crypto.
Variable nw : N -> res unit.

Lemma failure_not_ok {A B} (r : res A) (x : res B) : same_failure r x -> is_ok x = false.
Proof. destruct r, x; cbn; tauto || reflexivity. Qed.

Lemma generate_inter s s1 r : generate_new_ssn nw s = (s1, r) -> c_inter (s_ctx s1) = c_inter (s_ctx s).
Proof.
  unfold generate_new_ssn. destruct (c_fresh _); [intros H; injection H as <- <-; reflexivity|].
  destruct (ssn_store_in_nvm _ _); intros H; injection H as <- <-; reflexivity.
Qed.

Lemma encrypt_blocked s pt k s' r :
  (forall uri rpiv rkid t, uri_path_create (k_opts k) OSCORE_MAX_URI_PATH_LEN = Ok uri ->
     update_wrapper (coap_get_message_type k) (k_token k) uri (c_inter (s_ctx s)) rpiv rkid <> Ok t) ->
  encrypt_wrapper cr nw s pt k = (s', r) -> c_inter (s_ctx s') = c_inter (s_ctx s) /\ is_ok r = false.
Proof.
  intros NB H. unfold encrypt_wrapper in H.
  apply callc_inv in H as [(s1 & [[[nonce piv] kid] kctx] & HX & H)|[HX F]].
  2: { split; [|eapply failure_not_ok; exact F]. rewrite <- HX. destruct (needs_new_piv _ _); [|reflexivity].
    destruct (ssn2piv _); cbn [tryc fst]; try reflexivity. unfold callc. destruct (generate_new_ssn nw s) as [s1 g] eqn:G. apply generate_inter in G.
    destruct g; cbn [fst]; try exact G. destruct (create_nonce _ _ _); cbn [tryc fst]; exact G. }
  assert (I1 : c_inter (s_ctx s1) = c_inter (s_ctx s)).
  { destruct (needs_new_piv _ _); [|injection HX as <- _ _ _ _; reflexivity].
    apply tryc_ok in HX as (p & _ & HX). apply callc_ok in HX as (s2 & [] & HG & HX). apply generate_inter in HG.
    apply tryc_ok in HX as (n & _ & HX). injection HX as <- _ _ _ _. exact HG. }
  apply tryc_inv in H as [(opt & _ & H)|[-> F]]; [|split; [exact I1|eapply failure_not_ok; exact F]].
  apply tryc_inv in H as [([rpiv rkid] & _ & H)|[-> F]]; [|split; [exact I1|eapply failure_not_ok; exact F]].
  apply tryc_inv in H as [(aad & _ & H)|[-> F]]; [|split; [exact I1|eapply failure_not_ok; exact F]].
  apply tryc_inv in H as [(ct & _ & H)|[-> F]]; [|split; [exact I1|eapply failure_not_ok; exact F]].
  set (s2 := {| s_ctx := _; s_nvm := _; s_enc := Some _ |}) in *.
  assert (I2 : c_inter (s_ctx s2) = c_inter (s_ctx s)) by (unfold s2; cbn [s_ctx]; destruct (needs_new_piv _ _); exact I1).
  apply tryc_inv in H as [(uri & EU & H)|[-> F]]; [|split; [exact I2|eapply failure_not_ok; exact F]].
  apply tryc_inv in H as [(t & ET & _)|[-> F]]; [|split; [exact I2|eapply failure_not_ok; exact F]].
  exfalso. rewrite I2 in ET. exact (NB _ _ _ _ EU ET).
Qed.

Lemma send_blocked c m input buf s b r : table_ok (c_inter c) -> full (c_inter c) ->
  rfc_message m input -> parsable m input -> 0 < m_code m < 32 -> (forall x, held (c_inter c) x -> ~ concerns x m) ->
  coap2oscore cr nw c input buf = (s, b, r) -> c_inter (s_ctx s) = c_inter c /\ is_ok r = false.
Proof.
  intros T F HM HP CO NC H. destruct (coap_parse_rfc m input HM HP) as (k & EK & EM & _ & _).
  assert (ECD : h_code (k_hdr k) = m_code m) by (rewrite <- EM; reflexivity).
  assert (RQ : is_request k = true) by (rewrite is_request_code, ECD; apply N.ltb_lt; lia).
  assert (CORE : forall s r, coap2oscore_core cr nw c input = (s, r) -> c_inter (s_ctx s) = c_inter c /\ is_ok r = false).
  { clear s b r H. intros s r H. unfold coap2oscore_core in H.
    apply tryc_inv in H as [([] & _ & H)|[-> G]]; [|split; [reflexivity|eapply failure_not_ok; exact G]].
    apply tryc_inv in H as [(k' & EK' & H)|[-> G]]; [|split; [reflexivity|eapply failure_not_ok; exact G]].
    assert (k' = k) as -> by congruence.
    replace (h_code (k_hdr k) =? 0) with false in H by (symmetry; apply N.eqb_neq; lia). rewrite andb_false_r in H.
    apply tryc_inv in H as [([[e u] elen] & _ & H)|[-> G]]; [|split; [reflexivity|eapply failure_not_ok; exact G]].
    apply tryc_inv in H as [([] & _ & H)|[-> G]]; [|split; [reflexivity|eapply failure_not_ok; exact G]].
    apply tryc_inv in H as [(pt & _ & H)|[-> G]]; [|split; [reflexivity|eapply failure_not_ok; exact G]].
    apply tryc_inv in H as [([] & _ & H)|[-> G]]; [|split; [reflexivity|eapply failure_not_ok; exact G]].
    apply callc_inv in H as [(s1 & [] & HX & H)|[HX G]].
    2: { split; [|eapply failure_not_ok; exact G]. rewrite <- HX. destruct (c_echo c); try reflexivity.
      destruct (cache_echo_val _ _ _) as [[x y]|?|?]; reflexivity. }
    assert (I1 : c_inter (s_ctx s1) = c_inter c).
    { destruct (c_echo c); try (injection HX as <-; reflexivity). apply tryc_ok in HX as ([x y] & _ & HX). injection HX as <-. reflexivity. }
    destruct (encrypt_wrapper cr nw s1 pt k) as [s2 r2] eqn:EW.
    destruct (encrypt_blocked s1 pt k s2 r2) as [I2 R2]; [|exact EW|].
    { intros uri rpiv rkid t UR UW. rewrite I1 in UW.
      assert (UE : uri = path_string (message_path m)) by (eapply uri_of_message; [exact EM|exact UR]).
      destruct (update_request k m (c_inter c) uri rpiv rkid T EM RQ UE) as [G _].
      pose proof (update_wrapper_ok _ _ _ _ _ _ _ T UW) as T'.
      destruct (G t UW) as [SZ G'].
      (* four records in three places *)
      destruct T as (L & _ & U). destruct (c_inter c) as [|[x1|] [|[x2|] [|[x3|] [|]]]] eqn:EI; try discriminate L; try (apply F; cbn; tauto).
      assert (H4 : NoDup [Some (record_for m rpiv rkid); Some x1; Some x2; Some x3]).
      { assert (D : forall x, held [Some x1; Some x2; Some x3] x -> x <> record_for m rpiv rkid).
        { intros x X E. apply (NC x X). rewrite E. split; reflexivity. }
        assert (D2 : forall i j x, nth_error [Some x1; Some x2; Some x3] i = Some (Some x) -> nth_error [Some x1; Some x2; Some x3] j = Some (Some x) -> i = j)
          by (intros i j x X Y; apply (U i j x x X Y); left; reflexivity).
        constructor. { intros [E|[E|[E|[]]]]; injection E as E; eapply D; try exact E; unfold held; cbn; auto. }
        constructor. { intros [E|[E|[]]]; injection E as ->; [discriminate (D2 0 1 x1 eq_refl eq_refl)%nat|discriminate (D2 0 2 x1 eq_refl eq_refl)%nat]. }
        constructor. { intros [E|[]]; injection E as ->; discriminate (D2 1 2 x2 eq_refl eq_refl)%nat. }
        constructor; [intros []|constructor]. }
      apply NoDup_incl_length with (l' := t) in H4.
      - destruct T' as (L' & _). rewrite L' in H4. cbn in H4. lia.
      - assert (Y : forall x, held [Some x1; Some x2; Some x3] x -> In (Some x) t).
        { intros x X. apply G'. right. split; [exact X|apply NC; exact X]. }
        intros z [<-|[<-|[<-|[<-|[]]]]]; [apply G'; left; reflexivity|apply Y; unfold held; cbn; auto..]. }
    apply callc_inv in H as [(s3 & [ct opt] & HY & H)|[HY G]].
    - injection HY as -> ->. discriminate.
    - cbn [fst snd] in HY, G. subst s2. split; [congruence|eapply failure_not_ok; exact G]. }
  unfold coap2oscore in H. destruct (coap2oscore_core cr nw c input) as [s1 r1] eqn:E. destruct (CORE _ _ eq_refl) as [I R].
  destruct r1 as [x|e|u]; [discriminate|injection H as <- <- <-; auto..].
Qed.
End Blocked.
