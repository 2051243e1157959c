(** Contexts behind pointers behave like values. *)
From Verif Require Import Base Proof_Base Model_Common Model_Crypto Model_Interactions Model_Replay Model_OscorePrims Model_Coap Model_Context
  Model_Send Model_Recv Model_Run Model_Store Spec_Store Spec_Session Spec_Nvm Proof_Send Proof_Run Proof_Nvm.

Lemma place_eqb_eq p q : place_eqb p q = true <-> p = q.
Proof.
  split.
  - destruct p as [a|k a], q as [b|j b]; cbn; intros H; try discriminate.
    + apply N.eqb_eq in H. congruence.
    + apply andb_prop in H as [H1 H2]. apply N.eqb_eq in H1. subst. destruct a, b; try discriminate; reflexivity.
  - intros ->. destruct q as [a|k a]; cbn; rewrite N.eqb_refl; [reflexivity|]. destruct a; reflexivity.
Qed.
Lemma upd_same m p b : upd m p b p = b.
Proof. unfold upd. destruct (place_eqb p p) eqn:E; [reflexivity|]. rewrite (proj2 (place_eqb_eq p p) eq_refl) in E. discriminate. Qed.
Lemma upd_other m p b q : q <> p -> upd m p b q = m q.
Proof. intros H. unfold upd. destruct (place_eqb q p) eqn:E; [|reflexivity]. apply place_eqb_eq in E. contradiction. Qed.
Lemma put_same f k x : put f k x k = x.
Proof. unfold put. rewrite N.eqb_refl. reflexivity. Qed.
Lemma put_other f k x j : j <> k -> put f k x j = f j.
Proof. intros H. unfold put. destruct (N.eqb_spec j k); [contradiction|reflexivity]. Qed.
Lemma key_eqb_eq a b : key_eqb a b = true <-> a = b.
Proof.
  destruct a as [[x y] z], b as [[u v] w]. unfold key_eqb.
  destruct (list_eq_dec N.eq_dec x u), (list_eq_dec N.eq_dec y v), (list_eq_dec N.eq_dec z w); cbn; split; intros H; try discriminate; try congruence.
  all: injection H; intros; congruence.
Qed.
Lemma key_eqb_refl a : key_eqb a a = true.
Proof. apply key_eqb_eq. reflexivity. Qed.
Lemma key_eqb_neq a b : a <> b -> key_eqb a b = false.
Proof. intros H. destruct (key_eqb a b) eqn:E; [|reflexivity]. apply key_eqb_eq in E. contradiction. Qed.

(** The places a structure points to. *)
Definition fixed (x : scontext) : list place :=
  [w_at (sx_sid x); w_at (sx_id_context x); w_at (sx_iv x); w_at (sx_skey x); w_at (sx_rid x); w_at (sx_rkey x)].
Definition variable (x : scontext) : list place := [w_at (sx_nonce x); w_at (sx_echo_val x)].
Definition places (x : scontext) : list place := variable x ++ fixed x.
Definition inner (x : scontext) : Prop :=
  w_at (sx_nonce x) <> w_at (sx_echo_val x) /\ forall p, In p (fixed x) -> ~ In p (variable x).

Lemma ctx_ext (a b : ctx) :
  c_nonce a = c_nonce b -> c_inter a = c_inter b -> c_echo_buf a = c_echo_buf b -> c_echo_len a = c_echo_len b ->
  c_echo a = c_echo b -> c_alg a = c_alg b -> c_id_context a = c_id_context b -> c_iv a = c_iv b -> c_fresh a = c_fresh b ->
  c_sid a = c_sid b -> c_skey a = c_skey b -> c_ssn a = c_ssn b -> c_rid a = c_rid b -> c_rkey a = c_rkey b ->
  c_win a = c_win b -> c_notif a = c_notif b -> c_notif_init a = c_notif_init b -> a = b.
Proof. destruct a, b; cbn. intros. subst. reflexivity. Qed.
Lemma look_eq m m' v : m (w_at v) = m' (w_at v) -> look m v = look m' v.
Proof. unfold look. intros ->. reflexivity. Qed.
Lemma load_eq m m' x : (forall p, In p (places x) -> m p = m' p) -> load m x = load m' x.
Proof.
  intros H. apply ctx_ext; try reflexivity; try (apply look_eq, H; cbn; tauto). apply H; cbn; tauto.
Qed.
Lemma takeN_len (A : Type) (l : list A) : takeN (lenN l) l = l.
Proof. apply takeN_all. lia. Qed.

Lemma save_places m x c : places (snd (save m x c)) = places x.
Proof. reflexivity. Qed.
Lemma save_fixed m x c : fixed (snd (save m x c)) = fixed x.
Proof. reflexivity. Qed.
(** What is saved is found again. *)
Lemma load_save m x c : inner x -> same_keys (load m x) c -> load (fst (save m x c)) (snd (save m x c)) = c.
Proof.
  intros [NE D] (K1 & K2 & K3 & K4 & K5 & K6 & K7 & K8).
  set (m' := fst (save m x c)).
  assert (F : forall v, In (w_at v) (fixed x) -> look m' v = look m v).
  { intros v I. apply look_eq. unfold m', save. cbn [fst].
    rewrite !upd_other; [reflexivity| |]; intros E; apply (D _ I); rewrite E; cbn; tauto. }
  apply ctx_ext; try reflexivity; fold m'.
  - change (look m' {| w_at := w_at (sx_nonce x); w_len := lenN (c_nonce c) |} = c_nonce c). unfold look, m', save. cbn [fst w_at w_len].
    rewrite upd_other by exact NE. rewrite upd_same. apply takeN_len.
  - change (m' (w_at (sx_echo_val x)) = c_echo_buf c). unfold m', save. cbn [fst]. apply upd_same.
  - symmetry; exact K1.
  - change (look m' (sx_id_context x) = c_id_context c). rewrite F by (cbn; tauto). symmetry; exact K2.
  - change (look m' (sx_iv x) = c_iv c). rewrite F by (cbn; tauto). symmetry; exact K3.
  - symmetry; exact K4.
  - change (look m' (sx_sid x) = c_sid c). rewrite F by (cbn; tauto). symmetry; exact K5.
  - change (look m' (sx_skey x) = c_skey c). rewrite F by (cbn; tauto). symmetry; exact K6.
  - change (look m' (sx_rid x) = c_rid c). rewrite F by (cbn; tauto). symmetry; exact K7.
  - change (look m' (sx_rkey x) = c_rkey c). rewrite F by (cbn; tauto). symmetry; exact K8.
Qed.

Section Sessions.
Variable cr : crypto.

(** [k] is the structure in question, with pointers to [ps]; [dead] structures are not
    used any more. *)
Definition apart (dead : N -> Prop) (d : machine) (k : N) (ps : list place) : Prop :=
  forall j y, j <> k -> ~ dead j -> mc_ctx d j = Some y -> forall p, In p ps -> ~ In p (variable y).
Definition safe (dead : N -> Prop) (k : N) (ps : list place) (e : action) : Prop :=
  match e with
  | DInit j _ _ => j <> k /\ ~ dead j /\ forall b, ~ In (PMember j b) ps
  | DCall j _ => ~ dead j
  | DWrite a _ => ~ In (PArray a) ps
  | DCopy i j => i <> k /\ ~ dead i /\ j <> k /\ ~ dead j /\ forall b, ~ In (PMember j b) ps
  | DRestart _ => False
  end.

Lemma act_safe dead k x e d d' o :
  ~ dead k -> mc_ctx d k = Some x -> inner x -> apart dead d k (places x) -> safe dead k (places x) e ->
  act cr d e = Some (d', o) ->
  exists x', mc_ctx d' k = Some x' /\ inner x' /\ places x' = places x /\ apart dead d' k (places x) /\
    match e with
    | DCall j a =>
        if j =? k then
          exists ob, o = Some ob /\ exec cr (load (mc_mem d) x) a = (load (mc_mem d') x', ob) /\ is_ub (ob_res ob) = false
        else load (mc_mem d') x' = load (mc_mem d) x
    | _ => load (mc_mem d') x' = load (mc_mem d) x
    end.
Proof.
  intros DK X IN AP SF H. destruct e as [j s gf|j a|a b|i j|m]; cbn [safe act] in *.
  - destruct SF as (NK & ND & FR).
    destruct (oscore_context_init _ _ _ _ _ _) as [c|?|?] eqn:EI; try discriminate.
    unfold laid_out in H. injection H as <- <-. cbn [mc_mem mc_ctx]. exists x. split; [rewrite put_other by congruence; exact X|].
    split; [exact IN|]. split; [reflexivity|]. split.
    + intros i y NI NDI Y p IP. cbn [mc_ctx] in Y. unfold put in Y. destruct (N.eqb_spec i j) as [->|NE].
      * injection Y as <-. cbn. intros [E|[E|[]]]; rewrite <- E in IP; exact (FR _ IP).
      * exact (AP i y NI NDI Y p IP).
    + apply load_eq. intros p IP. rewrite !upd_other; [reflexivity| | | |]; intros ->; exact (FR _ IP).
  - destruct (mc_ctx d j) as [y|] eqn:EY; [|discriminate]. destruct (exec cr (load (mc_mem d) y) a) as [c' ob] eqn:EX.
    destruct (is_ub (ob_res ob)) eqn:EU; [discriminate|].
    pose proof (exec_keys cr _ _ _ _ EX) as [SK _].
    destruct (N.eqb_spec j k) as [->|NE].
    + rewrite X in EY. injection EY as <-. pose proof (load_save _ _ _ IN SK) as LS.
      remember (save (mc_mem d) x c') as q eqn:EQ. destruct q as [m' x']. injection H as <- <-. cbn [mc_mem mc_ctx fst snd] in *.
      assert (PX : places x' = places x) by (change x' with (snd (m', x')); rewrite EQ; apply save_places).
      assert (IX : inner x').
      { destruct IN as [A B]. change x' with (snd (m', x')). rewrite EQ. split; [exact A|exact B]. }
      exists x'. split; [apply put_same|]. split; [exact IX|]. split; [exact PX|]. split.
      * intros i z NI NDI Z. cbn [mc_ctx] in Z. rewrite put_other in Z by congruence. exact (AP i z NI NDI Z).
      * exists ob. split; [reflexivity|]. split; [rewrite LS; exact EX|exact EU].
    + remember (save (mc_mem d) y c') as q eqn:EQ. destruct q as [m' y']. injection H as <- <-. cbn [mc_mem mc_ctx].
      exists x. split; [rewrite put_other by congruence; exact X|]. split; [exact IN|]. split; [reflexivity|]. split.
      * intros i z NI NDI Z. cbn [mc_ctx] in Z. unfold put in Z. destruct (N.eqb_spec i j) as [->|NIJ].
        -- injection Z as <-. intros p IP. change y' with (snd (m', y')). rewrite EQ. exact (AP j y NE SF EY p IP).
        -- exact (AP i z NI NDI Z).
      * apply load_eq. intros p IP. pose proof (AP j y NE SF EY p IP) as NV.
        change m' with (fst (m', y')). rewrite EQ. unfold save. cbn [fst].
        rewrite !upd_other; [reflexivity| |]; intros ->; apply NV; cbn; tauto.
  - injection H as <- <-. cbn [mc_mem mc_ctx]. exists x. split; [exact X|]. split; [exact IN|]. split; [reflexivity|]. split; [exact AP|].
    apply load_eq. intros p IP. apply upd_other. intros ->. exact (SF IP).
  - destruct SF as (NI & DI & NJ & DJ & FR). destruct (mc_ctx d i) as [y|] eqn:EY; [|discriminate]. injection H as <- <-. cbn [mc_mem mc_ctx].
    exists x. split; [rewrite put_other by congruence; exact X|]. split; [exact IN|]. split; [reflexivity|]. split.
    + intros h z NH NDH Z. cbn [mc_ctx] in Z. unfold put in Z. destruct (N.eqb_spec h j) as [->|NE].
      * injection Z as <-. exact (AP i y NI DI EY).
      * exact (AP h z NH NDH Z).
    + apply load_eq. intros p IP. destruct p as [a|h b]; [reflexivity|]. destruct (N.eqb_spec h j) as [->|NE]; [|reflexivity].
      exfalso. exact (FR b IP).
  - contradiction.
Qed.

Lemma sessions dead k l : forall d x d' os,
  ~ dead k -> mc_ctx d k = Some x -> inner x -> apart dead d k (places x) ->
  (forall e, In e l -> safe dead k (places x) e) -> perform cr d l = Some (d', os) ->
  exists x', mc_ctx d' k = Some x' /\
    run cr (load (mc_mem d) x) (calls_for k l) = (load (mc_mem d') x', seen_of k os).
Proof.
  induction l as [|e r IH]; intros d x d' os DK X IN AP SF H; cbn [perform] in H.
  - injection H as <- <-. exists x. split; [exact X|]. reflexivity.
  - destruct (act cr d e) as [[d1 o]|] eqn:EA; [|discriminate].
    destruct (perform cr d1 r) as [[d2 os2]|] eqn:EP; [|discriminate]. injection H as <- <-.
    destruct (act_safe dead k x e d d1 o DK X IN AP (SF e (or_introl eq_refl)) EA) as (x1 & X1 & IN1 & P1 & AP1 & HE).
    rewrite <- P1 in AP1.
    destruct (IH d1 x1 d2 os2 DK X1 IN1 AP1 ltac:(intros e' I; rewrite P1; apply SF; right; exact I) EP) as (x' & X' & R).
    exists x'. split; [exact X'|].
    destruct e as [j s gf|j a|a b|i j|m]; cbn [calls_for flat_map app]; fold (calls_for k r).
    1,3,4,5: rewrite <- HE; exact R.
    destruct (N.eqb_spec j k) as [->|NE].
    + destruct HE as (ob & -> & HX & HU). cbn [seen_of flat_map fst snd]. rewrite N.eqb_refl. fold (seen_of k os2).
      cbn [app run]. rewrite HX, HU, R. reflexivity.
    + destruct o as [ob|].
      * cbn [seen_of flat_map fst snd]. fold (seen_of k os2). destruct (N.eqb_spec j k); [contradiction|]. cbn [app]. rewrite <- HE. exact R.
      * cbn [app]. rewrite <- HE. exact R.
Qed.

(** A structure right after its initialisation. *)
Lemma laid_out_settled m k s c m' x :
  laid_out m k s c = (m', x) -> (exists a, array_of (su_sender_id s) a) -> (exists a, array_of (su_id_context s) a) ->
  settled k x /\ sx_sid x = su_sender_id s /\ sx_id_context x = su_id_context s.
Proof. unfold laid_out. intros H A B. injection H as <- <-. repeat split; cbn; try reflexivity; assumption. Qed.
Lemma settled_inner k x : settled k x -> inner x.
Proof.
  intros (A & B & C & D & E & F & (a & G) & (b & H)). unfold inner, fixed, variable. unfold array_of in *.
  rewrite A, B, C, D, E, F, G, H. cbn. split; [discriminate|]. intros p I. intuition (subst; discriminate).
Qed.
Lemma settled_places k x p : settled k x -> In p (places x) ->
  (exists b, p = PMember k b) \/ p = w_at (sx_sid x) \/ p = w_at (sx_id_context x).
Proof.
  intros (A & B & C & D & E & F & _) I. unfold places, fixed, variable in I. rewrite A, B, C, D, E, F in I. cbn in I.
  destruct I as [I|[I|[I|[I|[I|[I|[I|[I|[]]]]]]]]]; subst; eauto.
Qed.

Lemma init_fields p nvm gn ge gf c : oscore_context_init cr p nvm gn ge gf = Ok c ->
  c_nonce c = gn /\ c_echo_buf c = ge /\ c_sid c = ip_sender_id p /\ c_id_context c = ip_id_context p /\ c_rid c = ip_recipient_id p.
Proof.
  unfold oscore_context_init. intros H. destruct (negb _); [discriminate|]. destruct (negb _); [discriminate|].
  apply bind_ok in H as (iv & _ & H). destruct (_ <? _); [discriminate|].
  apply bind_ok in H as (rk & _ & H). apply bind_ok in H as (sn & _ & H). apply bind_ok in H as (sk & _ & H).
  injection H as <-. repeat split.
Qed.

Lemma load_laid_out m k s c p nvm gf m' x :
  (exists a, array_of (su_sender_id s) a) -> (exists a, array_of (su_id_context s) a) -> p = given m s ->
  oscore_context_init cr p nvm (takeN 13 (m (PMember k MNonce))) (m (PMember k MEcho)) gf = Ok c ->
  laid_out m k s c = (m', x) -> load m' x = c.
Proof.
  intros (a & A) (b & B) -> EI H. apply init_fields in EI as (F1 & F2 & F3 & F4 & F5). unfold laid_out in H.
  unfold array_of in *. cbn [given ip_sender_id ip_id_context ip_recipient_id] in *.
  set (m4 := upd _ (PMember k MSkey) _) in H. injection H as <- <-.
  assert (FA : forall q, m4 (PArray q) = m (PArray q)) by (intros q; unfold m4; rewrite !upd_other by discriminate; reflexivity).
  apply ctx_ext; try reflexivity.
  - change (takeN 13 (m4 (PMember k MNonce)) = c_nonce c). unfold m4. rewrite !upd_other by discriminate. symmetry. exact F1.
  - change (m4 (PMember k MEcho) = c_echo_buf c). unfold m4. rewrite !upd_other by discriminate. symmetry. exact F2.
  - change (look m4 (su_id_context s) = c_id_context c). rewrite F4. apply look_eq. rewrite B. apply FA.
  - change (takeN (lenN (c_iv c)) (m4 (PMember k MIv)) = c_iv c). unfold m4. rewrite !upd_other by discriminate. rewrite upd_same. apply takeN_len.
  - change (look m4 (su_sender_id s) = c_sid c). rewrite F3. apply look_eq. rewrite A. apply FA.
  - change (takeN (lenN (c_skey c)) (m4 (PMember k MSkey)) = c_skey c). unfold m4. rewrite upd_same. apply takeN_len.
  - change (takeN (lenN (c_rid c)) (m4 (PMember k MRid)) = c_rid c). unfold m4. rewrite 2!upd_other by discriminate. rewrite upd_same. apply takeN_len.
  - change (takeN (lenN (c_rkey c)) (m4 (PMember k MRkey)) = c_rkey c). unfold m4. rewrite upd_other by discriminate. rewrite upd_same. apply takeN_len.
Qed.

Theorem created k s gf d d1 o l d' os :
  act cr d (DInit k s gf) = Some (d1, o) ->
  (exists a, array_of (su_sender_id s) a) -> (exists a, array_of (su_id_context s) a) -> unshared d k ->
  (forall e, In e l -> leaves_alone k s e) -> perform cr d1 l = Some (d', os) ->
  let p := given (mc_mem d) s in
  exists gn ge c, oscore_context_init cr p (Ok (mc_nvm d (key_given p))) gn ge gf = Ok c /\
    seen_of k os = snd (run cr c (calls_for k l)).
Proof.
  intros H A B US LA EP p. unfold act in H. fold p in H.
  destruct (oscore_context_init cr p _ _ _ gf) as [c|?|?] eqn:EI; try discriminate.
  destruct (laid_out (mc_mem d) k s c) as [m' x] eqn:EL. injection H as <- <-.
  pose proof (load_laid_out _ _ _ _ _ _ _ _ _ A B eq_refl EI EL) as LD.
  pose proof (laid_out_settled _ _ _ _ _ _ EL A B) as (ST & S1 & S2).
  destruct (sessions (fun _ => False) k l {| mc_mem := m'; mc_ctx := put (mc_ctx d) k (Some x); mc_nvm := mc_nvm d |} x d' os) as (x' & _ & R).
  - tauto.
  - cbn. apply put_same.
  - eapply settled_inner; eassumption.
  - intros j y NJ _ Y q IQ. cbn in Y. rewrite put_other in Y by exact NJ. destruct (US j y NJ Y) as [U1 U2].
    destruct U1 as (i1 & b1 & N1 & E1), U2 as (i2 & b2 & N2 & E2). pose proof (settled_places k x q ST IQ) as Q. rewrite S1, S2 in Q.
    destruct A as (a & A), B as (b & B). unfold array_of in *. rewrite A, B in Q. unfold variable. rewrite E1, E2.
    intros [Z|[Z|[]]]; subst q; destruct Q as [(b' & Q)|[Q|Q]]; try discriminate; injection Q; congruence.
  - intros e IE. specialize (LA e IE). destruct A as (a & A), B as (b & B). unfold array_of in *.
    assert (Q : forall q, In q (places x) -> (exists b, q = PMember k b) \/ q = PArray a \/ q = PArray b).
    { intros q IQ. pose proof (settled_places k x q ST IQ) as Q. rewrite S1, S2, A, B in Q. exact Q. }
    destruct e as [j s' gf'|j c'|a' b'|i j|m]; cbn [leaves_alone safe] in *.
    + split; [exact LA|]. split; [tauto|]. intros b' I. destruct (Q _ I) as [(b2 & Z)|[Z|Z]]; try discriminate. injection Z; congruence.
    + tauto.
    + intros I. unfold array_of in LA. destruct (Q _ I) as [(b2 & Z)|[Z|Z]]; try discriminate; destruct LA as [L1 L2]; congruence.
    + destruct LA as [L1 L2]. split; [exact L1|]. split; [tauto|]. split; [exact L2|]. split; [tauto|].
      intros b' I. destruct (Q _ I) as [(b2 & Z)|[Z|Z]]; try discriminate. injection Z; congruence.
    + contradiction.
  - exact EP.
  - cbn [mc_mem] in R. rewrite LD in R. do 3 eexists. split; [exact EI|]. rewrite R. reflexivity.
Qed.

(** A structure that was moved. *)
Theorem moved k j d x d1 o l d' os :
  k <> j -> mc_ctx d k = Some x -> settled k x -> act cr d (DCopy k j) = Some (d1, o) ->
  (forall i y, i <> k -> i <> j -> mc_ctx d i = Some y -> elsewhere k (sx_nonce y) /\ elsewhere k (sx_echo_val y)) ->
  (forall e, In e l -> gives_up k j x e) -> perform cr d1 l = Some (d', os) ->
  seen_of j os = snd (run cr (load (mc_mem d) x) (calls_for j l)).
Proof.
  intros NE X ST H EW GU EP. cbn [act] in H. rewrite X in H. injection H as <- <-.
  set (d1 := {| mc_mem := _; mc_ctx := _; mc_nvm := _ |}) in EP.
  pose proof (settled_places k x) as SP.
  assert (Q : forall q, In q (places x) -> (exists b, q = PMember k b) \/ exists a, q = PArray a /\ (array_of (sx_sid x) a \/ array_of (sx_id_context x) a)).
  { intros q IQ. pose proof (SP q ST IQ) as Q. destruct ST as (_ & _ & _ & _ & _ & _ & (a & A) & (b & B)).
    destruct Q as [Q|[Q|Q]]; [left; exact Q|right; exists a|right; exists b]; unfold array_of in *; split; try tauto; congruence. }
  destruct (sessions (eq k) j l d1 x d' os) as (x' & _ & R).
  - exact NE.
  - unfold d1. cbn. apply put_same.
  - eapply settled_inner; eassumption.
  - intros i y NI ND Y q IQ. unfold d1 in Y. cbn in Y. rewrite put_other in Y by exact NI.
    destruct (EW i y ltac:(congruence) NI Y) as [(i1 & b1 & N1 & E1) (i2 & b2 & N2 & E2)]. unfold variable. rewrite E1, E2.
    intros [Z|[Z|[]]]; subst q; destruct (Q _ IQ) as [(b' & W)|(a & W & _)]; try discriminate; injection W; congruence.
  - intros e IE. specialize (GU e IE). destruct e as [h s' gf'|h c'|a' b'|h i|m]; cbn [gives_up safe] in *.
    + destruct GU as [G1 G2]. split; [exact G2|]. split; [congruence|]. intros b' I. destruct (Q _ I) as [(b2 & Z)|(a & Z & _)]; try discriminate. injection Z; congruence.
    + congruence.
    + destruct GU as [G1 G2]. intros I. destruct (Q _ I) as [(b2 & Z)|(a & Z & [Y|Y])]; try discriminate; injection Z as <-; tauto.
    + destruct GU as (G1 & G2 & G3 & G4). repeat split; try congruence. intros b' I. destruct (Q _ I) as [(b2 & Z)|(a & Z & _)]; try discriminate. injection Z; congruence.
    + contradiction.
  - exact EP.
  - assert (LD : load (mc_mem d1) x = load (mc_mem d) x).
    { apply load_eq. intros q IQ. unfold d1. cbn [mc_mem]. destruct (Q _ IQ) as [(b' & ->)|(a & -> & _)]; [|reflexivity].
      destruct (N.eqb_spec k j); [contradiction|reflexivity]. }
    rewrite LD in R. rewrite R. reflexivity.
Qed.

(** Several contexts, restarts and the memory: each is alone with its own number. *)
Definition tidy (d : machine) : Prop := forall k x, mc_ctx d k = Some x -> settled k x.
Definition distinct (d : machine) : Prop := forall j k y x, j <> k -> mc_ctx d j = Some y -> mc_ctx d k = Some x ->
  key_of (load (mc_mem d) y) <> key_of (load (mc_mem d) x).

Lemma settled_save k x m c : settled k x -> settled k (snd (save m x c)).
Proof.
  unfold settled, save. cbn. intros (A & B & C & D & E & F & G & H).
  rewrite A, B in *. cbn [w_at w_len] in *. repeat split; auto.
Qed.
Lemma settled_apart j y k x p : settled j y -> settled k x -> j <> k -> In p (places x) -> ~ In p (variable y).
Proof.
  intros SJ SK NE IP IV. pose proof (settled_places k x p SK IP) as Q.
  destruct SJ as (A & B & _). destruct SK as (_ & _ & _ & _ & _ & _ & (a & E) & (b & F)). unfold variable in IV. rewrite A, B in IV. cbn in IV.
  unfold array_of in *. rewrite E, F in Q. destruct IV as [IV|[IV|[]]]; subst p; destruct Q as [(b' & Q)|[Q|Q]]; try discriminate; injection Q; congruence.
Qed.
Lemma key_same c c' : same_keys c c' -> key_of c' = key_of c.
Proof. intros (_ & B & _ & _ & E & _ & G & _). unfold key_of. congruence. Qed.

Definition traced (key : nvm_key) (d : machine) (c : option ctx) : Prop :=
  forall k x, mc_ctx d k = Some x -> key_of (load (mc_mem d) x) = key -> c = Some (load (mc_mem d) x).

Definition acting (e : action) (k : N) : Prop :=
  match e with DInit j _ _ | DCall j _ => j = k | DRestart _ => True | _ => False end.
Lemma act_others e d d1 o : tidy d -> fine d e -> act cr d e = Some (d1, o) ->
  (forall k, ~ acting e k -> mc_ctx d1 k = mc_ctx d k) /\
  (forall k x, ~ acting e k -> mc_ctx d k = Some x -> load (mc_mem d1) x = load (mc_mem d) x).
Proof.
  intros TD FE H. destruct e as [j s gf|j a|a b|i j|m]; cbn [act fine acting] in *.
  - destruct (oscore_context_init _ _ _ _ _ _) as [c|?|?]; try discriminate. unfold laid_out in H. injection H as <- <-. cbn [mc_mem mc_ctx].
    split; [intros k NK; apply put_other; congruence|]. intros k x NK X. apply load_eq. intros p IP.
    pose proof (settled_places k x p (TD k x X) IP) as Q. destruct (TD k x X) as (_ & _ & _ & _ & _ & _ & (a & A) & (b & B)). unfold array_of in *.
    rewrite A, B in Q. rewrite !upd_other; [reflexivity| | | |]; intros ->; destruct Q as [(b' & Q)|[Q|Q]]; try discriminate; injection Q; congruence.
  - destruct (mc_ctx d j) as [y|] eqn:EY; [|discriminate]. destruct (exec cr _ a) as [c' ob] eqn:EX. destruct (is_ub _); [discriminate|].
    remember (save (mc_mem d) y c') as q eqn:EQ. destruct q as [m' y']. injection H as <- <-. cbn [mc_mem mc_ctx].
    split; [intros k NK; apply put_other; congruence|]. intros k x NK X. apply load_eq. intros p IP.
    pose proof (settled_apart j y k x p (TD _ _ EY) (TD _ _ X) NK IP) as NV. change m' with (fst (m', y')). rewrite EQ. unfold save. cbn [fst].
    rewrite !upd_other; [reflexivity| |]; intros ->; apply NV; cbn; tauto.
  - injection H as <- <-. cbn [mc_mem mc_ctx]. split; [reflexivity|]. intros k x _ X. apply load_eq. intros p IP.
    pose proof (settled_places k x p (TD k x X) IP) as Q. destruct (FE k x X) as [F1 F2]. unfold array_of in *.
    apply upd_other. intros ->. destruct Q as [(b' & Q)|[Q|Q]]; [discriminate| |]; symmetry in Q; contradiction.
  - contradiction.
  - injection H as <- <-. split; [intros k N; destruct (N I)|intros k x N; destruct (N I)].
Qed.

Lemma alone_step key e d c d1 o : tidy d -> distinct d -> traced key d c -> fine d e -> act cr d e = Some (d1, o) ->
  tidy d1 /\ distinct d1 /\
  match e with
  | DInit k s gf =>
      let p := given (mc_mem d) s in
      mc_nvm d1 = mc_nvm d /\
      if key_eqb (key_given p) key
      then exists c1, oscore_context_init cr p (Ok (mc_nvm d (key_given p))) (takeN 13 (mc_mem d (PMember k MNonce))) (mc_mem d (PMember k MEcho)) gf = Ok c1 /\
             traced key d1 (Some c1)
      else traced key d1 c
  | DCall k a =>
      exists x c1 ob, mc_ctx d k = Some x /\ o = Some ob /\ exec cr (load (mc_mem d) x) a = (c1, ob) /\ is_ub (ob_res ob) = false /\
        mc_nvm d1 = kept (mc_nvm d) (key_of (load (mc_mem d) x)) a ob /\
        traced key d1 (if key_eqb (key_of (load (mc_mem d) x)) key then Some c1 else c)
  | _ => mc_nvm d1 = mc_nvm d /\ traced key d1 c
  end.
Proof.
  intros TD DD TR FE H. pose proof (act_others e d d1 o TD FE H) as [OC OL].
  destruct e as [j s gf|j a|a b|i j|m]; cbn [act fine acting] in *.
  - destruct FE as (A & B & FK). destruct (oscore_context_init cr _ _ _ _ gf) as [c1|?|?] eqn:EI; try discriminate.
    destruct (laid_out (mc_mem d) j s c1) as [m' x] eqn:EL. injection H as <- <-. cbn [mc_mem mc_ctx mc_nvm] in *.
    pose proof (load_laid_out _ _ _ _ _ _ _ _ _ A B eq_refl EI EL) as LD.
    pose proof (laid_out_settled _ _ _ _ _ _ EL A B) as (ST & _ & _).
    assert (KX : key_of (load m' x) = key_given (given (mc_mem d) s)).
    { rewrite LD. apply init_fields in EI as (_ & _ & F3 & F4 & F5). unfold key_of, key_given. congruence. }
    split; [|split; [|split; [reflexivity|]]].
    + intros k y Y. cbn [mc_ctx] in Y. destruct (N.eq_dec k j) as [->|NE]; [rewrite put_same in Y; injection Y as <-; exact ST|].
      rewrite put_other in Y by exact NE. exact (TD k y Y).
    + intros h k y z NE Y Z. cbn [mc_ctx mc_mem] in *. unfold put in Y, Z. destruct (N.eqb_spec h j) as [->|NH], (N.eqb_spec k j) as [->|NK]; try congruence.
      * injection Y as <-. rewrite KX, (OL k z ltac:(congruence) Z). intros Q. exact (FK k z NK Z (eq_sym Q)).
      * injection Z as <-. rewrite KX, (OL h y ltac:(congruence) Y). exact (FK h y NH Y).
      * rewrite (OL h y ltac:(congruence) Y), (OL k z ltac:(congruence) Z). exact (DD h k y z NE Y Z).
    + destruct (key_eqb (key_given (given (mc_mem d) s)) key) eqn:EK.
      * exists c1. split; [reflexivity|]. apply key_eqb_eq in EK. intros k y Y KY. cbn [mc_ctx mc_mem] in *. unfold put in Y. destruct (N.eqb_spec k j) as [->|NE].
        -- injection Y as <-. rewrite LD. reflexivity.
        -- exfalso. rewrite (OL k y ltac:(congruence) Y) in KY. apply (FK k y NE Y). congruence.
      * intros k y Y KY. cbn [mc_ctx mc_mem] in *. unfold put in Y. destruct (N.eqb_spec k j) as [->|NE].
        -- injection Y as <-. rewrite KX in KY. rewrite KY, key_eqb_refl in EK. discriminate.
        -- rewrite (OL k y ltac:(congruence) Y) in *. exact (TR k y Y KY).
  - destruct (mc_ctx d j) as [y|] eqn:EY; [|discriminate]. destruct (exec cr (load (mc_mem d) y) a) as [c1 ob] eqn:EX.
    destruct (is_ub (ob_res ob)) eqn:EU; [discriminate|].
    pose proof (exec_keys cr _ _ _ _ EX) as [SK _]. pose proof (load_save _ _ _ (settled_inner _ _ (TD _ _ EY)) SK) as LS.
    pose proof (settled_save j y (mc_mem d) c1 (TD _ _ EY)) as SS.
    destruct (save (mc_mem d) y c1) as [m' y'] eqn:EQ. cbn [fst snd] in LS, SS. injection H as <- <-. cbn [mc_mem mc_ctx mc_nvm] in *.
    assert (KX : key_of (load m' y') = key_of (load (mc_mem d) y)) by (rewrite LS; apply key_same, SK).
    split; [|split].
    + intros k z Z. cbn [mc_ctx] in Z. destruct (N.eq_dec k j) as [->|NE]; [rewrite put_same in Z; injection Z as <-; exact SS|].
      rewrite put_other in Z by exact NE. exact (TD k z Z).
    + intros h k u z NE U Z. cbn [mc_ctx mc_mem] in *. unfold put in U, Z. destruct (N.eqb_spec h j) as [->|NH], (N.eqb_spec k j) as [->|NK]; try congruence.
      * injection U as <-. rewrite KX, (OL k z ltac:(congruence) Z). exact (DD j k y z NE EY Z).
      * injection Z as <-. rewrite KX, (OL h u ltac:(congruence) U). exact (DD h j u y NE U EY).
      * rewrite (OL h u ltac:(congruence) U), (OL k z ltac:(congruence) Z). exact (DD h k u z NE U Z).
    + exists y, c1, ob. split; [reflexivity|]. split; [reflexivity|]. split; [exact EX|]. split; [exact EU|]. split; [reflexivity|].
      intros k z Z KZ. cbn [mc_ctx mc_mem] in *. unfold put in Z. destruct (N.eqb_spec k j) as [->|NE].
      * injection Z as <-. rewrite KX in KZ. rewrite KZ, key_eqb_refl, LS. reflexivity.
      * rewrite (OL k z ltac:(congruence) Z) in *. rewrite key_eqb_neq; [exact (TR k z Z KZ)|]. rewrite <- KZ. exact (DD j k y z ltac:(congruence) EY Z).
  - injection H as <- <-. cbn [mc_mem mc_ctx mc_nvm] in *. split; [exact TD|]. split; [|split; [reflexivity|]].
    + intros h k u z NE U Z. cbn [mc_ctx mc_mem] in *. rewrite (OL h u ltac:(tauto) U), (OL k z ltac:(tauto) Z). exact (DD h k u z NE U Z).
    + intros k z Z KZ. cbn [mc_ctx mc_mem] in *. rewrite (OL k z ltac:(tauto) Z) in *. exact (TR k z Z KZ).
  - contradiction.
  - injection H as <- <-. cbn [mc_mem mc_ctx mc_nvm] in *. split; [|split; [|split; [reflexivity|]]]; intros ? ? ?; try discriminate.
Qed.

Lemma alone_gen key l : forall d c d' os, tidy d -> distinct d -> traced key d c -> orderly cr d l ->
  perform cr d l = Some (d', os) ->
  exists c', solo cr c (mc_nvm d key) (fst (part cr key d l)) = Some (c', mc_nvm d' key, snd (part cr key d l)) /\ traced key d' c'.
Proof.
  induction l as [|e r IH]; intros d c d' os TD DD TR OR H; cbn [perform part orderly] in *.
  - injection H as <- <-. exists c. split; [reflexivity|exact TR].
  - destruct OR as [FE OR]. destruct (act cr d e) as [[d1 o]|] eqn:EA; [|discriminate]. specialize (OR d1 o eq_refl).
    destruct (perform cr d1 r) as [[d2 os2]|] eqn:EP; [|discriminate]. injection H as <- <-.
    destruct (alone_step key e d c d1 o TD DD TR FE EA) as (TD1 & DD1 & ST).
    destruct (part cr key d1 r) as [es obs] eqn:EPA.
    assert (IH' : forall c1, traced key d1 c1 -> exists c', solo cr c1 (mc_nvm d1 key) es = Some (c', mc_nvm d2 key, obs) /\ traced key d2 c').
    { intros c1 T1. specialize (IH d1 c1 d2 os2 TD1 DD1 T1 OR EP). rewrite EPA in IH. exact IH. }
    destruct e as [j s gf|j a|a b|i j|m].
    + destruct ST as [NV ST]. rewrite NV in IH'. destruct (key_eqb (key_given (given (mc_mem d) s)) key) eqn:EK.
      * destruct ST as (c1 & EI & T1). apply key_eqb_eq in EK. rewrite EK in EI. cbn [fst snd solo]. rewrite EI. exact (IH' _ T1).
      * exact (IH' _ ST).
    + destruct ST as (x & c1 & ob & X & -> & EX & EU & NV & T1). rewrite X. destruct (key_eqb (key_of (load (mc_mem d) x)) key) eqn:EK.
      * apply key_eqb_eq in EK. pose proof (TR j x X EK) as ->. destruct (IH' _ T1) as (c' & S & T'). exists c'. split; [|exact T'].
        cbn [fst snd solo]. rewrite EX, EU. rewrite NV in S. rewrite EK in S. unfold kept in S.
        destruct a as [nw input buf|input buf]; [|rewrite S; reflexivity]. destruct (ob_nvm ob) as [v|]; [|rewrite S; reflexivity].
        destruct (nw v); [|rewrite S; reflexivity|rewrite S; reflexivity]. rewrite key_eqb_refl in S. rewrite S. reflexivity.
      * destruct (IH' _ T1) as (c' & S & T'). exists c'. split; [|exact T']. cbn [fst snd].
        replace (mc_nvm d key) with (mc_nvm d1 key); [exact S|]. rewrite NV. unfold kept.
        destruct a as [nw input buf|input buf]; [|reflexivity]. destruct (ob_nvm ob) as [v|]; [|reflexivity]. destruct (nw v); try reflexivity.
        rewrite key_eqb_neq; [reflexivity|]. intros Q. rewrite <- Q, key_eqb_refl in EK. discriminate.
    + destruct ST as [NV ST]. rewrite NV in IH'. exact (IH' _ ST).
    + destruct FE.
    + destruct ST as [NV ST]. rewrite NV in IH'. exact (IH' _ ST).
Qed.

Theorem alone key l d d' os : (forall k, mc_ctx d k = None) -> orderly cr d l -> perform cr d l = Some (d', os) ->
  exists c, solo cr None (mc_nvm d key) (fst (part cr key d l)) = Some (c, mc_nvm d' key, snd (part cr key d l)) /\
    forall k x, mc_ctx d' k = Some x -> key_of (load (mc_mem d') x) = key -> c = Some (load (mc_mem d') x).
Proof.
  intros B OR H. apply (alone_gen key l d None d' os); try assumption.
  - intros k x X. rewrite B in X. discriminate.
  - intros j k y x _ Y. rewrite B in Y. discriminate.
  - intros k x X. rewrite B in X. discriminate.
Qed.

(** One context over several boots is a lifetime of Spec_Nvm. *)
Lemma careful_lives p v0 l : forall c v w used c' v' os before f,
  lives cr p v0 v c w f before -> solo cr c v l = Some (c', v', os) -> careful cr p c v w l used ->
  exists w' f' all, lives cr p v0 v' c' w' f' all /\ (NoDup all -> NoDup used).
Proof.
  assert (G : forall l c v w used c' v' os before f,
    lives cr p v0 v c w f before -> solo cr c v l = Some (c', v', os) -> careful cr p c v w l used ->
    exists w' f' all, lives cr p v0 v' c' w' f' all /\ exists us, all = us ++ before /\ forall n, NoDup (us ++ n) -> NoDup (used ++ n)).
  { clear l. induction l as [|e r IH]; intros c v w used c' v' os before f LV SO CA; cbn [solo careful] in *.
    - injection SO as <- <- <-. subst used. exists w, f, before. split; [exact LV|]. exists []. split; [reflexivity|auto].
    - destruct e as [q gn ge gf|a].
      + destruct CA as [-> CA]. destruct (oscore_context_init cr p (Ok v) gn ge gf) as [c1|?|?] eqn:EI; try discriminate.
        exact (IH _ _ _ _ _ _ _ _ _ (lives_boot cr p v0 v c w f before gn ge gf c1 LV EI) SO (CA c1 eq_refl)).
      + destruct c as [c0|]; [|discriminate]. destruct (exec cr c0 a) as [c1 o] eqn:EX. destruct (is_ub (ob_res o)); [discriminate|].
        destruct a as [nw input buf|input buf].
        * destruct CA as [NW CA]. destruct (CA c0 c1 o eq_refl EX) as (ns & us & -> & NS & CA').
          assert (ND : forall us' n, (forall m, NoDup (us' ++ m) -> NoDup (us ++ m)) -> NoDup ((us' ++ ns) ++ n) -> NoDup ((ns ++ us) ++ n)).
          { intros us' n HI HN. rewrite <- app_assoc in HN. apply HI in HN. apply (Permutation.Permutation_NoDup (l := us ++ ns ++ n)); [|exact HN].
            rewrite !app_assoc. apply Permutation.Permutation_app_tail, Permutation.Permutation_app_comm. }
          destruct (ob_nvm o) as [x|] eqn:EN.
          -- rewrite NW in SO. destruct (solo cr (Some c1) x r) as [[[cf vf] os']|] eqn:ES; [|discriminate]. injection SO as <- <- <-.
             destruct (IH _ _ _ _ _ _ _ _ _ (lives_send_write cr p v0 v c0 w f before nw input buf c1 o ns x LV EX NS EN (NW x)) ES CA') as (w' & f' & all & L' & us' & -> & HI).
             exists w', f', (us' ++ ns ++ before). split; [exact L'|]. exists (us' ++ ns). split; [apply app_assoc|]. intros n. apply ND, HI.
          -- destruct (solo cr (Some c1) v r) as [[[cf vf] os']|] eqn:ES; [|discriminate]. injection SO as <- <- <-.
             destruct (IH _ _ _ _ _ _ _ _ _ (lives_send cr p v0 v c0 w f before nw input buf c1 o ns LV EX NS EN) ES CA') as (w' & f' & all & L' & us' & -> & HI).
             exists w', f', (us' ++ ns ++ before). split; [exact L'|]. exists (us' ++ ns). split; [apply app_assoc|]. intros n. apply ND, HI.
        * destruct (CA c0 c1 o eq_refl EX) as [EC CA']. destruct (solo cr (Some c1) v r) as [[[cf vf] os']|] eqn:ES; [|discriminate]. injection SO as <- <- <-.
          exact (IH _ _ _ _ _ _ _ _ _ (lives_recv cr p v0 v c0 w f before input buf c1 o LV EX EC) ES CA'). }
  intros c v w used c' v' os before f LV SO CA. destruct (G l c v w used c' v' os before f LV SO CA) as (w' & f' & all & L & us & -> & HI).
  exists w', f', (us ++ before). split; [exact L|]. intros ND. specialize (HI [] ). rewrite !app_nil_r in HI. apply HI.
  clear - ND. induction us as [|n us IH]; [constructor|]. cbn in ND. apply NoDup_cons_iff in ND as [A B]. constructor; [|exact (IH B)].
  intros I. apply A, in_or_app. left. exact I.
Qed.

Theorem nonces p key l d d' os used :
  (forall k m, lenN (cr_hmac cr k m) = 32) -> ip_fresh p = false -> mc_nvm d key < 2 ^ 62 ->
  (forall k, mc_ctx d k = None) -> orderly cr d l -> perform cr d l = Some (d', os) ->
  careful cr p None (mc_nvm d key) false (fst (part cr key d l)) used -> NoDup used.
Proof.
  intros HL HF HV B OR H CA. destruct (alone key l d d' os B OR H) as (c & SO & _).
  destruct (careful_lives p (mc_nvm d key) _ _ _ _ _ _ _ _ [] 0 (lives_start cr p (mc_nvm d key)) SO CA) as (w' & f' & all & L & ND).
  apply ND. apply (lives_inv cr p (mc_nvm d key) _ _ _ _ _ HL HF HV L).
Qed.
End Sessions.
