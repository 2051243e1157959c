(** Property C69: several contexts on one device, and the arrays they were made from. *)
From Verif Require Import Base Proof_Base Model_Common Model_Crypto Model_OscorePrims Model_Coap Model_Context
  Model_Send Model_Recv Model_Run Model_Store Spec_Session Spec_Nvm Spec_Store Model_Toy Proof_Toy Model_ToyRun Proof_Store Prop_Echo Prop_Nonce.

(** Full statement: after oscore_context_init has returned, a context behaves as the
    parameters of that moment say, whatever the application does with its arrays, other
    contexts and the structure; and over restarts the contexts of a device do not disturb
    each other. It fails in the cases below. *)

(** Proved for one structure: if it is not assigned, initialised again or lost, and the
    arrays with the Sender ID and the ID context keep their contents, then all calls for it
    are those of a context made from the parameters. The arrays of the secret, the salt and
    the Recipient ID may be erased, and other contexts may be initialised, used, assigned. *)
Theorem C69_sessions_partial :
  forall (cr : crypto) (k : N) (s : setup) (gf : N) (d d1 d' : machine) (o : option obs) (l : list action) (os : list (N * obs)),
  act cr d (DInit k s gf) = Some (d1, o) ->
  (exists a, array_of (su_sender_id s) a) -> (exists a, array_of (su_id_context s) a) -> unshared d k ->
  (forall e, In e l -> leaves_alone k s e) -> perform cr d1 l = Some (d', os) ->
  let p := given (mc_mem d) s in
  exists gn ge c, oscore_context_init cr p (Ok (mc_nvm d (key_given p))) gn ge gf = Ok c /\
    seen_of k os = snd (run cr c (calls_for k l)).
Proof. intros cr k s gf d d1 d' o l os. apply created. Qed.
Print Assumptions C69_sessions_partial.

(** A structure may be assigned to another one if the old one is given up for good. *)
Theorem C69_moved_partial :
  forall (cr : crypto) (k j : N) (d d1 d' : machine) (x : scontext) (o : option obs) (l : list action) (os : list (N * obs)),
  k <> j -> mc_ctx d k = Some x -> settled k x -> act cr d (DCopy k j) = Some (d1, o) ->
  (forall i y, i <> k -> i <> j -> mc_ctx d i = Some y -> elsewhere k (sx_nonce y) /\ elsewhere k (sx_echo_val y)) ->
  (forall e, In e l -> gives_up k j x e) -> perform cr d1 l = Some (d', os) ->
  seen_of j os = snd (run cr (load (mc_mem d) x) (calls_for j l)).
Proof. intros cr k j d d1 d' x o l os. apply moved. Qed.
Print Assumptions C69_moved_partial.

(** Proved for a device with any number of contexts over any number of restarts, if the
    arrays are kept and contexts that exist at the same time differ in their identifiers:
    for each triple of identifiers the device is one with a single context and a single
    number in its memory, in what is observed, in the number and in the context. *)
Theorem C69_devices_partial :
  forall (cr : crypto) (key : nvm_key) (l : list action) (d d' : machine) (os : list (N * obs)),
  (forall k, mc_ctx d k = None) -> orderly cr d l -> perform cr d l = Some (d', os) ->
  exists c, solo cr None (mc_nvm d key) (fst (part cr key d l)) = Some (c, mc_nvm d' key, snd (part cr key d l)) /\
    forall k x, mc_ctx d' k = Some x -> key_of (load (mc_mem d') x) = key -> c = Some (load (mc_mem d') x).
Proof. intros cr key l d d' os. apply alone. Qed.
Print Assumptions C69_devices_partial.

(** Hence C09 for such a device: a nonce made from a sequence number is used once with the
    identifiers [key] over all boots. *)
Theorem C69_nonces_partial :
  forall (cr : crypto) (p : init_params) (key : nvm_key) (l : list action) (d d' : machine) (os : list (N * obs)) (used : list bytes),
  (forall k m, lenN (cr_hmac cr k m) = 32) -> ip_fresh p = false -> mc_nvm d key < 2 ^ 62 ->
  (forall k, mc_ctx d k = None) -> orderly cr d l -> perform cr d l = Some (d', os) ->
  careful cr p None (mc_nvm d key) false (fst (part cr key d l)) used -> NoDup used.
Proof. intros cr p key l d d' os used. apply nonces. Qed.
Print Assumptions C69_nonces_partial.

(** A device: arrays 1 to 7 contain identifiers, secrets and a salt. *)
Definition toy_store : store := fun q =>
  match q with
  | PArray 1 => [1] | PArray 2 => [2] | PArray 3 => repeat 1 16 | PArray 4 => [9; 9] | PArray 5 => repeat 7 16
  | PArray 6 => [3] | PArray 7 => [4]
  | PMember _ MNonce => repeat 0 13 | PMember _ MEcho => repeat 0 12
  | _ => []
  end.
Definition toy_machine : machine := {| mc_mem := toy_store; mc_ctx := fun _ => None; mc_nvm := fun _ => 0 |}.
Definition toy_view (a n : N) : view := {| w_at := PArray a; w_len := n |}.
Definition toy_setup (secret sid rid : N) (fresh : bool) : setup :=
  {| su_secret := toy_view secret 16; su_sender_id := toy_view sid 1; su_recipient_id := toy_view rid 1;
     su_id_context := toy_view 0 0; su_salt := toy_view 4 2; su_aead := 10; su_hkdf := 0; su_fresh := fresh |}.
Definition toy_outputs (l : list action) : list (N * bytes) :=
  match perform toy_crypto toy_machine l with
  | Some (_, os) => map (fun x => (fst x, match ob_res (snd x) with Ok n => takeN n (ob_buf (snd x)) | _ => [] end)) os
  | None => []
  end.
Definition toy_request (k t : N) : action := DCall k (ASend toy_nw (toy_get t) toy_out).

(** The array with the Sender ID is used again, for example as the place for the C_R of the
    next handshake (c_r of edhoc_initiator_run): the request of the first context carries
    the other identifier and its peer refuses it. Without the write it is delivered. *)
Definition toy_before : list action := [DInit 0 (toy_setup 3 1 2 true) 0; toy_request 0 5].
Definition toy_reused : list action := [DInit 0 (toy_setup 3 1 2 true) 0; DWrite 1 [8]; toy_request 0 5].
Example C69_sender_id_ex :
  (exists w, toy_outputs toy_before = [(0, w)] /\ snd (toy_recv toy_server w) = Ok (toy_get 5)) /\
  (exists w, toy_outputs toy_reused = [(0, w)] /\ snd (toy_recv toy_server w) = Err oscore_kid_recipient_id_mismatch).
Proof. split; eexists; (split; [vm_compute; reflexivity|vm_compute; reflexivity]). Qed.

(** Messages encrypted for the structure [k], and its key. *)
Definition enc_of (k : N) (os : list (N * obs)) : list (bytes * bytes * bytes) :=
  flat_map (fun o => match ob_enc o with Some e => [e] | None => [] end) (seen_of k os).
Definition sender_key (d : machine) (k : N) : option bytes :=
  match mc_ctx d k with Some x => Some (c_skey (load (mc_mem d) x)) | None => None end.
(** First [l1] happens, then [l2]. The structure [k] after [l1] and the structure [j] after
    [l2] have the same key, and have encrypted different plaintexts with the same nonce. *)
Definition nonce_reused (l1 : list action) (k : N) (l2 : list action) (j : N) : Prop :=
  exists d1 d2 os1 os2 key n a1 p1 a2 p2,
    perform toy_crypto toy_machine l1 = Some (d1, os1) /\ perform toy_crypto d1 l2 = Some (d2, os2) /\
    sender_key d1 k = Some key /\ sender_key d2 j = Some key /\
    In (n, a1, p1) (enc_of k os1) /\ In (n, a2, p2) (enc_of j os2) /\ p1 <> p2.
Definition same_bytes (a b : bytes) : bool := if list_eq_dec N.eq_dec a b then true else false.
Lemma same_bytes_eq a b : same_bytes a b = true -> a = b.
Proof. unfold same_bytes. destruct (list_eq_dec N.eq_dec a b); [auto|discriminate]. Qed.
Lemma same_bytes_neq a b : same_bytes a b = false -> a <> b.
Proof. unfold same_bytes. destruct (list_eq_dec N.eq_dec a b); [discriminate|auto]. Qed.
Definition reuse_found (l1 : list action) (k : N) (l2 : list action) (j : N) : bool :=
  match perform toy_crypto toy_machine l1 with
  | Some (d1, os1) =>
      match perform toy_crypto d1 l2 with
      | Some (d2, os2) =>
          match sender_key d1 k, sender_key d2 j with
          | Some a, Some b =>
              same_bytes a b &&
              existsb (fun x => existsb (fun y => same_bytes (fst (fst x)) (fst (fst y)) && negb (same_bytes (snd x) (snd y))) (enc_of j os2)) (enc_of k os1)
          | _, _ => false
          end
      | None => false
      end
  | None => false
  end.
Lemma reuse_is_found l1 k l2 j : reuse_found l1 k l2 j = true -> nonce_reused l1 k l2 j.
Proof.
  unfold reuse_found. intros H. destruct (perform toy_crypto toy_machine l1) as [[d1 os1]|] eqn:E1; [|discriminate].
  destruct (perform toy_crypto d1 l2) as [[d2 os2]|] eqn:E2; [|discriminate].
  destruct (sender_key d1 k) as [a|] eqn:K1; [|discriminate]. destruct (sender_key d2 j) as [b|] eqn:K2; [|discriminate].
  apply andb_prop in H as [H1 H2]. apply same_bytes_eq in H1. subst b.
  apply existsb_exists in H2 as ([[n a1] p1] & I1 & H2). apply existsb_exists in H2 as ([[n' a2] p2] & I2 & H2).
  cbn [fst snd] in H2. apply andb_prop in H2 as [H2 H3]. apply same_bytes_eq in H2. subst n'. apply negb_true_iff, same_bytes_neq in H3.
  exists d1, d2, os1, os2, a, n, a1, p1, a2, p2. repeat split; assumption.
Qed.

(** The array with the Sender ID is used again in each boot of a device that keeps its
    context. The numbers are then stored for the wrong identifier, so the next boot starts
    with the same number, although every write succeeded. *)
Definition toy_boot (request : bytes) : list action :=
  [DRestart toy_store; DInit 0 (toy_setup 3 1 2 false) 0; DWrite 1 [8]; DCall 0 (ASend toy_nw request toy_out)].
Example C69_sender_id_memory_ex : nonce_reused (toy_boot (toy_get 5)) 0 (toy_boot (toy_get_b 5)) 0.
Proof. apply reuse_is_found. vm_compute. reflexivity. Qed.

(** Two contexts with different secrets and the same identifiers share a number in the
    memory. One of them has sent 25 requests and the other one, which stores the smaller
    number last, one: after a restart the first one uses numbers again. *)
Example C69_same_ids_ex :
  nonce_reused
    ([DInit 0 (toy_setup 3 1 2 false) 0; DInit 1 (toy_setup 5 1 2 false) 0] ++ repeat (toy_request 0 5) 25 ++ [toy_request 1 6]) 0
    [DRestart toy_store; DInit 0 (toy_setup 3 1 2 false) 0; DCall 0 (ASend toy_nw (toy_get_b 5) toy_out)] 0.
Proof. apply reuse_is_found. vm_compute. reflexivity. Qed.

(** A structure is assigned to another one, and the first one is initialised for a new
    session. The copy still points to the key inside the first one: it encrypts for the old
    peer with the key of the new session, and with the same nonces. *)
Example C69_copy_ex :
  nonce_reused [DInit 0 (toy_setup 3 1 2 true) 0; DCopy 0 1; DInit 0 (toy_setup 5 1 2 true) 0; toy_request 0 5] 0
    [DCall 1 (ASend toy_nw (toy_get_b 5) toy_out)] 1 /\
  exists w, toy_outputs [DInit 0 (toy_setup 3 1 2 true) 0; DCopy 0 1; DInit 0 (toy_setup 5 1 2 true) 0; toy_request 1 5] = [(1, w)] /\
    is_ok (snd (toy_recv toy_server w)) = false.
Proof. split; [apply reuse_is_found; vm_compute; reflexivity|]. eexists. split; [vm_compute; reflexivity|]. vm_compute. reflexivity. Qed.

(** An array of structures, whose first session ends: the others are moved down by
    assignment. The session that was the second one and is now the first one points into
    the second structure, whose buffers were overwritten by the assignment of the third
    one: it uses the key and the nonces of the other session, and its peer refuses it. *)
Definition toy_down : list action :=
  [DInit 0 (toy_setup 5 6 7 true) 0; DInit 1 (toy_setup 3 1 2 true) 0; DInit 2 (toy_setup 5 1 2 true) 0; DCopy 1 0; DCopy 2 1].
Example C69_moved_down_ex :
  nonce_reused (toy_down ++ [toy_request 1 5]) 1 [DCall 0 (ASend toy_nw (toy_get_b 5) toy_out)] 0 /\
  exists w, toy_outputs (toy_down ++ [toy_request 0 5]) = [(0, w)] /\ is_ok (snd (toy_recv toy_server w)) = false.
Proof. split; [apply reuse_is_found; vm_compute; reflexivity|]. eexists. split; [vm_compute; reflexivity|]. vm_compute. reflexivity. Qed.

(** To check the hypotheses for concrete histories: [ks] are the structures in use. *)
Definition in_array (v : view) : bool := match w_at v with PArray _ => true | _ => false end.
Definition fine_b (d : machine) (ks : list N) (e : action) : bool :=
  match e with
  | DInit k s _ =>
      in_array (su_sender_id s) && in_array (su_id_context s) &&
      forallb (fun j => (j =? k) || match mc_ctx d j with Some y => negb (key_eqb (key_of (load (mc_mem d) y)) (key_given (given (mc_mem d) s))) | None => true end) ks
  | DWrite a _ =>
      forallb (fun j => match mc_ctx d j with
                        | Some y => negb (place_eqb (w_at (sx_sid y)) (PArray a)) && negb (place_eqb (w_at (sx_id_context y)) (PArray a))
                        | None => true end) ks
  | DCopy _ _ => false
  | _ => true
  end.
Definition in_use (ks : list N) (e : action) : list N := match e with DInit k _ _ => k :: ks | DRestart _ => [] | _ => ks end.
Fixpoint orderly_b (d : machine) (ks : list N) (l : list action) : bool :=
  match l with
  | [] => true
  | e :: r => fine_b d ks e && match act toy_crypto d e with Some (d', _) => orderly_b d' (in_use ks e) r | None => true end
  end.
Lemma in_array_of v : in_array v = true -> exists a, array_of v a.
Proof. unfold in_array, array_of. destruct (w_at v) as [a|]; [eauto|discriminate]. Qed.
Lemma act_in_use d e d' o ks : act toy_crypto d e = Some (d', o) -> fine_b d ks e = true ->
  (forall j, ~ In j ks -> mc_ctx d j = None) -> forall j, ~ In j (in_use ks e) -> mc_ctx d' j = None.
Proof.
  destruct e as [k s gf|k a|a b|i k|m]; cbn [act in_use fine_b]; intros H FB A j NI.
  - destruct (oscore_context_init _ _ _ _ _ _); try discriminate. destruct (laid_out _ _ _ _) as [m' x]. injection H as <- <-. cbn [mc_ctx].
    cbn in NI. rewrite put_other by (intros ->; tauto). apply A. tauto.
  - destruct (mc_ctx d k) as [x|] eqn:EX; [|discriminate]. destruct (exec _ _ _) as [c' ob]. destruct (is_ub _); [discriminate|].
    destruct (save _ _ _) as [m' x']. injection H as <- <-. cbn [mc_ctx]. rewrite put_other; [apply A, NI|].
    intros ->. rewrite (A k NI) in EX. discriminate.
  - injection H as <- <-. apply A, NI.
  - discriminate.
  - injection H as <- <-. reflexivity.
Qed.
Lemma fine_b_fine d ks e : (forall j, ~ In j ks -> mc_ctx d j = None) -> fine_b d ks e = true -> fine d e.
Proof.
  intros A. assert (I : forall j y, mc_ctx d j = Some y -> In j ks).
  { intros j y Y. destruct (in_dec N.eq_dec j ks) as [I|NI]; [exact I|]. rewrite (A j NI) in Y. discriminate. }
  destruct e as [k s gf|k a|a b|i k|m]; cbn [fine fine_b]; intros H; try exact I0; try discriminate; auto.
  - apply andb_prop in H as [H H3]. apply andb_prop in H as [H1 H2]. split; [apply in_array_of, H1|]. split; [apply in_array_of, H2|].
    intros j y NE Y Q. rewrite forallb_forall in H3. specialize (H3 j (I j y Y)). rewrite Y in H3.
    destruct (N.eqb_spec j k) as [->|_]; [contradiction|]. cbn [orb] in H3. rewrite Q, key_eqb_refl in H3. discriminate.
  - intros j y Y. rewrite forallb_forall in H. specialize (H j (I j y Y)). rewrite Y in H. apply andb_prop in H as [H1 H2].
    unfold array_of. split; intros E; [rewrite E in H1|rewrite E in H2]; cbn in H1, H2; rewrite N.eqb_refl in *; discriminate.
Qed.
Lemma orderly_b_orderly l : forall d ks, (forall j, ~ In j ks -> mc_ctx d j = None) -> orderly_b d ks l = true -> orderly toy_crypto d l.
Proof.
  induction l as [|e r IH]; intros d ks A H; cbn [orderly orderly_b] in *; [exact I|].
  apply andb_prop in H as [H1 H2]. split; [eapply fine_b_fine; eassumption|]. intros d' o EA. rewrite EA in H2.
  apply (IH d' (in_use ks e)); [|exact H2]. exact (act_in_use d e d' o ks EA H1 A).
Qed.
Definition same_params (p q : init_params) : bool :=
  same_bytes (ip_secret p) (ip_secret q) && same_bytes (ip_sender_id p) (ip_sender_id q) && same_bytes (ip_recipient_id p) (ip_recipient_id q) &&
  same_bytes (ip_id_context p) (ip_id_context q) && same_bytes (ip_salt p) (ip_salt q) && (ip_aead p =? ip_aead q)%Z && (ip_hkdf p =? ip_hkdf q)%Z &&
  Bool.eqb (ip_fresh p) (ip_fresh q).
Lemma same_params_eq p q : same_params p q = true -> p = q.
Proof.
  unfold same_params. intros H. repeat (apply andb_prop in H as [H ?]). destruct p, q; cbn in *.
  repeat match goal with X : same_bytes _ _ = true |- _ => apply same_bytes_eq in X end.
  repeat match goal with X : (_ =? _)%Z = true |- _ => apply Z.eqb_eq in X end. apply Bool.eqb_prop in H0. congruence.
Qed.
(** All messages sent are requests. *)
Fixpoint careful_b (p : init_params) (c : option ctx) (v : N) (w : bool) (l : list event) : option (list bytes) :=
  match l with
  | [] => Some []
  | EBoot q gn ge gf :: r =>
      if same_params q p then match oscore_context_init toy_crypto p (Ok v) gn ge gf with Ok c' => careful_b p (Some c') v false r | _ => None end
      else None
  | ECall (ASend nw input buf) :: r =>
      match c with
      | Some c0 =>
          let (c', o) := exec toy_crypto c0 (ASend nw input buf) in
          match coap_deserialize input with
          | Ok k => if h_code (k_hdr k) <? 32
                    then option_map (fun us => nonce_of o ++ us)
                           (match ob_nvm o with Some x => careful_b p (Some c') x true r | None => careful_b p (Some c') v w r end)
                    else None
          | _ => None
          end
      | None => None
      end
  | ECall (ARecv _ _) :: _ => None
  end.
Lemma careful_b_careful p l : forall c v w used,
  (forall nw input buf, In (ECall (ASend nw input buf)) l -> forall x, nw x = Ok tt) ->
  careful_b p c v w l = Some used -> careful toy_crypto p c v w l used.
Proof.
  induction l as [|e r IH]; intros c v w used NW H; cbn [careful careful_b] in *; [congruence|].
  destruct e as [q gn ge gf|[nw input buf|input buf]].
  - destruct (same_params q p) eqn:EP; [|discriminate]. apply same_params_eq in EP. split; [exact EP|]. intros c' EI. rewrite EI in H.
    apply IH; [|exact H]. intros. eapply NW. right. eassumption.
  - split; [eapply NW; left; reflexivity|]. intros c0 c' o -> EX. rewrite EX in H.
    destruct (coap_deserialize input) as [k|?|?] eqn:ED; try discriminate. destruct (h_code (k_hdr k) <? 32) eqn:EC; [|discriminate]. apply N.ltb_lt in EC.
    assert (NP : ~ plain_response c0 input) by (intros (_ & k' & E & L & _); rewrite ED in E; injection E as <-; lia).
    destruct (ob_nvm o) as [x|].
    + destruct (careful_b p (Some c') x true r) as [us|] eqn:EU; [|discriminate]. injection H as <-.
      exists (nonce_of o), us. split; [reflexivity|]. split; [right; split; [exact NP|reflexivity]|]. apply IH; [|exact EU]. intros. eapply NW. right. eassumption.
    + destruct (careful_b p (Some c') v w r) as [us|] eqn:EU; [|discriminate]. injection H as <-.
      exists (nonce_of o), us. split; [reflexivity|]. split; [right; split; [exact NP|reflexivity]|]. apply IH; [|exact EU]. intros. eapply NW. right. eassumption.
  - discriminate.
Qed.
Lemma part_calls key l : forall d a, In (ECall a) (fst (part toy_crypto key d l)) -> exists k, In (DCall k a) l.
Proof.
  induction l as [|e r IH]; intros d a I; cbn [part] in I; [destruct I|].
  assert (G : forall d', In (ECall a) (fst (part toy_crypto key d' r)) -> exists k, In (DCall k a) (e :: r)).
  { intros d' I'. destruct (IH d' a I') as (k & K). exists k. right. exact K. }
  destruct (act toy_crypto d e) as [[d' o]|]; [|destruct I]. specialize (G d').
  destruct (part toy_crypto key d' r) as [es os]. destruct e as [k s gf|k b|x y|i k|m]; cbn [fst] in *; auto.
  - destruct (key_eqb _ _); [|auto]. destruct I as [I|I]; [discriminate|auto].
  - destruct (mc_ctx d k); [|auto]. destruct o; [|auto]. destruct (key_eqb _ _); [|auto].
    destruct I as [I|I]; [injection I as <-; exists k; left; reflexivity|auto].
Qed.

(** Two contexts with arrays of their own; the secrets and the Recipient IDs are erased
    right after the initialisation, and the device restarts. *)
Definition toy_two : list action :=
  [DInit 0 (toy_setup 3 1 2 false) 0; DInit 1 (toy_setup 5 6 7 true) 0; DWrite 3 []; DWrite 5 []; DWrite 2 []; DWrite 7 [];
   toy_request 0 5; toy_request 1 6; toy_request 0 7; DRestart toy_store; DInit 0 (toy_setup 3 1 2 false) 0; toy_request 0 8].
Definition toy_used : list bytes :=
  match careful_b (toy_params [1] [2] false) None 0 false (fst (part toy_crypto ([1], [2], []) toy_machine toy_two)) with Some u => u | None => [] end.
Example C69_example :
  orderly toy_crypto toy_machine toy_two /\ map fst (toy_outputs toy_two) = [0; 1; 0; 0] /\
  careful toy_crypto (toy_params [1] [2] false) None 0 false (fst (part toy_crypto ([1], [2], []) toy_machine toy_two)) toy_used /\
  length toy_used = 3%nat.
Proof.
  split; [apply (orderly_b_orderly _ _ []); [reflexivity|vm_compute; reflexivity]|]. split; [vm_compute; reflexivity|]. split.
  - apply careful_b_careful.
    + intros nw input buf I. apply part_calls in I as (k & I). unfold toy_two, toy_request in I. cbn [In] in I.
      repeat (destruct I as [I|I]; [discriminate || (injection I as _ <- _ _; reflexivity)|]). destruct I.
    + unfold toy_used. vm_compute. reflexivity.
  - vm_compute. reflexivity.
Qed.

(** C69_sessions_partial: the second context of [toy_two]. C69_moved_partial: one is moved
    while the other one is in use, and the peer accepts what it sends. *)
Definition toy_moves : list action := [DCopy 0 2; toy_request 1 6; toy_request 2 5; DWrite 3 [0]].
Example C69_moved_example : exists d1 d2 x, perform toy_crypto toy_machine [DInit 0 (toy_setup 3 1 2 true) 0; DInit 1 (toy_setup 5 6 7 true) 0] = Some (d1, []) /\
  mc_ctx d1 0 = Some x /\ settled 0 x /\ act toy_crypto d1 (DCopy 0 2) = Some (d2, None) /\
  (forall i y, i <> 0 -> i <> 2 -> mc_ctx d1 i = Some y -> elsewhere 0 (sx_nonce y) /\ elsewhere 0 (sx_echo_val y)) /\
  unshared d1 1 /\ (forall e, In e (tl toy_moves) -> gives_up 0 2 x e) /\
  (forall e, In e toy_moves -> leaves_alone 1 (toy_setup 5 6 7 true) e) /\
  map fst (toy_outputs ([DInit 0 (toy_setup 3 1 2 true) 0; DInit 1 (toy_setup 5 6 7 true) 0] ++ toy_moves)) = [1; 2] /\
  is_ok (snd (toy_recv toy_server (snd (nth 1 (toy_outputs ([DInit 0 (toy_setup 3 1 2 true) 0; DInit 1 (toy_setup 5 6 7 true) 0] ++ toy_moves)) (0, []))))) = true.
Proof.
  cbn [perform act]. destruct (oscore_context_init toy_crypto (given (mc_mem toy_machine) (toy_setup 3 1 2 true)) _ _ _ 0) as [c0|e|u] eqn:E0; [|vm_compute in E0; discriminate|vm_compute in E0; discriminate].
  destruct (laid_out (mc_mem toy_machine) 0 (toy_setup 3 1 2 true) c0) as [m0 x0] eqn:L0.
  assert (GM : given m0 (toy_setup 5 6 7 true) = given (mc_mem toy_machine) (toy_setup 5 6 7 true)).
  { unfold laid_out in L0. injection L0 as <- _. reflexivity. }
  cbn [mc_mem mc_nvm mc_ctx]. rewrite GM.
  assert (GN : takeN 13 (m0 (PMember 1 MNonce)) = repeat 0 13 /\ m0 (PMember 1 MEcho) = repeat 0 12).
  { unfold laid_out in L0. injection L0 as <- _. split; reflexivity. }
  destruct GN as [-> ->].
  destruct (oscore_context_init toy_crypto (given (mc_mem toy_machine) (toy_setup 5 6 7 true)) _ _ _ 0) as [c1|e|u] eqn:E1; [|vm_compute in E1; discriminate|vm_compute in E1; discriminate].
  destruct (laid_out m0 1 (toy_setup 5 6 7 true) c1) as [m1 x1] eqn:L1.
  assert (S0 : settled 0 x0) by (apply (laid_out_settled _ _ _ _ _ _ L0); eexists; reflexivity).
  assert (S1 : settled 1 x1) by (apply (laid_out_settled _ _ _ _ _ _ L1); eexists; reflexivity).
  destruct (laid_out_settled _ _ _ _ _ _ L0 ltac:(eexists; reflexivity) ltac:(eexists; reflexivity)) as (_ & A0 & B0).
  assert (PC : forall i y, put (put (fun _ : N => None) 0 (Some x0)) 1 (Some x1) i = Some y -> i = 0 /\ y = x0 \/ i = 1 /\ y = x1).
  { intros i y Y. unfold put in Y. destruct (N.eqb_spec i 1); [injection Y as <-; auto|]. destruct (N.eqb_spec i 0); [injection Y as <-; auto|discriminate]. }
  do 3 eexists. split; [reflexivity|]. split; [reflexivity|]. split; [exact S0|]. split; [reflexivity|]. split.
  { intros i y NI _ Y. cbn [mc_ctx] in Y. destruct (PC i y Y) as [[-> ->]|[-> ->]]; [contradiction|]. destruct S1 as (Q1 & Q2 & _).
    rewrite Q1, Q2. split; do 2 eexists; (split; [|reflexivity]); discriminate. }
  split.
  { intros i y NI Y. cbn [mc_ctx] in Y. destruct (PC i y Y) as [[-> ->]|[-> ->]]; [|contradiction]. destruct S0 as (Q1 & Q2 & _).
    rewrite Q1, Q2. split; do 2 eexists; (split; [|reflexivity]); discriminate. }
  split.
  { intros e I. cbn in I. destruct I as [<-|[<-|[<-|[]]]]; cbn; try discriminate. unfold array_of. rewrite A0, B0. cbn. split; discriminate. }
  split.
  { intros e I. cbn in I. destruct I as [<-|[<-|[<-|[<-|[]]]]]; cbn; auto; unfold array_of; cbn; split; discriminate. }
  split; vm_compute; reflexivity.
Qed.
