(** What contexts would do if they were independent values, for comparison with the
    pointers of Model_Store.v. *)
From Verif Require Import Base Model_Common Model_Crypto Model_Context Model_Send Model_Recv Model_Run Model_Store Spec_Session Spec_Nvm.

(** The calls for the structure [k] in a history, and what was observed of them. *)
Definition calls_for (k : N) (l : list action) : list api_call :=
  flat_map (fun e => match e with DCall j a => if j =? k then [a] else [] | _ => [] end) l.
Definition seen_of (k : N) (os : list (N * obs)) : list obs :=
  flat_map (fun x => if fst x =? k then [snd x] else []) os.

(** [v] refers to a buffer of a structure other than [k], to an array of the application. *)
Definition elsewhere (k : N) (v : view) : Prop := exists i b, i <> k /\ w_at v = PMember i b.
Definition array_of (v : view) (a : N) : Prop := w_at v = PArray a.

(** No other structure uses buffers of the structure [k]. *)
Definition unshared (d : machine) (k : N) : Prop :=
  forall j y, j <> k -> mc_ctx d j = Some y -> elsewhere k (sx_nonce y) /\ elsewhere k (sx_echo_val y).

(** The application leaves the structure [k] alone, and the two arrays [s] that were given
    for the Sender ID and the ID context; everything else it does as it likes. *)
Definition leaves_alone (k : N) (s : setup) (e : action) : Prop :=
  match e with
  | DInit j _ _ => j <> k
  | DCall _ _ => True
  | DWrite a _ => ~ array_of (su_sender_id s) a /\ ~ array_of (su_id_context s) a
  | DCopy i j => i <> k /\ j <> k
  | DRestart _ => False
  end.

(** A structure was assigned to the structure [j] and then given up: nobody touches [k]
    any more, and [j] and its arrays are left alone. *)
Definition gives_up (k j : N) (x : scontext) (e : action) : Prop :=
  match e with
  | DInit i _ _ => i <> k /\ i <> j
  | DCall i _ => i <> k
  | DWrite a _ => ~ array_of (sx_sid x) a /\ ~ array_of (sx_id_context x) a
  | DCopy h i => h <> k /\ h <> j /\ i <> k /\ i <> j
  | DRestart _ => False
  end.
(** The structure uses its own buffers, as after oscore_context_init, and two arrays. *)
Definition settled (k : N) (x : scontext) : Prop :=
  sx_nonce x = {| w_at := PMember k MNonce; w_len := w_len (sx_nonce x) |} /\
  sx_echo_val x = {| w_at := PMember k MEcho; w_len := w_len (sx_echo_val x) |} /\
  sx_iv x = {| w_at := PMember k MIv; w_len := w_len (sx_iv x) |} /\
  sx_skey x = {| w_at := PMember k MSkey; w_len := w_len (sx_skey x) |} /\
  sx_rid x = {| w_at := PMember k MRid; w_len := w_len (sx_rid x) |} /\
  sx_rkey x = {| w_at := PMember k MRkey; w_len := w_len (sx_rkey x) |} /\
  (exists a, array_of (sx_sid x) a) /\ (exists a, array_of (sx_id_context x) a).

(** A device with one context and one number in its memory, over several boots. *)
Inductive event := EBoot (p : init_params) (gn ge : bytes) (gf : N) | ECall (a : api_call).
Fixpoint solo (cr : crypto) (c : option ctx) (v : N) (l : list event) : option (option ctx * N * list obs) :=
  match l with
  | [] => Some (c, v, [])
  | EBoot p gn ge gf :: r =>
      match oscore_context_init cr p (Ok v) gn ge gf with Ok c' => solo cr (Some c') v r | _ => None end
  | ECall a :: r =>
      match c with
      | None => None
      | Some c0 =>
          let (c', o) := exec cr c0 a in
          if is_ub (ob_res o) then None
          else
            let v' := match a, ob_nvm o with
                      | ASend nw _ _, Some x => match nw x with Ok _ => x | _ => v end
                      | _, _ => v
                      end in
            option_map (fun y => let '(cf, vf, os) := y in (cf, vf, o :: os)) (solo cr (Some c') v' r)
      end
  end.

(** Reasonable behaviour of an application with several contexts, in the state [d]:
    - Sender ID and ID context are given in arrays which are not overwritten while a
      context uses them,
    - two contexts that exist at the same time differ in Sender ID, Recipient ID or ID
      context,
    - structures are not assigned to each other. *)
Definition fine (d : machine) (e : action) : Prop :=
  match e with
  | DInit k s _ =>
      (exists a, array_of (su_sender_id s) a) /\ (exists a, array_of (su_id_context s) a) /\
      (forall j y, j <> k -> mc_ctx d j = Some y ->
         key_of (load (mc_mem d) y) <> key_given (given (mc_mem d) s))
  | DCall _ _ => True
  | DWrite a _ => forall j y, mc_ctx d j = Some y -> ~ array_of (sx_sid y) a /\ ~ array_of (sx_id_context y) a
  | DCopy _ _ => False
  | DRestart _ => True
  end.
Fixpoint orderly (cr : crypto) (d : machine) (l : list action) : Prop :=
  match l with
  | [] => True
  | e :: r => fine d e /\ forall d' o, act cr d e = Some (d', o) -> orderly cr d' r
  end.

(** The part of a history that concerns the contexts with the identifiers [key]: boots
    with the parameters found in the arrays at that time, and calls; and what is observed. *)
Fixpoint part (cr : crypto) (key : nvm_key) (d : machine) (l : list action) : list event * list obs :=
  match l with
  | [] => ([], [])
  | e :: r =>
      match act cr d e with
      | None => ([], [])
      | Some (d', o) =>
          let (es, os) := part cr key d' r in
          match e with
          | DInit k s gf =>
              let p := given (mc_mem d) s in
              if key_eqb (key_given p) key
              then (EBoot p (takeN 13 (mc_mem d (PMember k MNonce))) (mc_mem d (PMember k MEcho)) gf :: es, os)
              else (es, os)
          | DCall k a =>
              match mc_ctx d k, o with
              | Some x, Some ob => if key_eqb (key_of (load (mc_mem d) x)) key then (ECall a :: es, ob :: os) else (es, os)
              | _, _ => (es, os)
              end
          | _ => (es, os)
          end
      end
  end.

(** A device with one context, always initialised with [p]: every write to the memory
    succeeds, and a request that completes the Echo exchange is accepted only after a write
    in the same boot ([w]), as in Spec_Nvm. [used]: the nonces made from sequence numbers. *)
Fixpoint careful (cr : crypto) (p : init_params) (c : option ctx) (v : N) (w : bool) (l : list event) (used : list bytes) : Prop :=
  match l with
  | [] => used = []
  | EBoot q gn ge gf :: r =>
      q = p /\ forall c', oscore_context_init cr p (Ok v) gn ge gf = Ok c' -> careful cr p (Some c') v false r used
  | ECall (ASend nw input buf) :: r =>
      (forall x, nw x = Ok tt) /\
      forall c0 c' o, c = Some c0 -> exec cr c0 (ASend nw input buf) = (c', o) ->
        exists ns us, used = ns ++ us /\ numbered c0 input o ns /\
          match ob_nvm o with
          | Some x => careful cr p (Some c') x true r us
          | None => careful cr p (Some c') v w r us
          end
  | ECall (ARecv input buf) :: r =>
      forall c0 c' o, c = Some c0 -> exec cr c0 (ARecv input buf) = (c', o) ->
        (c_echo c0 <> ECHO_SYNCHRONIZED -> c_echo c' = ECHO_SYNCHRONIZED -> w = true) /\
        careful cr p (Some c') v w r used
  end.
