(** Properties C23, C24 and C42: outstanding interactions and the URI path that
    identifies their resource (src/oscore/oscore_interactions.c,
    src/oscore/option.c). Vocabulary in Spec_Interactions.v and Spec_UriPath.v.
    C23 for whole contexts is in Prop_Context.v. *)
From Verif Require Import Base Proof_Base Model_Common Model_OscorePrims Model_Coap Model_Interactions
  Spec_Interactions Proof_Interactions Spec_UriPath Proof_UriPath.

(** ** C23 *)

(** Tables obtained from the initial one by any history of operations. *)
Inductive table_reach : itable -> Prop :=
| tr_init : table_reach interactions_init
| tr_set t r t' : table_reach t -> set_record t r = Ok t' -> table_reach t'
| tr_remove t tok t' : table_reach t -> remove_record t tok = Ok t' -> table_reach t'
| tr_update t ty tok uri piv kid t' : table_reach t ->
    update_wrapper ty tok uri t piv kid = Ok t' -> table_reach t'.

Theorem C23_table_invariant :
  forall t : itable, table_reach t ->
  length t = 3%nat /\
  forall i j r s, nth_error t i = Some (Some r) -> nth_error t j = Some (Some s) -> i <> j ->
    i_token r <> i_token s /\ ~ (i_type r = i_type s /\ i_uri r = i_uri s).
Proof.
  intros t H. assert (T : table_ok t).
  { induction H.
    - apply interactions_init_ok.
    - eapply set_record_held; eassumption.
    - eapply remove_record_held; eassumption.
    - eapply update_wrapper_ok; eassumption. }
  destruct T as (L & _ & U). split; [exact L|]. intros i j r s Hi Hj Hd. split.
  - intros E. apply Hd. eapply U; eauto.
  - intros E. apply Hd. eapply U; eauto.
Qed.
Print Assumptions C23_table_invariant.

(** A table holding two exchanges. *)
Definition ex_inter (ty : msg_type) (tok uri : bytes) : inter :=
  {| i_type := ty; i_token := tok; i_uri := uri; i_piv := [5]; i_kid := [1; 2] |}.
Definition ex_table : itable := [Some (ex_inter MREQUEST [1] [97]); Some (ex_inter MREGISTRATION [2] [97]); None].
Example C23_example : table_reach ex_table.
Proof.
  apply tr_set with (t := [Some (ex_inter MREQUEST [1] [97]); None; None]) (r := ex_inter MREGISTRATION [2] [97]).
  - apply tr_set with (t := interactions_init) (r := ex_inter MREQUEST [1] [97]); [constructor|vm_compute; reflexivity].
  - vm_compute; reflexivity.
Qed.

(** ** C24 *)

(** Storing a record replaces the record of the same resource and request type,
    and nothing else. *)
Theorem C24_set :
  forall (t t' : itable) (r : inter), table_ok t -> set_record t r = Ok t' ->
  get_record t' (i_token r) = Ok r /\
  (forall s, held t' s <-> s = r \/ (held t s /\ ~ same_resource s r)) /\
  (forall tok s, tok <> i_token r -> get_record t tok = Ok s -> ~ same_resource s r ->
     get_record t' tok = Ok s).
Proof.
  intros t t' r T H. destruct (set_record_held t r t' T H) as (T' & _ & HH).
  split; [apply get_record_held; [exact T'|]; split; [apply HH; auto|reflexivity]|].
  split; [exact HH|]. intros tok s Hd Hg HR.
  apply get_record_held in Hg as [Hg <-]; [|exact T]. apply get_record_held; [exact T'|].
  split; [apply HH; auto|reflexivity].
Qed.
Print Assumptions C24_set.

(** When storing fails, and how. *)
Theorem C24_set_result :
  forall (t : itable) (r : inter), table_ok t ->
  let replaces := exists s, held t s /\ same_resource s r in
  let token_in_use := exists s, held t s /\ i_token s = i_token r /\ ~ same_resource s r in
  (~ inter_sizes r <-> set_record t r = Err wrong_parameter) /\
  (inter_sizes r /\ full t /\ ~ replaces <-> set_record t r = Err oscore_max_interactions) /\
  (inter_sizes r /\ ~ (full t /\ ~ replaces) /\ token_in_use <->
     set_record t r = Err oscore_interaction_duplicated_token) /\
  (inter_sizes r /\ ~ (full t /\ ~ replaces) /\ ~ token_in_use <-> is_ok (set_record t r) = true).
Proof.
  intros t r T replaces token_in_use. rewrite set_record_eq. pose proof (sizes_dec r) as Z.
  destruct (negb _); cbn [is_ok].
  { assert (~ inter_sizes r) by (intros X; apply Z in X; discriminate).
    repeat split; try tauto; try discriminate; intros; tauto. }
  assert (SZ : inter_sizes r) by (apply Z; reflexivity).
  pose proof (slot_of_none t r T) as SN. pose proof (token_clash t r) as TC.
  assert (RE : (forall s, held t s -> ~ same_resource s r) <-> ~ replaces).
  { unfold replaces. split; [intros A (s & B & C); eapply A; eauto|]. intros A s B C. apply A; eauto. }
  rewrite RE in SN. destruct (slot_of t r) as [i|].
  - specialize (TC i T eq_refl). change (exists s, held t s /\ i_token s = i_token r /\ ~ same_resource s r)
      with token_in_use in TC.
    assert (NN : ~ (full t /\ ~ replaces)) by (intros X; apply SN in X; discriminate).
    destruct (_ && _) in *; cbn [is_ok].
    + assert (token_in_use) by (apply TC; reflexivity).
      split; [split; [tauto|discriminate]|]. split; [split; [tauto|discriminate]|].
      split; [split; [reflexivity|tauto]|]. split; [tauto|discriminate].
    + assert (~ token_in_use) by (intros X; apply TC in X; discriminate).
      split; [split; [tauto|discriminate]|]. split; [split; [tauto|discriminate]|].
      split; [split; [tauto|discriminate]|]. split; [reflexivity|tauto].
  - assert (FF : full t /\ ~ replaces) by (apply SN; reflexivity).
    split; [split; [tauto|discriminate]|]. split; [split; [reflexivity|tauto]|].
    split; [split; [tauto|discriminate]|]. cbn [is_ok]. split; [tauto|discriminate].
Qed.
Print Assumptions C24_set_result.

(** Looking up a token finds the record with that token, or fails. *)
Theorem C24_get :
  forall (t : itable) (tok : bytes), table_ok t ->
  (forall r, get_record t tok = Ok r <-> held t r /\ i_token r = tok) /\
  ((forall r, held t r -> i_token r <> tok) -> lenN tok <= 8 ->
   get_record t tok = Err oscore_interaction_not_found) /\
  is_ub (get_record t tok) = false.
Proof.
  intros t tok T. split; [intros r; apply get_record_held; exact T|]. split.
  - intros H L. destruct (get_remove_err t tok T H) as [-> _]. destruct (N.ltb_spec 8 (lenN tok)); [lia|reflexivity].
  - unfold get_record. destruct (_ <? _); [reflexivity|]. destruct (nth_error _ _) as [[|]|]; reflexivity.
Qed.
Print Assumptions C24_get.

(** Removing a token removes exactly the record with that token, or fails when
    there is none. *)
Theorem C24_remove :
  forall (t : itable) (tok : bytes), table_ok t ->
  (forall t', remove_record t tok = Ok t' ->
     (exists r, held t r /\ i_token r = tok) /\
     forall s, held t' s <-> held t s /\ i_token s <> tok) /\
  ((exists r, held t r /\ i_token r = tok) -> is_ok (remove_record t tok) = true) /\
  ((forall r, held t r -> i_token r <> tok) -> lenN tok <= 8 ->
     remove_record t tok = Err oscore_interaction_not_found).
Proof.
  intros t tok T. split; [|split].
  - intros t' H. destruct (remove_record_held t tok t' T H) as (_ & A & B). auto.
  - intros (r & Hr & <-). destruct T as (L & S & U). unfold remove_record, MAX_TOKEN_LEN, OSCORE_INTERACTIONS_COUNT.
    pose proof (S r Hr) as (S1 & _). destruct (N.ltb_spec 8 (lenN (i_token r))); [lia|].
    assert (X : (find_by_token t (i_token r) < 3)%nat) by (apply by_token_lt; eauto).
    apply Nat.ltb_lt in X. rewrite X. reflexivity.
  - intros H L. destruct (get_remove_err t tok T H) as [_ ->]. destruct (N.ltb_spec 8 (lenN tok)); [lia|reflexivity].
Qed.
Print Assumptions C24_remove.

Lemma ex_table_ok : table_ok ex_table.
Proof.
  assert (forall t, table_reach t -> table_ok t).
  { intros t H. induction H.
    - apply interactions_init_ok.
    - eapply set_record_held; eassumption.
    - eapply remove_record_held; eassumption.
    - eapply update_wrapper_ok; eassumption. }
  apply H, C23_example.
Qed.
Example C24_example :
  table_ok ex_table /\
  set_record ex_table (ex_inter MREQUEST [3] [97]) =
    Ok [Some (ex_inter MREQUEST [3] [97]); Some (ex_inter MREGISTRATION [2] [97]); None] /\
  set_record ex_table (ex_inter MREQUEST [2] [98]) = Err oscore_interaction_duplicated_token /\
  get_record ex_table [2] = Ok (ex_inter MREGISTRATION [2] [97]) /\
  remove_record ex_table [1] = Ok [None; Some (ex_inter MREGISTRATION [2] [97]); None].
Proof. split; [apply ex_table_ok|]. vm_compute. auto. Qed.

(** ** C42 *)

(** Exact behaviour for every option list and buffer size: the joined path when
    it fits with a spare byte, an error when it is too long. The remaining case
    is refuted below. *)
Theorem C42_path_partial :
  forall (opts : list copt) (max : N), 0 < max -> max < 2 ^ 32 ->
  segs_size (path_segments opts) <> max ->
  uri_path_create opts max =
    if segs_size (path_segments opts) <? max then Ok (path_string (path_segments opts))
    else Err buffer_to_small.
Proof.
  intros opts max H0 Hm Hne. rewrite uri_path_create_exact by assumption. cbn zeta.
  destruct (N.ltb_spec (segs_size (path_segments opts)) max); [reflexivity|].
  destruct (N.eqb_spec (segs_size (path_segments opts)) max); [contradiction|reflexivity].
Qed.
Print Assumptions C42_path_partial.

(** A path that fills the buffer exactly (with its trailing '/') makes the
    function write one byte behind the buffer. *)
Theorem C42_overflow_refuted :
  forall (opts : list copt) (max : N), 0 < max -> max < 2 ^ 32 ->
  segs_size (path_segments opts) = max -> uri_path_create opts max = UB OobWrite.
Proof.
  intros opts max H0 Hm He. rewrite uri_path_create_exact by assumption. cbn zeta.
  destruct (N.ltb_spec (segs_size (path_segments opts)) max); [lia|].
  destruct (N.eqb_spec (segs_size (path_segments opts)) max); [reflexivity|contradiction].
Qed.
Print Assumptions C42_overflow_refuted.

(** For non-empty segments without '/' the key determines the path. *)
Theorem C42_injective_partial :
  forall (o1 o2 : list copt) (max : N) (p : bytes), 0 < max -> max < 2 ^ 32 ->
  Forall (fun v => v <> [] /\ ~ In 47 v) (path_segments o1) ->
  Forall (fun v => v <> [] /\ ~ In 47 v) (path_segments o2) ->
  uri_path_create o1 max = Ok p -> uri_path_create o2 max = Ok p ->
  path_segments o1 = path_segments o2.
Proof.
  intros o1 o2 max p H0 Hm F1 F2 H1 H2. rewrite uri_path_create_exact in H1, H2 by assumption.
  cbn zeta in H1, H2. apply path_string_inj; [assumption..|].
  destruct (_ <? _) in H1; [|destruct (_ =? _) in H1; discriminate].
  destruct (_ <? _) in H2; [|destruct (_ =? _) in H2; discriminate]. congruence.
Qed.
Print Assumptions C42_injective_partial.

Definition path_opt (v : bytes) : copt := {| o_delta := 0; o_num := 11; o_val := v; o_tail := [] |}.
(** In general it does not: whatever comes before and after, and for every buffer, one
    segment "a/b" and the two segments "a", "b" give the same result. *)
Theorem C42_injective_refuted :
  forall (o1 o2 : list copt) (before after : list bytes) (a b : bytes) (max : N), 0 < max -> max < 2 ^ 32 ->
  path_segments o1 = before ++ (a ++ 47 :: b) :: after -> path_segments o2 = before ++ a :: b :: after ->
  uri_path_create o1 max = uri_path_create o2 max /\ path_segments o1 <> path_segments o2.
Proof.
  intros o1 o2 before after a b max H0 Hm E1 E2. split.
  2:{ rewrite E1, E2. intro F. apply app_inv_head in F. apply (f_equal (@length bytes)) in F. cbn [length] in F. lia. }
  rewrite !uri_path_create_exact by assumption. cbn zeta. rewrite E1, E2.
  assert (S : segs_size (before ++ (a ++ 47 :: b) :: after) = segs_size (before ++ a :: b :: after)).
  { clear. induction before as [|v r IH]; cbn [app segs_size]; [rewrite lenN_app, lenN_cons; lia|]. rewrite IH. reflexivity. }
  rewrite S.
  enough (J : path_string (before ++ (a ++ 47 :: b) :: after) = path_string (before ++ a :: b :: after)) by (rewrite J; reflexivity).
  clear. assert (N1 : forall (p : list bytes) x q, path_string (p ++ x :: q) = join_path (p ++ x :: q)) by (intros [|? ?] ? ?; reflexivity).
  rewrite !N1. induction before as [|v r IH]; cbn [app].
  - destruct after as [|w q]; [reflexivity|]. cbn [join_path]. rewrite <- app_assoc. reflexivity.
  - assert (N2 : forall (p : list bytes) x q, join_path (v :: p ++ x :: q) = v ++ 47 :: join_path (p ++ x :: q)) by (intros [|? ?] ? ?; reflexivity).
    rewrite !N2, IH. reflexivity.
Qed.
Print Assumptions C42_injective_refuted.

Example C42_injective_example :
  path_segments [path_opt [97; 47; 98]] = [] ++ ([97] ++ 47 :: [98]) :: [] /\
  path_segments [path_opt [97]; path_opt [98]] = [] ++ [97] :: [98] :: [] /\
  uri_path_create [path_opt [97; 47; 98]] 30 = Ok [97; 47; 98].
Proof. repeat split. Qed.

Example C42_example :
  uri_path_create [path_opt [97; 98]; path_opt [99]] 30 = Ok [97; 98; 47; 99] /\
  uri_path_create [] 30 = Ok [47] /\
  segs_size (path_segments [path_opt (repeat 97 29)]) = 30 /\
  uri_path_create [path_opt (repeat 97 30)] 30 = Err buffer_to_small.
Proof. vm_compute. auto. Qed.
