(** Encoded CBOR items are self-delimiting: a byte string starts with at most one
    item, and a CBOR sequence has one decomposition. *)
From Verif Require Import Base Proof_Base Model_Cbor Proof_Cbor Spec_CborTree Proof_CborTree.

(** arguments that have an encoding *)
Fixpoint wf_item (i : item) : Prop :=
  match i with
  | CInt z => (- 2 ^ 64 <= z < 2 ^ 64)%Z
  | CBytes b | CText b => lenN b < 2 ^ 64
  | CArr l => lenN l < 2 ^ 64 /\ fold_right (fun i P => wf_item i /\ P) True l
  | CMap l => lenN l < 2 ^ 64 /\ fold_right (fun p P => wf_item (fst p) /\ wf_item (snd p) /\ P) True l
  | CNull => True
  end.

Section Ind.
Variable P : item -> Prop.
Hypothesis HI : forall z, P (CInt z).
Hypothesis HB : forall b, P (CBytes b).
Hypothesis HT : forall b, P (CText b).
Hypothesis HA : forall l, Forall P l -> P (CArr l).
Hypothesis HM : forall l, Forall (fun p => P (fst p) /\ P (snd p)) l -> P (CMap l).
Hypothesis HN : P CNull.
Fixpoint item_nest (i : item) : P i :=
  match i with
  | CInt z => HI z
  | CBytes b => HB b
  | CText b => HT b
  | CArr l => HA l ((fix go l := match l return Forall P l with
                                 | [] => Forall_nil _
                                 | x :: r => Forall_cons x (item_nest x) (go r)
                                 end) l)
  | CMap l => HM l ((fix go l := match l return Forall (fun p => P (fst p) /\ P (snd p)) l with
                                 | [] => Forall_nil _
                                 | x :: r => Forall_cons x (conj (item_nest (fst x)) (item_nest (snd x))) (go r)
                                 end) l)
  | CNull => HN
  end.
End Ind.

(** every item starts with a head that determines its kind *)
Definition item_head (i : item) : N * N :=
  match i with
  | CInt z => if (0 <=? z)%Z then (0, Z.to_N z) else (1, Z.to_N (-1 - z))
  | CBytes b => (2, lenN b)
  | CText b => (3, lenN b)
  | CArr l => (4, lenN l)
  | CMap l => (5, lenN l)
  | CNull => (7, 22)
  end.
Definition item_body (i : item) : bytes :=
  match i with
  | CInt _ | CNull => []
  | CBytes b | CText b => b
  | CArr l => flat_map cbor l
  | CMap l => flat_map (fun p => cbor (fst p) ++ cbor (snd p)) l
  end.
Lemma cbor_split i : cbor i = enc_head (fst (item_head i)) (snd (item_head i)) ++ item_body i.
Proof.
  destruct i.
  - rewrite cbor_int. unfold enc_int. cbn [item_head item_body]. rewrite app_nil_r.
    destruct (0 <=? z)%Z; reflexivity.
  - cbn [cbor item_head item_body fst snd]. rewrite rfc_head_eq. reflexivity.
  - cbn [cbor item_head item_body fst snd]. rewrite rfc_head_eq. reflexivity.
  - cbn [cbor item_head item_body fst snd]. rewrite rfc_head_eq. reflexivity.
  - cbn [cbor item_head item_body fst snd]. rewrite rfc_head_eq. reflexivity.
  - reflexivity.
Qed.
Lemma item_head_bound i : wf_item i -> fst (item_head i) < 8 /\ snd (item_head i) < 2 ^ 64.
Proof.
  destruct i; cbn [wf_item item_head]; intros H; try (cbn [fst snd]; lia).
  destruct (Z.leb_spec 0 z); cbn [fst snd]; lia.
Qed.

Definition unique (i : item) : Prop :=
  forall i' r r', wf_item i -> wf_item i' -> cbor i ++ r = cbor i' ++ r' -> i = i' /\ r = r'.

Lemma seq_unique l : Forall unique l -> forall l' r r',
  fold_right (fun i P => wf_item i /\ P) True l -> fold_right (fun i P => wf_item i /\ P) True l' ->
  lenN l = lenN l' -> flat_map cbor l ++ r = flat_map cbor l' ++ r' -> l = l' /\ r = r'.
Proof.
  induction 1 as [|i l Hi Hl IH]; intros [|i' l'] r r' W W' HL E; rewrite ?lenN_cons, ?lenN_nil in HL;
    try lia; [auto|].
  cbn [flat_map fold_right] in *. destruct W as [W1 W2], W' as [W1' W2']. rewrite <- !app_assoc in E.
  destruct (Hi i' _ _ W1 W1' E) as [-> E2].
  destruct (IH l' r r' W2 W2' ltac:(lia) E2) as [-> ->]. auto.
Qed.
Lemma pairs_unique l : Forall (fun p => unique (fst p) /\ unique (snd p)) l -> forall l' r r',
  fold_right (fun p P => wf_item (fst p) /\ wf_item (snd p) /\ P) True l ->
  fold_right (fun p P => wf_item (fst p) /\ wf_item (snd p) /\ P) True l' ->
  lenN l = lenN l' -> flat_map (fun p => cbor (fst p) ++ cbor (snd p)) l ++ r =
                      flat_map (fun p => cbor (fst p) ++ cbor (snd p)) l' ++ r' -> l = l' /\ r = r'.
Proof.
  induction 1 as [|[a b] l [Ha Hb] Hl IH]; intros [|[a' b'] l'] r r' W W' HL E;
    rewrite ?lenN_cons, ?lenN_nil in HL; try lia; [auto|].
  cbn [flat_map fold_right fst snd] in *. destruct W as (W1 & W2 & W3), W' as (W1' & W2' & W3').
  rewrite <- !app_assoc in E.
  destruct (Ha a' _ _ W1 W1' E) as [-> E2]. destruct (Hb b' _ _ W2 W2' E2) as [-> E3].
  destruct (IH l' r r' W3 W3' ltac:(lia) E3) as [-> ->]. auto.
Qed.

Theorem item_unique i : unique i.
Proof.
  induction i as [z|b|b|l IH|l IH|] using item_nest; intros i' r r' W W' E;
    rewrite !cbor_split, <- !app_assoc in E;
    destruct (item_head_bound _ W) as [B1 B2], (item_head_bound _ W') as [B1' B2'];
    apply enc_head_inj in E as (E1 & E2 & E3); try assumption; clear B1 B2 B1' B2';
    destruct i'; cbn [item_head item_body fst snd app] in *; try discriminate;
    try solve [match goal with H : context [(0 <=? ?x)%Z] |- _ => destruct (0 <=? x)%Z end;
               cbn [fst snd] in *; discriminate].
  - split; [|exact E3]. f_equal. cbn [wf_item] in *.
    destruct (Z.leb_spec 0 z), (Z.leb_spec 0 z0); cbn [fst snd] in *; lia.
  - apply app_eq_len in E3 as [-> ->]; auto.
  - apply app_eq_len in E3 as [-> ->]; auto.
  - destruct (seq_unique l IH l0 r r' (proj2 W) (proj2 W') E2 E3) as [-> ->]. auto.
  - destruct (pairs_unique l IH l0 r r' (proj2 W) (proj2 W') E2 E3) as [-> ->]. auto.
  - auto.
Qed.

Lemma item_nonempty i : cbor i <> [].
Proof.
  intros E. apply (f_equal lenN) in E. rewrite cbor_split, lenN_app, enc_head_len, lenN_nil in E.
  pose proof (N.le_0_l (lenN (item_body i))). unfold head_len in E. repeat destruct (_ <? _); lia.
Qed.

(** a CBOR sequence determines its items *)
Theorem seq_items_unique l : forall l', Forall wf_item l -> Forall wf_item l' ->
  cbor_seq l = cbor_seq l' -> l = l'.
Proof.
  unfold cbor_seq. induction l as [|i l IH]; intros [|i' l'] W W' E; cbn [flat_map] in E; auto.
  - symmetry in E. apply app_eq_nil in E as [E _]. now apply item_nonempty in E.
  - apply app_eq_nil in E as [E _]. now apply item_nonempty in E.
  - inversion W; inversion W'; subst. destruct (item_unique i i' _ _ ltac:(assumption) ltac:(assumption) E) as [-> E2].
    f_equal. apply IH; assumption.
Qed.
