(** Plaintexts with any COSE header map as ID_CRED: what the decoders make of them. *)
From Verif Require Import Base Proof_Base Model_Common Model_Cbor Proof_Cbor Spec_CborTree Proof_CborTree Proof_CborUnique
  Spec_Hkdf Spec_Edhoc Spec_EdhocRun Spec_EdhocEad Spec_EdhocInterop Model_EdhocCfg Model_EdhocCbor Model_EdhocKeys Proof_EdhocBase
  Model_EdhocCert Model_EdhocMsg Proof_EdhocMsg1 Proof_EdhocMsg Proof_EdhocSound Proof_EdhocSame Proof_EdhocEad.

Lemma dec_item i r : wf_item i -> dec_head (cbor i ++ r) = Some (fst (item_head i), snd (item_head i), item_body i ++ r).
Proof. intros W. rewrite cbor_split, <- app_assoc. apply dec_enc_head, (item_head_bound _ W). Qed.
Ltac by_head W :=
  rewrite (dec_item _ _ W);
  match goal with |- context [item_head ?i] => destruct i as [?z|?b|?b|?l|?l|] end; cbn [item_head item_body fst snd];
  try match goal with |- context [(0 <=? ?z)%Z] => destruct (Z.leb_spec 0 z) end; cbn [fst snd app]; try discriminate.
Lemma bstr_item i r b r' : wf_item i -> dec_bstr (cbor i ++ r) = Some (b, r') -> i = CBytes b /\ r' = r.
Proof.
  intros W. unfold dec_bstr. by_head W. destruct (_ <=? _); [|discriminate]. rewrite takeN_app, dropN_app.
  intros E. injection E as <- <-. auto.
Qed.
Lemma tstr_item i r b r' : wf_item i -> dec_tstr (cbor i ++ r) = Some (b, r') -> i = CText b /\ r' = r.
Proof.
  intros W. unfold dec_tstr. by_head W. destruct (_ <=? _); [|discriminate]. rewrite takeN_app, dropN_app.
  intros E. injection E as <- <-. auto.
Qed.
Lemma int_item i r z r' : wf_item i -> dec_int (cbor i ++ r) = Some (z, r') -> i = CInt z /\ r' = r.
Proof.
  intros W. unfold dec_int. by_head W; (destruct (_ <? _); [|discriminate]); intros E.
  - injection E as <- <-. split; [f_equal; lia|reflexivity].
  - assert (z = (-1 - Z.of_N (Z.to_N (-1 - z0)))%Z /\ r' = r) as [-> ->] by (split; congruence). split; [f_equal; lia|reflexivity].
Qed.
Lemma uint_item i r n r' : wf_item i -> dec_uint (cbor i ++ r) = Some (n, r') -> i = CInt (Z.of_N n) /\ r' = r.
Proof.
  intros W. unfold dec_uint. by_head W. destruct (_ <? _); [|discriminate]. intros E; injection E as <- <-.
  split; [f_equal; lia|reflexivity].
Qed.
Lemma int_bstr_item i r a r' : wf_item i -> dec_int_or_bstr (cbor i ++ r) = Some (a, r') -> r' = r.
Proof.
  intros W. unfold dec_int_or_bstr. destruct (dec_int _) as [[z l]|] eqn:E.
  - intros Q. injection Q as <- <-. apply (int_item _ _ _ _ W E).
  - destruct (dec_bstr _) as [[b l]|] eqn:E2; [|discriminate]. intros Q. injection Q as <- <-. apply (bstr_item _ _ _ _ W E2).
Qed.
Definition hash_item (i : item) (p : int_or_str * bytes) : Prop :=
  match fst p with UInt z => i = CArr [CInt z; CBytes (snd p)] | UStr b => i = CArr [CText b; CBytes (snd p)] end.
Lemma hash_pair_item i r p r' : wf_item i -> dec_hash_pair (cbor i ++ r) = Some (p, r') -> hash_item i p /\ r' = r.
Proof.
  intros W. unfold dec_hash_pair, dec_list. rewrite (dec_item _ _ W). destruct i as [z|b|b|l|l|]; cbn [item_head item_body fst snd]; try discriminate.
  { destruct (0 <=? z)%Z; discriminate. }
  destruct l as [|x [|y [|? l]]]; cbn [lenN length]; try discriminate.
  2:{ rewrite !lenN_cons. destruct (1 + (1 + (1 + lenN l))) as [|[?|[?|?|]|]] eqn:EL; try discriminate. lia. }
  change (lenN [x; y]) with 2. cbn [flat_map]. cbn [wf_item fold_right] in W. destruct W as (_ & WX & WY & _).
  rewrite app_nil_r, <- app_assoc. destruct (dec_int _) as [[z r1]|] eqn:E1.
  - apply (int_item _ _ _ _ WX) in E1 as [-> ->]. destruct (dec_bstr _) as [[h r2]|] eqn:E2; [|discriminate].
    apply (bstr_item _ _ _ _ WY) in E2 as [-> ->]. intros Q. injection Q as <- <-. split; reflexivity.
  - destruct (dec_tstr _) as [[b r1]|] eqn:E3; [|discriminate]. apply (tstr_item _ _ _ _ WX) in E3 as [-> ->].
    destruct (dec_bstr _) as [[h r2]|] eqn:E2; [|discriminate].
    apply (bstr_item _ _ _ _ WY) in E2 as [-> ->]. intros Q. injection Q as <- <-. split; reflexivity.
Qed.

Definition pairs (l : list (item * item)) : bytes := flat_map (fun p => cbor (fst p) ++ cbor (snd p)) l.
Definition wf_pairs (l : list (item * item)) : Prop := fold_right (fun p P => wf_item (fst p) /\ wf_item (snd p) /\ P) True l.
(** one entry: it is absent, or it is the first pair *)
Lemma entry_step {A} key (dec : bytes -> option (A * bytes)) (Q : item -> A -> Prop) l r o s :
  (forall i r a r', wf_item i -> dec (cbor i ++ r) = Some (a, r') -> Q i a /\ r' = r) -> wf_pairs l ->
  dec_entry key dec (lenN l, pairs l ++ r) = (o, s) ->
  exists l', s = (lenN l', pairs l' ++ r) /\ wf_pairs l' /\ incl l' l /\
    match o with Some a => exists i, In (CInt (Z.of_N key), i) l /\ Q i a | None => True end.
Proof.
  intros HD W. unfold dec_entry.
  assert (SAME : (None, (lenN l, pairs l ++ r)) = (o, s) -> exists l', s = (lenN l', pairs l' ++ r) /\ wf_pairs l' /\ incl l' l /\
    match o with Some a => exists i, In (CInt (Z.of_N key), i) l /\ Q i a | None => True end).
  { intros E. injection E as <- <-. exists l. repeat split; [exact W|apply incl_refl]. }
  destruct (lenN l =? 0) eqn:E0; [exact SAME|]. destruct l as [|[k v] l]; [discriminate|].
  cbn [pairs flat_map fst snd] in *. rewrite <- !app_assoc in *. cbn [wf_pairs fold_right fst snd] in W. destruct W as (WK & WV & W).
  destruct (dec_uint _) as [[n r1]|] eqn:E1; [|exact SAME]. destruct (N.eqb_spec n key) as [->|]; [|exact SAME].
  apply (uint_item _ _ _ _ WK) in E1 as [-> ->]. destruct (dec _) as [[a r2]|] eqn:E2; [|exact SAME].
  apply HD in E2 as [HQ ->]; [|exact WV]. intros E. injection E as <- <-. exists l. rewrite lenN_cons.
  split; [f_equal; lia|]. split; [exact W|]. split; [intros x Hx; now right|]. exists v. split; [now left|exact HQ].
Qed.
Lemma params_map l r m r' : wf_item (CMap l) -> dec_id_cred_map (cbor (CMap l) ++ r) = Some (m, r') ->
  r' = r /\ (forall c, ic_x5chain m = Some c -> In (CInt 33, CBytes c) l) /\
  (forall p, ic_x5t m = Some p -> exists i, In (CInt 34, i) l /\ hash_item i p).
Proof.
  intros W. unfold dec_id_cred_map, dec_map. rewrite (dec_item _ _ W). cbn [item_head item_body fst snd].
  cbn [wf_item] in W. destruct W as [_ W]. change (flat_map _ l) with (pairs l).
  pose proof (fun i r a r' => int_bstr_item i r a r') as D1. pose proof (fun i r a r' => bstr_item i r a r') as D2.
  pose proof (fun i r a r' => hash_pair_item i r a r') as D3.
  assert (D1' : forall i r a r', wf_item i -> dec_int_or_bstr (cbor i ++ r) = Some (a, r') -> True /\ r' = r) by (intros; split; eauto).
  destruct (dec_entry 4 _ _) as [a1 s1] eqn:E1. apply (entry_step _ _ _ _ _ _ _ D1') in E1 as (l1 & -> & W1 & I1 & _); [|exact W].
  destruct (dec_entry 32 _ _) as [a2 s2] eqn:E2. apply (entry_step _ _ _ _ _ _ _ D2) in E2 as (l2 & -> & W2 & I2 & _); [|exact W1].
  destruct (dec_entry 33 _ _) as [a3 s3] eqn:E3. apply (entry_step _ _ _ _ _ _ _ D2) in E3 as (l3 & -> & W3 & I3 & Q3); [|exact W2].
  destruct (dec_entry 34 _ _) as [a4 s4] eqn:E4. apply (entry_step _ _ _ _ _ _ _ D3) in E4 as (l4 & -> & W4 & I4 & Q4); [|exact W3].
  destruct (dec_entry 35 _ _) as [a5 s5] eqn:E5. apply (entry_step _ _ _ _ _ _ _ D2) in E5 as (l5 & -> & W5 & I5 & _); [|exact W4].
  destruct (dec_entry 52 _ _) as [a6 s6] eqn:E6. apply (entry_step _ _ _ _ _ _ _ D2) in E6 as (l6 & -> & W6 & I6 & _); [|exact W5].
  destruct (dec_entry 53 _ _) as [a7 s7] eqn:E7. apply (entry_step _ _ _ _ _ _ _ D2) in E7 as (l7 & -> & W7 & I7 & _); [|exact W6].
  destruct (dec_entry 54 _ _) as [a8 s8] eqn:E8. apply (entry_step _ _ _ _ _ _ _ D3) in E8 as (l8 & -> & W8 & I8 & _); [|exact W7].
  destruct (dec_entry 55 _ _) as [a9 s9] eqn:E9. apply (entry_step _ _ _ _ _ _ _ D2) in E9 as (l9 & -> & W9 & I9 & _); [|exact W8].
  cbn [fst snd]. destruct (N.eqb_spec (lenN l9) 0) as [L9|]; [|discriminate]. apply lenN_0 in L9 as ->.
  intros E. injection E as <- <-. split; [reflexivity|]. cbn [ic_x5chain ic_x5t]. split.
  - intros c ->. destruct Q3 as (i & HI & ->). apply I1, I2, HI.
  - intros p ->. destruct Q4 as (i & HI & HH). exists i. split; [|exact HH]. apply I1, I2, I3, HI.
Qed.
(** every pair is read by one of the entries *)
Lemma entry_all {A} key (dec : bytes -> option (A * bytes)) (Q : item -> Prop) l r o s :
  (forall i r a r', wf_item i -> dec (cbor i ++ r) = Some (a, r') -> Q i /\ r' = r) -> wf_pairs l ->
  dec_entry key dec (lenN l, pairs l ++ r) = (o, s) ->
  exists l', s = (lenN l', pairs l' ++ r) /\ wf_pairs l' /\ (forall p, In p l -> In p l' \/ exists i a, o = Some a /\ p = (CInt (Z.of_N key), i) /\ Q i).
Proof.
  intros HD W. unfold dec_entry.
  assert (SAME : (None, (lenN l, pairs l ++ r)) = (o, s) -> exists l', s = (lenN l', pairs l' ++ r) /\ wf_pairs l' /\
    (forall p, In p l -> In p l' \/ exists i a, o = Some a /\ p = (CInt (Z.of_N key), i) /\ Q i)).
  { intros E. injection E as <- <-. exists l. repeat split; [exact W|auto]. }
  destruct (lenN l =? 0) eqn:E0; [exact SAME|]. destruct l as [|[k v] l]; [discriminate|].
  cbn [pairs flat_map fst snd] in *. rewrite <- !app_assoc in *. cbn [wf_pairs fold_right fst snd] in W. destruct W as (WK & WV & W).
  destruct (dec_uint _) as [[n r1]|] eqn:E1; [|exact SAME]. destruct (N.eqb_spec n key) as [->|]; [|exact SAME].
  apply (uint_item _ _ _ _ WK) in E1 as [-> ->]. destruct (dec _) as [[a r2]|] eqn:E2; [|exact SAME].
  apply HD in E2 as [HQ ->]; [|exact WV]. intros E. injection E as <- <-. exists l. rewrite lenN_cons.
  split; [f_equal; lia|]. split; [exact W|]. intros p [<-|HP]; [right; exists v, a; auto|auto].
Qed.
Lemma params_known l m r r' : wf_item (CMap l) -> dec_id_cred_map (cbor (CMap l) ++ r) = Some (m, r') ->
  (forall b, ic_kid m <> Some (UStr b)) -> Forall own_param l.
Proof.
  intros W. unfold dec_id_cred_map, dec_map. rewrite (dec_item _ _ W). cbn [item_head item_body fst snd].
  cbn [wf_item] in W. destruct W as [_ W]. change (flat_map _ l) with (pairs l).
  assert (D2 : forall i r a r', wf_item i -> dec_bstr (cbor i ++ r) = Some (a, r') -> (exists b, i = CBytes b) /\ r' = r).
  { intros i q a q' Wi E. apply (bstr_item _ _ _ _ Wi) in E as [-> ->]. eauto. }
  assert (D3 : forall i r a r', wf_item i -> dec_hash_pair (cbor i ++ r) = Some (a, r') -> (exists x h, i = CArr [x; CBytes h]) /\ r' = r).
  { intros i q [[z|b] h] q' Wi E; apply (hash_pair_item _ _ _ _ Wi) in E as [E ->]; cbn in E; eauto. }
  destruct (dec_entry 4 _ _) as [a1 s1] eqn:E1.
  assert (Q1 : (forall b, a1 <> Some (UStr b)) -> exists l', s1 = (lenN l', pairs l' ++ r) /\ wf_pairs l' /\ (forall p, In p l -> In p l' \/ own_param p)).
  { intros NS. unfold dec_entry in E1.
    assert (SAME : (None, (lenN l, pairs l ++ r)) = (a1, s1) -> exists l', s1 = (lenN l', pairs l' ++ r) /\ wf_pairs l' /\ (forall p, In p l -> In p l' \/ own_param p)).
    { intros E. injection E as <- <-. exists l. repeat split; [exact W|auto]. }
    destruct (lenN l =? 0) eqn:E0; [exact (SAME E1)|]. destruct l as [|[k v] l]; [discriminate|].
    cbn [pairs flat_map fst snd] in *. rewrite <- !app_assoc in *. cbn [wf_pairs fold_right fst snd] in W. destruct W as (WK & WV & W).
    destruct (dec_uint _) as [[n r1]|] eqn:E3; [|exact (SAME E1)]. destruct (N.eqb_spec n 4) as [->|]; [|exact (SAME E1)].
    apply (uint_item _ _ _ _ WK) in E3 as [-> ->]. unfold dec_int_or_bstr in E1.
    destruct (dec_int _) as [[z r2]|] eqn:E4.
    - apply (int_item _ _ _ _ WV) in E4 as [-> ->]. injection E1 as <- <-. exists l. rewrite lenN_cons. split; [f_equal; lia|]. split; [exact W|].
      intros p [<-|HP]; [right; left; exists z; reflexivity|auto].
    - destruct (dec_bstr _) as [[b r2]|] eqn:E5; [|exact (SAME E1)]. injection E1 as <- <-. exfalso. exact (NS b eq_refl). }
  destruct (dec_entry 32 _ s1) as [a2 s2] eqn:E2. destruct (dec_entry 33 _ s2) as [a3 s3] eqn:E3. destruct (dec_entry 34 _ s3) as [a4 s4] eqn:E4.
  destruct (dec_entry 35 _ s4) as [a5 s5] eqn:E5. destruct (dec_entry 52 _ s5) as [a6 s6] eqn:E6. destruct (dec_entry 53 _ s6) as [a7 s7] eqn:E7.
  destruct (dec_entry 54 _ s7) as [a8 s8] eqn:E8. destruct (dec_entry 55 _ s8) as [a9 s9] eqn:E9.
  destruct (N.eqb_spec (fst s9) 0) as [L9|]; [|discriminate]. intros E NK. injection E as <- _. cbn [ic_kid] in NK.
  destruct (Q1 NK) as (l1 & -> & W1 & I1). clear Q1.
  apply (entry_all _ _ _ _ _ _ _ D2) in E2 as (l2 & -> & W2 & I2); [|exact W1].
  apply (entry_all _ _ _ _ _ _ _ D2) in E3 as (l3 & -> & W3 & I3); [|exact W2].
  apply (entry_all _ _ _ _ _ _ _ D3) in E4 as (l4 & -> & W4 & I4); [|exact W3].
  apply (entry_all _ _ _ _ _ _ _ D2) in E5 as (l5 & -> & W5 & I5); [|exact W4].
  apply (entry_all _ _ _ _ _ _ _ D2) in E6 as (l6 & -> & W6 & I6); [|exact W5].
  apply (entry_all _ _ _ _ _ _ _ D2) in E7 as (l7 & -> & W7 & I7); [|exact W6].
  apply (entry_all _ _ _ _ _ _ _ D3) in E8 as (l8 & -> & W8 & I8); [|exact W7].
  apply (entry_all _ _ _ _ _ _ _ D2) in E9 as (l9 & -> & W9 & I9); [|exact W8].
  cbn [fst] in L9. apply lenN_0 in L9 as ->.
  assert (B : forall k p, In k [32; 33; 35; 52; 53; 55] -> (exists i (a : bytes) (o : option bytes), o = Some a /\ p = (CInt (Z.of_N k), i) /\ exists b, i = CBytes b) -> own_param p).
  { intros k p HK (i & _ & _ & _ & -> & b & ->). right. left. exists (Z.of_N k), b. split; [|reflexivity].
    cbn in HK. repeat destruct HK as [<-|HK]; cbn; tauto. }
  assert (H : forall k p, In k [34; 54] -> (exists i (a : int_or_str * bytes) (o : option (int_or_str * bytes)), o = Some a /\ p = (CInt (Z.of_N k), i) /\ exists x h, i = CArr [x; CBytes h]) -> own_param p).
  { intros k p HK (i & _ & _ & _ & -> & x & h & ->). right. right. exists (Z.of_N k), x, h. split; [|reflexivity].
    cbn in HK. repeat destruct HK as [<-|HK]; cbn; tauto. }
  apply Forall_forall. intros p HP.
  destruct (I1 p HP) as [P1|?]; [|assumption].
  destruct (I2 p P1) as [P2|(i & a & ? & ? & ?)]; [|apply (B 32); [cbn; tauto|exists i, a, a2; auto]].
  destruct (I3 p P2) as [P3|(i & a & ? & ? & ?)]; [|apply (B 33); [cbn; tauto|exists i, a, a3; auto]].
  destruct (I4 p P3) as [P4|(i & a & ? & ? & ?)]; [|apply (H 34); [cbn; tauto|exists i, a, a4; auto]].
  destruct (I5 p P4) as [P5|(i & a & ? & ? & ?)]; [|apply (B 35); [cbn; tauto|exists i, a, a5; auto]].
  destruct (I6 p P5) as [P6|(i & a & ? & ? & ?)]; [|apply (B 52); [cbn; tauto|exists i, a, a6; auto]].
  destruct (I7 p P6) as [P7|(i & a & ? & ? & ?)]; [|apply (B 53); [cbn; tauto|exists i, a, a7; auto]].
  destruct (I8 p P7) as [P8|(i & a & ? & ? & ?)]; [|apply (H 54); [cbn; tauto|exists i, a, a8; auto]].
  destruct (I9 p P8) as [[]|(i & a & ? & ? & ?)]. apply (B 55); [cbn; tauto|exists i, a, a9; auto].
Qed.
(** so nothing is made of another one *)
Lemma own_plaintext cf l c sg ead cap pt : wf_item (CMap l) -> plaintext_gen cf c (cbor (CMap l)) sg ead cap = Ok pt -> Forall own_param l.
Proof.
  intros W E. unfold plaintext_gen in E.
  apply bind_ok in E as (? & _ & E). apply bind_ok in E as (? & _ & E). apply bind_ok in E as (? & _ & E). apply bind_ok in E as (kid & E & _).
  unfold id_cred2kid in E. apply bind_ok in E as ([m r] & EM & E). apply ext_ok in EM.
  rewrite <- (app_nil_r (cbor _)) in EM. apply (params_known l m [] r W EM). intros b EB. rewrite EB in E. discriminate E.
Qed.
Lemma params_choice l r i r' : wf_item (CMap l) -> dec_id_cred_choice (cbor (CMap l) ++ r) = Some (i, r') ->
  exists m, i = IdMap m /\ dec_id_cred_map (cbor (CMap l) ++ r) = Some (m, r').
Proof.
  intros W. unfold dec_id_cred_choice. destruct (dec_id_cred_map _) as [[m x]|].
  - intros E. injection E as <- <-. exists m. auto.
  - destruct (dec_bstr _) as [[b x]|] eqn:E; [apply (bstr_item _ _ _ _ W) in E as [? _]; discriminate|].
    destruct (dec_int _) as [[z x]|] eqn:E2; [apply (int_item _ _ _ _ W) in E2 as [? _]; discriminate|discriminate].
Qed.
(** the identifiers that the code can make of a map *)
Definition made_of (l : list (item * item)) (j : cred_id) : Prop :=
  match j with
  | KidInt _ => False
  | X5chain c => In (CInt 33, CBytes c) l
  | X5t a h => In (CInt 34, CArr [CInt a; CBytes h]) l
  end.
Lemma x5chain_made c cap b : id_cred_x5chain_encode c cap = Ok b -> b = rfc_id_cred (X5chain c).
Proof. unfold id_cred_x5chain_encode. fold (cid_map (X5chain c)). rewrite (enc_cid (X5chain c)). intros E. now apply cbor_put_ok in E as [-> _]. Qed.
Lemma x5t_made a h cap b : id_cred_x5t_encode a h cap = Ok b -> b = rfc_id_cred (X5t a h).
Proof. unfold id_cred_x5t_encode. fold (cid_map (X5t a h)). rewrite (enc_cid (X5t a h)). intros E. now apply cbor_put_ok in E as [-> _]. Qed.
Lemma params_split l m r r' cap o : wf_item (CMap l) -> dec_id_cred_map (cbor (CMap l) ++ r) = Some (m, r') ->
  id_cred_split (IdMap m) cap = Ok o -> match o with Some id => exists j, id = rfc_id_cred j /\ made_of l j | None => True end.
Proof.
  intros W E H. destruct (params_map _ _ _ _ W E) as (_ & HC & HT). cbn [id_cred_split] in H.
  apply bind_ok in H as (o1 & E1 & H). destruct (ic_x5t m) as [[[z|b] h]|].
  - apply bind_ok in H as (b & E2 & H). injection H as <-. apply x5t_made in E2. exists (X5t z h). split; [exact E2|].
    destruct (HT _ eq_refl) as (i & HI & Q). cbn [hash_item fst snd] in Q. subst i. exact HI.
  - discriminate.
  - injection H as <-. destruct (ic_x5chain m) as [c|].
    + apply bind_ok in E1 as (b & E1 & H). injection H as <-. apply x5chain_made in E1. exists (X5chain c). split; [exact E1|].
      apply HC. reflexivity.
    + injection E1 as <-. exact I.
Qed.
Lemma split3_params l sig ead id_cap ead_cap s : wf_item (CMap l) -> lenN sig < 2 ^ 64 ->
  plaintext3_split (cbor (CMap l) ++ cbor (CBytes sig) ++ ead) id_cap ead_cap = Ok s ->
  sp_sig s = sig /\ inner ead (sp_ead s) /\ forall id, sp_id_cred s = Some id -> exists j, id = rfc_id_cred j /\ made_of l j.
Proof.
  intros W HS H. unfold plaintext3_split in H. apply bind_ok in H as (p & EP & H). apply ext_ok in EP.
  unfold cbor_decode_ptxt3 in EP. destruct (dec_id_cred_choice _) as [[ch l1]|] eqn:E1; [|discriminate].
  apply (params_choice _ _ _ _ W) in E1 as (m & -> & E1). pose proof (proj1 (params_map _ _ _ _ W E1)) as ->.
  rewrite cbor_bytes, dec_enc_bstr in EP by exact HS. injection EP as <-. cbn [pt_id_cred pt_sgn_or_mac pt_ead] in H.
  apply bind_ok in H as (id & EI & H). apply bind_ok in H as (sg & EG & H). apply copy_null_inv in EG as [-> _].
  apply bind_ok in H as (e & EE & H). injection H as <-. cbn [sp_ead sp_sig sp_id_cred]. split; [reflexivity|].
  split; [eapply inner_read, EE|]. intros id' ->. exact (params_split _ _ _ _ _ _ W E1 EI).
Qed.
Lemma split2_params c l sig ead c_cap id_cap ead_cap s : wf_item (CMap l) -> lenN c < 2 ^ 64 -> lenN sig < 2 ^ 64 ->
  plaintext2_split (rfc_conn_id c ++ cbor (CMap l) ++ cbor (CBytes sig) ++ ead) c_cap id_cap ead_cap = Ok s ->
  sp_c_r s = c /\ sp_sig s = sig /\ inner ead (sp_ead s) /\
  forall id, sp_id_cred s = Some id -> exists j, id = rfc_id_cred j /\ made_of l j.
Proof.
  intros W HC HS H. unfold plaintext2_split in H. apply bind_ok in H as (p & EP & H). apply ext_ok in EP.
  unfold cbor_decode_ptxt2, cbor_decode_ptxt3 in EP. rewrite dec_conn_id in EP by exact HC.
  destruct (dec_id_cred_choice _) as [[ch l1]|] eqn:E1; [|discriminate].
  apply (params_choice _ _ _ _ W) in E1 as (m & -> & E1). pose proof (proj1 (params_map _ _ _ _ W E1)) as ->.
  rewrite cbor_bytes, dec_enc_bstr in EP by exact HS. injection EP as <-. cbn [pt_c_r pt_id_cred pt_sgn_or_mac pt_ead] in H.
  apply bind_ok in H as (c' & ECR & H). assert (c' = c) as ->.
  { destruct (one_byte_int c) eqn:O.
    - destruct (decode_one_byte c O) as (z & D & EN & _). rewrite D in ECR. unfold encode_int in ECR. rewrite EN in ECR.
      now apply cbor_put_ok in ECR as [-> _].
    - now apply copy_null_inv in ECR as [-> _]. }
  apply bind_ok in H as (id & EI & H). apply bind_ok in H as (sg & EG & H). apply copy_null_inv in EG as [-> _].
  apply bind_ok in H as (e & EE & H). injection H as <-. cbn [sp_c_r sp_ead sp_sig sp_id_cred]. split; [reflexivity|].
  split; [reflexivity|]. split; [eapply inner_read, EE|]. intros id' ->. exact (params_split _ _ _ _ _ _ W E1 EI).
Qed.
(** such an identifier is not the encoding of the whole map *)
Definition map_of (j : cred_id) : list (item * item) :=
  match j with
  | KidInt z => [(CInt 4, CInt z)]
  | X5chain c => [(CInt 33, CBytes c)]
  | X5t a h => [(CInt 34, CArr [CInt a; CBytes h])]
  end.
Lemma map_one a b : cbor (CMap [(a, b)]) = rfc_head 5 1 ++ cbor a ++ cbor b.
Proof. change (cbor (CMap [(a, b)])) with (rfc_head 5 1 ++ (cbor a ++ cbor b) ++ []). now rewrite app_nil_r. Qed.
Lemma made_map j : rfc_id_cred j = cbor (CMap (map_of j)).
Proof. destruct j; cbn [map_of rfc_id_cred]; rewrite map_one; reflexivity. Qed.
Lemma wf_in l p : wf_pairs l -> In p l -> wf_item (fst p) /\ wf_item (snd p).
Proof. induction l as [|q l IH]; [contradiction|]. intros (A & B & C) [E|E]; [now subst|now apply IH]. Qed.
Lemma made_wf l j : wf_item (CMap l) -> made_of l j -> wf_item (CMap (map_of j)).
Proof.
  intros [_ W] M. cbn [wf_item]. destruct j as [z|c|a h]; [contradiction| |]; cbn [made_of] in M; apply (wf_in _ _ W) in M as [A B];
    cbn [map_of]; (split; [reflexivity|]); cbn [fold_right fst snd] in *; auto.
Qed.
Lemma made_differs l j r r' : wf_item (CMap l) -> made_of l j -> l <> map_of j -> cbor (CMap l) ++ r <> rfc_id_cred j ++ r'.
Proof. intros W M NE E. rewrite made_map in E. apply item_unique in E as [E _]; [|exact W|exact (made_wf _ _ W M)]. congruence. Qed.
