(** The runs with arrays behave like the runs of Model_EdhocRun.v. *)
From Verif Require Import Base Proof_Base Model_Common Model_Cbor Proof_Cbor Model_Crypto
  Spec_CborTree Proof_CborTree Spec_Hkdf Proof_Hkdf Spec_Edhoc Spec_EdhocRun Spec_EdhocView Model_EdhocCfg Model_EdhocCbor Model_EdhocKeys
  Proof_EdhocBase Model_EdhocCert Model_EdhocMsg Model_EdhocRun Model_EdhocOut Spec_EdhocOut
  Proof_EdhocMsg1 Proof_EdhocMsg Proof_EdhocRun Proof_EdhocSound.

Lemma shows_mem a b x : shows a b x -> a_len a <= lenN (a_mem a) /\ lenN (a_mem a) = lenN (a_mem x).
Proof.
  intros (L & B & M). rewrite L, M, lenN_app, lenN_dropN. split; lia.
Qed.
Lemma shows_content a b x : shows a b x -> content a = b.
Proof. intros (L & B & M). unfold content. rewrite L, M. apply takeN_app. Qed.

Lemma memcpy_inv a b a' : memcpy_array a b = Ok a' ->
  a_len a' = a_len a /\ lenN b <= lenN (a_mem a) /\ a_mem a' = b ++ dropN (lenN b) (a_mem a).
Proof.
  unfold memcpy_array. destruct (N.eqb_spec (lenN b) 0) as [E|E].
  - intros Q. injection Q as <-. apply lenN_0 in E. subst. split; [reflexivity|]. split; [apply N.le_0_l|].
    change (lenN []) with 0. now rewrite dropN_0.
  - destruct (_ =? 0); [discriminate|]. intros Q. apply bind_ok in Q as ([] & C & Q).
    destruct (N.ltb_spec (lenN (a_mem a)) (lenN b)); [discriminate|]. injection Q as <-. cbn [a_len a_mem]. auto.
Qed.
Lemma memcpy_shows a b a' : memcpy_array a b = Ok a' -> shows (set_len a' (lenN b)) b a.
Proof. intros H. apply memcpy_inv in H as (_ & L & M). split; [reflexivity|]. split; [exact L|exact M]. Qed.
Lemma memcpy_room a b : sound_array a -> lenN b <= a_len a -> exists a', memcpy_array a b = Ok a'.
Proof.
  unfold sound_array, memcpy_array. intros [S _] L. destruct (N.eqb_spec (lenN b) 0); [eauto|].
  destruct (N.eqb_spec (lenN (a_mem a)) 0); [lia|].
  unfold check_buffer_size. destruct (N.ltb_spec (a_len a) (lenN b)); [lia|]. cbn [bind].
  destruct (N.ltb_spec (lenN (a_mem a)) (lenN b)); [lia|]. eauto.
Qed.
Lemma memcpy_no_ub a b u : a_len a <= lenN (a_mem a) -> memcpy_array a b <> UB u.
Proof.
  unfold memcpy_array, check_buffer_size. intros S. destruct (_ =? 0); [discriminate|]. destruct (_ =? 0); [discriminate|].
  destruct (N.ltb_spec (a_len a) (lenN b)); [discriminate|]. cbn [bind].
  destruct (N.ltb_spec (lenN (a_mem a)) (lenN b)); [lia|discriminate].
Qed.
Lemma put_len cap o b : cbor_put cap o = Ok b -> lenN b <= cap.
Proof. unfold cbor_put. destruct (N.leb_spec (lenN o) cap); [|discriminate]. intros Q. injection Q as <-. assumption. Qed.

(* ---------- C_R ---------- *)

Lemma write_c_r_shows pt a a' : write_c_r pt a = Ok a' -> exists b, shows a' b a.
Proof.
  unfold write_c_r. intros H. apply bind_ok in H as (p & _ & H). destruct (pt_c_r p) as [[z|b]|]; [| |discriminate].
  - apply bind_ok in H as (b & _ & H). apply bind_ok in H as (x & E & H). injection H as <-. exists b. now apply memcpy_shows.
  - apply bind_ok in H as (x & E & H). injection H as <-. exists b. now apply memcpy_shows.
Qed.
Lemma write_c_r_split pt a m n s : sound_array a -> plaintext2_split pt (a_len a) m n = Ok s ->
  exists a', write_c_r pt a = Ok a' /\ shows a' (sp_c_r s) a.
Proof.
  unfold write_c_r, plaintext2_split. intros S H. apply bind_ok in H as (p & -> & H). cbn [bind].
  apply bind_ok in H as (c & EC & H). apply bind_ok in H as (x & _ & H). apply bind_ok in H as (y & _ & H).
  apply bind_ok in H as (w & _ & H). injection H as <-. cbn [sp_c_r].
  destruct (pt_c_r p) as [[z|b]|]; [| |discriminate].
  - rewrite EC. cbn [bind]. destruct (memcpy_room a c S) as (a' & E); [eapply put_len; exact EC|].
    rewrite E. cbn [bind]. eexists. split; [reflexivity|]. now apply memcpy_shows.
  - apply copy_null_inv in EC as [-> L]. destruct (memcpy_room a b S L) as (a' & E).
    rewrite E. cbn [bind]. eexists. split; [reflexivity|]. now apply memcpy_shows.
Qed.
Lemma write_c_r_ub pt a m n u : a_len a <= lenN (a_mem a) -> write_c_r pt a = UB u -> plaintext2_split pt (a_len a) m n = UB u.
Proof.
  unfold write_c_r, plaintext2_split. intros S. destruct (ext (cbor_decode_ptxt2 pt)) as [p|?|?]; cbn [bind]; try congruence.
  destruct (pt_c_r p) as [[z|b]|]; cbn [bind]; [| |congruence].
  - destruct (encode_int z (a_len a)) as [b|?|?]; cbn [bind]; try congruence.
    destruct (memcpy_array a b) as [x|?|v] eqn:E; cbn [bind]; try congruence. now apply memcpy_no_ub in E.
  - destruct (memcpy_array a b) as [x|?|v] eqn:E; cbn [bind]; try congruence. now apply memcpy_no_ub in E.
Qed.

Section Out.
Variable cr : crypto.
Variable cf : cfg.
Variable pf : platform.

(** message_2 is processed by way of its plaintext. *)
Lemma msg2_by_plaintext c st h1 msg creds cap si sr :
  match msg2_plaintext cr cf c st h1 msg with
  | Ok pt =>
      match plaintext2_split pt cap (ID_CRED_R_SIZE cf) (EAD_SIZE cf) with
      | Ok s => forall a, msg2_process cr cf pf c st h1 msg creds cap si sr = Ok a -> a2_c_r a = sp_c_r s
      | Err e => msg2_process cr cf pf c st h1 msg creds cap si sr = Err e
      | UB u => msg2_process cr cf pf c st h1 msg creds cap si sr = UB u
      end
  | Err e => msg2_process cr cf pf c st h1 msg creds cap si sr = Err e
  | UB u => msg2_process cr cf pf c st h1 msg creds cap si sr = UB u
  end.
Proof.
  unfold msg2_plaintext, msg2_process, ciphertext2_decrypt_split. cbv zeta.
  destruct (byte_array_new G_Y_SIZE _) as [?|?|?]; cbn [bind]; try reflexivity.
  destruct (byte_array_new (CIPHERTEXT2_SIZE cf) _) as [?|?|?]; cbn [bind]; try reflexivity.
  destruct (msg2_parse cf msg _ _) as [[g_y ct]|?|?]; cbn [bind]; try reflexivity.
  destruct (shared_secret_derive cr _ _ _) as [g_xy|?|?]; cbn [bind]; try reflexivity.
  destruct (th2_calculate cr _ _) as [th2|?|?]; cbn [bind]; try reflexivity.
  destruct (check_buffer_size (PLAINTEXT2_SIZE cf) _) as [?|?|?]; cbn [bind]; try reflexivity.
  destruct (byte_array_new (CIPHERTEXT2_SIZE cf) (lenN ct)) as [?|?|?]; cbn [bind]; try reflexivity.
  destruct (key_gen_2 cr cf _ _ _) as [key|?|?]; cbn [bind]; try reflexivity.
  destruct (associated_data_encode th2) as [aad|?|?]; cbn [bind]; try reflexivity.
  destruct (plaintext2_split _ _ _ _) as [s|?|?]; cbn [bind]; try reflexivity.
  intros af H. apply bind_ok in H as (f & _ & H). apply bind_ok in H as (p3 & _ & H). apply bind_ok in H as (x & _ & H).
  apply bind_ok in H as (t3 & _ & H). apply bind_ok in H as (p4 & _ & H). injection H as <-. reflexivity.
Qed.
Lemma msg3_gen_2 c st h1 msg creds cap n a m3 o : msg3_gen cr cf pf c st h1 msg creds cap n = Ok (a, m3, o) ->
  exists si sr, msg2_process cr cf pf c st h1 msg creds cap si sr = Ok a.
Proof.
  unfold msg3_gen. destruct (authentication_type_get _ _) as [si sr]. intros H. apply bind_ok in H as (a' & E & H).
  destruct (msg3_only_gen _ _ _ _ _ _ _ _) as [x [?|?|?]]; try discriminate; injection H as -> _ _; eauto.
Qed.
Lemma c_r_ok c st h1 msg creds a n x m3 o : sound_array a ->
  msg3_gen cr cf pf c st h1 msg creds (a_len a) n = Ok (x, m3, o) ->
  exists a', c_r_after cr cf c st h1 msg a = Ok a' /\ shows a' (a2_c_r x) a.
Proof.
  intros S H. apply msg3_gen_2 in H as (si & sr & H). pose proof (msg2_by_plaintext c st h1 msg creds (a_len a) si sr) as P.
  unfold c_r_after. destruct (msg2_plaintext _ _ _ _ _ _) as [pt|?|?]; try congruence. cbn [bind].
  destruct (plaintext2_split pt _ _ _) as [s|?|?] eqn:ES; try congruence. rewrite (P x H). eapply write_c_r_split; eassumption.
Qed.
Lemma c_r_ub c st h1 msg creds a n u : a_len a <= lenN (a_mem a) -> c_r_after cr cf c st h1 msg a = UB u ->
  msg3_gen cr cf pf c st h1 msg creds (a_len a) n = UB u.
Proof.
  intros S H. unfold msg3_gen. destruct (authentication_type_get _ _) as [si sr].
  pose proof (msg2_by_plaintext c st h1 msg creds (a_len a) si sr) as P. unfold c_r_after in H.
  destruct (msg2_plaintext _ _ _ _ _ _) as [pt|?|?]; cbn [bind] in H; try congruence.
  - eapply write_c_r_ub in H; [|exact S]. rewrite H in P. now rewrite P.
  - injection H as ->. now rewrite P.
Qed.
Lemma c_r_after_shows c st h1 msg a a' : c_r_after cr cf c st h1 msg a = Ok a' -> exists b, shows a' b a.
Proof. unfold c_r_after. intros H. apply bind_ok in H as (pt & _ & H). eapply write_c_r_shows; exact H. Qed.

(* ---------- C_I ---------- *)

Lemma write_c_i_shows m a a' : write_c_i cf m a = Ok a' -> exists b, shows a' b a.
Proof.
  unfold write_c_i. intros H. apply bind_ok in H as (p & _ & H). destruct (_ || _)%bool; [discriminate|].
  apply bind_ok in H as ([] & _ & H). apply bind_ok in H as (x & _ & H). destruct (m1_c_i p) as [z|b].
  - destruct (N.eqb_spec (lenN (a_mem a)) 0); [discriminate|]. injection H as <-. exists [z_u8 z].
    split; [reflexivity|]. split; [|reflexivity]. change (lenN [z_u8 z]) with 1. lia.
  - apply bind_ok in H as (y & E & H). injection H as <-. exists b. now apply memcpy_shows.
Qed.
Lemma write_c_i_parse m a me su g_x c_i ead : sound_array a -> msg1_parse cf m (a_len a) = Ok (me, su, g_x, c_i, ead) ->
  exists a', write_c_i cf m a = Ok a' /\ shows a' c_i a.
Proof.
  unfold write_c_i, msg1_parse. intros S H. apply bind_ok in H as (p & -> & H). cbn [bind]. destruct (_ || _)%bool; [discriminate|].
  apply bind_ok in H as (s & ES & H). apply bind_ok in H as (g & -> & H). apply bind_ok in H as (c & EC & H).
  apply bind_ok in H as (d & _ & H). injection H as _ _ _ <- _.
  assert (E : match m1_suites p with
              | SInt z => if SUITES_I_SIZE cf =? 0 then UB NullDeref else Ok tt
              | SList l => if SUITES_I_SIZE cf <? lenN l then Err suites_i_list_to_long else Ok tt
              end = Ok tt).
  { destruct (m1_suites p); [destruct (_ =? _)|destruct (_ <? _)]; congruence. }
  rewrite E. cbn [bind]. destruct (m1_c_i p) as [z|b].
  - destruct (N.eqb_spec (a_len a) 0) as [|NZ]; [discriminate|]. injection EC as <-. destruct S as [S _].
    destruct (N.eqb_spec (lenN (a_mem a)) 0); [lia|]. eexists. split; [reflexivity|].
    split; [reflexivity|]. split; [|reflexivity]. change (lenN [z_u8 z]) with 1. lia.
  - apply copy_null_inv in EC as [-> L]. destruct (memcpy_room a b S L) as (a' & EM).
    rewrite EM. cbn [bind]. eexists. split; [reflexivity|]. now apply memcpy_shows.
Qed.
Lemma write_c_i_ub m a u : sound_array a -> write_c_i cf m a = UB u -> msg1_parse cf m (a_len a) = UB u.
Proof.
  unfold write_c_i, msg1_parse. intros S. destruct (ext (cbor_decode_message_1 m)) as [p|?|?]; cbn [bind]; try congruence.
  destruct (_ || _)%bool; [discriminate|].
  assert (T : forall v, match m1_suites p with
              | SInt z => if SUITES_I_SIZE cf =? 0 then UB NullDeref else Ok tt
              | SList l => if SUITES_I_SIZE cf <? lenN l then Err suites_i_list_to_long else Ok tt
              end = UB v -> match m1_suites p with
              | SInt z => if SUITES_I_SIZE cf =? 0 then UB NullDeref else Ok [z_u8 z]
              | SList l => if SUITES_I_SIZE cf <? lenN l then Err suites_i_list_to_long else Ok (map z_u8 l)
              end = UB v).
  { intros v. destruct (m1_suites p); [destruct (_ =? _)|destruct (_ <? _)]; congruence. }
  destruct (match m1_suites p with SInt _ => _ | SList _ => _ end) as [[]|?|v] eqn:E1 in T |- *; cbn [bind]; intros H.
  2:{ discriminate. }
  2:{ injection H as <-. now rewrite (T _ eq_refl). }
  assert (exists su, match m1_suites p with
              | SInt z => if SUITES_I_SIZE cf =? 0 then UB NullDeref else Ok [z_u8 z]
              | SList l => if SUITES_I_SIZE cf <? lenN l then Err suites_i_list_to_long else Ok (map z_u8 l)
              end = Ok su) as (su & ->).
  { destruct (m1_suites p); [destruct (_ =? _)|destruct (_ <? _)]; try discriminate; eauto. }
  cbn [bind]. destruct (copy_null G_X_SIZE (m1_g_x p)) as [g|?|?]; cbn [bind] in *; try congruence.
  destruct (m1_c_i p) as [z|b].
  - destruct (N.eqb_spec (lenN (a_mem a)) 0) as [Z|]; [|discriminate]. injection H as <-.
    destruct S as [S _]. destruct (N.eqb_spec (a_len a) 0); [reflexivity|lia].
  - destruct (memcpy_array a b) as [x|?|w] eqn:E; cbn [bind] in H; try congruence. now apply memcpy_no_ub in E; [|apply S].
Qed.
Lemma c_i_ok r m a c_i rc : sound_array a -> msg2_gen cr cf r m (a_len a) = Ok (c_i, rc) ->
  exists a', write_c_i cf m a = Ok a' /\ shows a' c_i a.
Proof.
  intros S H. unfold msg2_gen in H. apply bind_ok in H as ([[[[me su] g_x] ci] ead] & EP & H).
  destruct (negb _); [discriminate|]. apply bind_ok in H as (st & ES & H). destruct (authentication_type_get _ _) as [si sr].
  repeat (apply bind_ok in H as (? & _ & H); cbv zeta in H; try match type of H with (let '(_, _) := ?x in _) = _ => destruct x end).
  injection H as -> _. eapply write_c_i_parse; eassumption.
Qed.
Lemma c_i_ub r m a u : sound_array a -> write_c_i cf m a = UB u -> msg2_gen cr cf r m (a_len a) = UB u.
Proof. intros S H. unfold msg2_gen. now rewrite (write_c_i_ub m a u S H). Qed.

(* ---------- the key of the initiator ---------- *)

Lemma msg3_by_credential r rc m creds n :
  match msg3_credential cr cf pf r rc m creds with
  | Ok f => forall e k o x, msg3_process_full cr cf pf r rc m creds n = Ok (e, k, o, x) -> k = f_pk f
  | Err e => msg3_process_full cr cf pf r rc m creds n = Err e
  | UB u => msg3_process_full cr cf pf r rc m creds n = UB u
  end.
Proof.
  unfold msg3_credential, msg3_process_full. cbv zeta.
  destruct (byte_array_new (CIPHERTEXT3_SIZE cf) _) as [?|?|?]; cbn [bind]; try reflexivity.
  destruct (decode_bstr m _) as [ct|?|?]; cbn [bind]; try reflexivity.
  destruct (byte_array_new _ (lenN ct)) as [?|?|?]; cbn [bind]; try reflexivity.
  destruct (ciphertext3_decrypt_split _ _ _ _ _ _ _ _) as [[pt s]|?|?]; cbn [bind]; try reflexivity.
  destruct (retrieve_cred _ _ _ _ _ _) as [f|?|?]; cbn [bind]; try reflexivity.
  intros e k o x H. apply bind_ok in H as (p4 & _ & H). apply bind_ok in H as ([] & _ & H). apply bind_ok in H as (t & _ & H).
  apply bind_ok in H as (p & _ & H). injection H as _ <- _ _. reflexivity.
Qed.
Lemma msg3_found r rc m creds n e k o : msg3_process cr cf pf r rc m creds n = Ok (e, k, o) ->
  exists f, msg3_credential cr cf pf r rc m creds = Ok f /\ k = f_pk f.
Proof.
  unfold msg3_process. intros H. apply bind_ok in H as ([[[e' k'] o'] x] & E & H). injection H as -> -> ->.
  pose proof (msg3_by_credential r rc m creds n) as P. destruct (msg3_credential _ _ _ _ _ _ _) as [f|?|?]; try congruence.
  exists f. split; [reflexivity|]. eapply P. exact E.
Qed.
Lemma export_new a k : sound_array a -> lenN k <= a_len a -> a_mem a <> [] ->
  exists a', export_pk (Some a) k = Ok (Some a') /\ shows a' k a.
Proof.
  intros S L NE. destruct (memcpy_room a k S L) as (a' & E). unfold export_pk.
  destruct (N.eqb_spec (lenN (a_mem a)) 0) as [Z|]; [apply lenN_0 in Z; contradiction|]. rewrite E. eexists. split; [reflexivity|].
  now apply memcpy_shows.
Qed.
Lemma export_short a k : a_mem a <> [] -> a_len a < lenN k -> export_pk (Some a) k = Ok (Some (set_len a (lenN k))).
Proof.
  intros NE L. unfold export_pk, memcpy_array, check_buffer_size.
  destruct (N.eqb_spec (lenN (a_mem a)) 0) as [Z|]; [apply lenN_0 in Z; contradiction|].
  destruct (N.eqb_spec (lenN k) 0); [lia|]. destruct (N.ltb_spec (a_len a) (lenN k)); [reflexivity|lia].
Qed.
Lemma export_mem a k x : export_pk (Some a) k = Ok x -> exists a', x = Some a' /\ lenN (a_mem a') = lenN (a_mem a).
Proof.
  unfold export_pk. destruct (_ =? _); [intros Q; injection Q as <-; eauto|]. destruct (memcpy_array a k) as [a'|?|?] eqn:E; try discriminate.
  - intros Q. injection Q as <-. eexists. split; [reflexivity|]. apply memcpy_inv in E as (_ & L & M). cbn [set_len a_mem].
    rewrite M, lenN_app, lenN_dropN. lia.
  - intros Q. injection Q as <-. eauto.
Qed.
Lemma export_no_ub p k u : (forall a, p = Some a -> a_len a <= lenN (a_mem a)) -> export_pk p k <> UB u.
Proof.
  unfold export_pk. destruct p as [a|]; [|discriminate]. intros S. destruct (_ =? _); [discriminate|].
  destruct (memcpy_array a k) eqn:E; try discriminate. apply memcpy_no_ub in E; [contradiction|]. now apply S.
Qed.
End Out.
