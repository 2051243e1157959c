(** Property C64: what a run of EDHOC leaves in the arrays of its caller. *)
From Verif Require Import Base Proof_Base Model_Common Model_Cbor Proof_Cbor Model_Crypto
  Spec_CborTree Proof_CborTree Spec_Hkdf Proof_Hkdf Spec_Edhoc Spec_EdhocRun Spec_EdhocView Model_EdhocCfg Model_EdhocCbor Model_EdhocKeys
  Proof_EdhocBase Model_EdhocCert Model_EdhocMsg Model_EdhocRun Model_EdhocOut Spec_EdhocOut
  Proof_EdhocMsg1 Proof_EdhocMsg Proof_EdhocRun Proof_EdhocSound Proof_EdhocOut Model_Toy Proof_Toy Model_ToyEdhoc.

(** An initiator whose PRK_out array changed or that passed an EAD to the application
    has verified message_2, whether or not the run succeeded; the key is that of
    RFC 9528 and the array for C_R shows the verified C_R. *)
Theorem C64_initiator_key :
  forall (cr : crypto) (cf : cfg) (pf : platform) (i : initiator) (creds : list other_party_cred) (c_r : array) (prk : bytes) (e : env),
  crypto_ok cr -> sound_array c_r -> lenN prk <= 8128 ->
  let l := initiator_leaves cr cf pf i creds c_r prk e in
  l_prk l <> prk \/ l_eads l <> [] \/ l_ret l = Ok tt ->
  exists c ead_2 key, initiator_verified cr cf pf i creds (a_len c_r) (lenN prk) e c ead_2 key /\
    shows (l_peer_c l) c c_r /\ l_eads l = [ead_2] /\ (l_prk l = prk \/ l_prk l = key).
Proof.
  intros cr cf pf i creds c_r prk e K S HP l H. subst l. unfold initiator_leaves in *.
  destruct (msg1_gen cr cf i) as [[[m1' st] h1]|?|?] eqn:E1; cbn [leave l_prk l_eads l_ret] in H;
    try (exfalso; destruct H as [H|[H|H]]; [now apply H..|discriminate]).
  apply msg1_gen_ok in E1 as (_ & -> & GS & -> & _).
  set (m1 := rfc_message_1 (i_method i) (i_suites i) (i_g_x i) (i_c_i i) (i_ead_1 i)) in *.
  destruct (e_tx e 1 m1) as [u1|?|?]; cbn [leave l_prk l_eads l_ret] in H;
    try (exfalso; destruct H as [H|[H|H]]; [now apply H..|discriminate]).
  destruct (receive cf e 2 [m1]) as [m2|?|?] eqn:ER; cbn [leave l_prk l_eads l_ret] in H;
    try (exfalso; destruct H as [H|[H|H]]; [now apply H..|discriminate]).
  unfold receive in ER. apply bind_ok in ER as (m & ER & EM). destruct (_ <? _) in EM; [discriminate|]. injection EM as ->.
  assert (AW : after_write (c_r_after cr cf i st (cr_hash cr m1) m2 c_r)
                 (msg3_gen cr cf pf i st (cr_hash cr m1) m2 creds (a_len c_r) (lenN prk))
               = msg3_gen cr cf pf i st (cr_hash cr m1) m2 creds (a_len c_r) (lenN prk)).
  { unfold after_write. destruct (c_r_after _ _ _ _ _ _ _) eqn:EW; try reflexivity. symmetry.
    eapply c_r_ub; [apply S|exact EW]. }
  cbv zeta in H |- *. rewrite AW in H |- *.
  destruct (msg3_gen cr cf pf i st (cr_hash cr m1) m2 creds (a_len c_r) (lenN prk)) as [[[a m3] out]|?|?] eqn:E3;
    cbn [leave l_prk l_eads l_ret] in H; try (exfalso; destruct H as [H|[H|H]]; [now apply H..|discriminate]).
  destruct (c_r_ok cr cf pf _ _ _ _ _ _ _ _ _ _ S E3) as (w & EW & SW). rewrite EW. cbn [written].
  destruct (authentication_type_get (i_method i) (false, false)) as [si sr] eqn:EA.
  destruct (msg3_gen_sound cr cf pf K (last (i_suites i) 0) i st _ _ _ _ _ _ _ _ si sr GS EA HP E3) as [E2 QP].
  apply (msg2_sound_into cr cf pf K _ (last (i_suites i) 0)) in E2; [|exact GS].
  destruct E2 as (g_y & pt & s & f & EC & EE & ET & _ & _ & V).
  assert (MS : i_method i <= 3 -> method_static (i_method i) si sr).
  { intros HM. destruct (method_inv _ HM) as (si' & sr' & EA' & MS). rewrite EA in EA'. injection EA' as -> ->. exact MS. }
  assert (Q : exists key, initiator_verified cr cf pf i creds (a_len c_r) (lenN prk) e (a2_c_r a) (a2_ead a) key /\
    (match out with Some p => p | None => prk end = prk \/ match out with Some p => p | None => prk end = key)).
  { destruct out as [p|].
    - destruct (QP p eq_refl) as (pt3 & ct3 & Q1 & Q2 & _ & _ & Q3 & Q4). exists p. split; [|now right].
      exists st, m2, si, sr, s, f. eexists. do 3 (split; [eassumption|]). split; [apply (V pt3 (i_cred i))|].
      split; [exact EC|]. split; [exact EE|]. split; [reflexivity|]. rewrite ET in Q3. exact Q3.
    - eexists. split; [|now left]. exists st, m2, si, sr, s, f. eexists. do 3 (split; [eassumption|]).
      split; [apply (V [] (i_cred i))|]. split; [exact EC|]. split; [exact EE|]. split; reflexivity. }
  destruct Q as (key & V1 & V2). exists (a2_c_r a), (a2_ead a), key. split; [exact V1|].
  destruct (e_ead e 2 (a2_ead a)) as [?|?|?]; cbn [leave l_peer_c l_eads l_prk]; (split; [exact SW|split; [reflexivity|exact V2]]).
Qed.
Print Assumptions C64_initiator_key.

(** The same for a responder and EAD_3. If the array for the key of the initiator is
    large enough, it shows the key that was verified; if it is too short, then its
    length becomes that of the key but nothing is written. *)
Theorem C64_responder_key_partial :
  forall (cr : crypto) (cf : cfg) (pf : platform) (r : responder) (creds : list other_party_cred) (c_i : array) (pk : option array)
    (prk : bytes) (e : env),
  crypto_ok cr -> sound_array c_i -> (forall a, pk = Some a -> sound_array a) -> lenN prk <= 8128 ->
  let l := responder_leaves cr cf pf r creds c_i pk prk e in
  l_prk l <> prk \/ (2 <= length (l_eads l))%nat \/ l_ret l = Ok tt ->
  exists c ead_1 ead_3 k key, responder_verified cr cf pf r creds (a_len c_i) (lenN prk) e c ead_3 k key /\
    shows (l_peer_c l) c c_i /\ l_eads l = [ead_1; ead_3] /\ l_prk l = key /\
    (forall a, pk = Some a -> a_mem a <> [] -> lenN k <= a_len a -> exists a', l_peer_pk l = Some a' /\ shows a' k a) /\
    (forall a, pk = Some a -> a_mem a <> [] -> a_len a < lenN k -> l_peer_pk l = Some {| a_mem := a_mem a; a_len := lenN k |}).
Proof.
  intros cr cf pf r creds c_i pk prk e K S SP HP l H. subst l. unfold responder_leaves in *.
  destruct (receive cf e 1 []) as [m1|?|?] eqn:ER1; cbn [leave l_prk l_eads l_ret length] in H;
    try (exfalso; destruct H as [H|[H|H]]; [now apply H|lia|discriminate]).
  assert (AW : after_write (write_c_i cf m1 c_i) (msg2_gen cr cf r m1 (a_len c_i)) = msg2_gen cr cf r m1 (a_len c_i)).
  { unfold after_write. destruct (write_c_i _ _ _) eqn:EW; try reflexivity. symmetry. now apply c_i_ub. }
  cbv zeta in H |- *. rewrite AW in H |- *.
  destruct (msg2_gen cr cf r m1 (a_len c_i)) as [[ci rc]|?|?] eqn:E2; cbn [leave l_prk l_eads l_ret length] in H;
    try (exfalso; destruct H as [H|[H|H]]; [now apply H|lia|discriminate]).
  destruct (c_i_ok _ _ _ _ _ _ _ S E2) as (w & EW & SW). rewrite EW in *. cbn [written] in *.
  destruct (e_ead e 1 (rr_ead rc)) as [?|?|?]; cbn [leave l_prk l_eads l_ret length] in H;
    try (exfalso; destruct H as [H|[H|H]]; [now apply H|lia|discriminate]).
  destruct (e_tx e 2 (rr_msg rc)) as [?|?|?]; cbn [leave l_prk l_eads l_ret length] in H;
    try (exfalso; destruct H as [H|[H|H]]; [now apply H|lia|discriminate]).
  destruct (receive cf e 3 [rr_msg rc]) as [m3|?|?] eqn:ER3; cbn [leave l_prk l_eads l_ret length] in H;
    try (exfalso; destruct H as [H|[H|H]]; [now apply H|lia|discriminate]).
  destruct (let* f := msg3_credential cr cf pf r rc m3 creds in export_pk pk (f_pk f)) as [pk'|?|?] eqn:EX;
    cbn [leave l_prk l_eads l_ret length] in H; try (exfalso; destruct H as [H|[H|H]]; [now apply H|lia|discriminate]).
  destruct (msg3_process cr cf pf r rc m3 creds (lenN prk)) as [[[ead3 k] out]|?|?] eqn:E3;
    cbn [leave l_prk l_eads l_ret length] in H; try (exfalso; destruct H as [H|[H|H]]; [now apply H|lia|discriminate]).
  unfold receive in ER1, ER3. apply bind_ok in ER1 as (m & ER1 & EM). destruct (_ <? _) in EM; [discriminate|]. injection EM as ->.
  apply bind_ok in ER3 as (m & ER3 & EM). destruct (_ <? _) in EM; [discriminate|]. injection EM as ->.
  destruct (msg3_found _ _ _ _ _ _ _ _ _ _ _ E3) as (f0 & EF & EK0). rewrite EF in EX. cbn [bind] in EX. rewrite <- EK0 in EX.
  apply (msg2_gen_sound cr cf K) in E2.
  destruct E2 as (me & su & g_x & ead & sr & pt2 & P1 & MS & GS & _ & _ & ET3 & V).
  eapply (msg3_sound cr cf pf K (last su 0)) in E3; [|exact GS|exact HP| |].
  2:{ exact (eq_refl (v_prk_3e2m {| v_m1 := m1; v_g_y := r_g_y r; v_pt2 := pt2; v_cred_r := r_cred r;
         v_prk_3e2m := rr_prk_3e2m rc; v_pt3 := []; v_cred_i := []; v_prk_4e3m := [] |})). }
  2:{ symmetry. exact ET3. }
  destruct E3 as (pt & s & f & p4 & Q1 & Q2 & W & Q3 & _). cbn [v_m1 v_g_y v_pt2 v_cred_r v_prk_3e2m] in W, Q3.
  exists ci, (rr_ead rc), ead3, k, out. split.
  { exists m1, (rr_msg rc), m3, me, su, g_x, ead, (rr_static_i rc), sr, (rr_suite rc), s, f.
    match type of W with verified_message_3 _ _ _ _ _ _ _ _ _ _ ?w => exists w end.
    do 5 (split; [assumption|]). split; [apply V|]. split; [exact W|]. split; [exact Q1|]. split; [exact Q2|exact Q3]. }
  cbn [leave l_peer_c l_eads l_prk l_peer_pk]. split; [exact SW|]. split; [reflexivity|]. split; [reflexivity|]. split.
  - intros pa -> NE L. destruct (export_new pa k (SP pa eq_refl) L NE) as (a' & EQ & SH). rewrite EQ in EX. injection EX as <-. eauto.
  - intros pa -> NE L. rewrite (export_short pa k NE L) in EX. injection EX as <-. reflexivity.
Qed.
Print Assumptions C64_responder_key_partial.

(** No run changes memory outside the arrays, and the lengths of the arrays for C_R and
    C_I never exceed the memory, whatever is received. *)
Theorem C64_in_bounds :
  (forall (cr : crypto) (cf : cfg) (pf : platform) (i : initiator) (creds : list other_party_cred) (c_r : array) (prk : bytes) (e : env),
   crypto_ok cr -> a_len c_r <= lenN (a_mem c_r) -> lenN prk <= 8128 ->
   let l := initiator_leaves cr cf pf i creds c_r prk e in
   lenN (l_prk l) = lenN prk /\ lenN (a_mem (l_peer_c l)) = lenN (a_mem c_r) /\ a_len (l_peer_c l) <= lenN (a_mem (l_peer_c l))) /\
  (forall (cr : crypto) (cf : cfg) (pf : platform) (r : responder) (creds : list other_party_cred) (c_i : array) (pk : option array)
    (prk : bytes) (e : env),
   crypto_ok cr -> a_len c_i <= lenN (a_mem c_i) -> lenN prk <= 8128 ->
   let l := responder_leaves cr cf pf r creds c_i pk prk e in
   lenN (l_prk l) = lenN prk /\ lenN (a_mem (l_peer_c l)) = lenN (a_mem c_i) /\ a_len (l_peer_c l) <= lenN (a_mem (l_peer_c l)) /\
   match pk, l_peer_pk l with
   | Some a, Some a' => lenN (a_mem a') = lenN (a_mem a)
   | None, None => True
   | _, _ => False
   end).
Proof.
  split.
  - intros cr cf pf i creds c_r prk e K S HP l. subst l. unfold initiator_leaves.
    destruct (msg1_gen cr cf i) as [[[m1 st] h1]|?|?] eqn:E1; [|cbn; auto..].
    apply msg1_gen_ok in E1 as (_ & _ & GS & _ & _).
    destruct (e_tx e 1 m1) as [u1|?|?]; [|cbn; auto..]. destruct (receive cf e 2 [m1]) as [m2|?|?]; [|cbn; auto..]. cbv zeta.
    assert (Q : forall w, w = c_r_after cr cf i st h1 m2 c_r -> lenN (a_mem (written w c_r)) = lenN (a_mem c_r) /\
       a_len (written w c_r) <= lenN (a_mem (written w c_r))).
    { intros [w|?|?] EW; cbn [written]; auto. symmetry in EW. apply c_r_after_shows in EW as (b & EW). apply shows_mem in EW. tauto. }
    specialize (Q _ eq_refl). destruct Q as [Q1 Q2].
    destruct (after_write _ _) as [[[a m3] out]|?|?] eqn:E3; [|cbn; auto..].
    assert (L : lenN match out with Some p => p | None => prk end = lenN prk).
    { unfold after_write in E3. assert (E3' : msg3_gen cr cf pf i st h1 m2 creds (a_len c_r) (lenN prk) = Ok (a, m3, out))
        by (destruct (c_r_after _ _ _ _ _ _ _); congruence).
      destruct (authentication_type_get (i_method i) (false, false)) as [si sr] eqn:EA.
      destruct (msg3_gen_sound cr cf pf K (last (i_suites i) 0) i st _ _ _ _ _ _ _ _ si sr GS EA HP E3') as [_ QP].
      destruct out as [p|]; [|reflexivity]. destruct (QP p eq_refl) as (pt3 & ct3 & _ & _ & _ & _ & _ & Q). exact Q. }
    destruct (e_ead e 2 (a2_ead a)) as [?|?|?]; cbn; auto.
  - intros cr cf pf r creds c_i pk prk e K S HP l. subst l. unfold responder_leaves.
    assert (PK : match pk, pk with Some a, Some a' => lenN (a_mem a') = lenN (a_mem a) | None, None => True | _, _ => False end)
      by (destruct pk; auto).
    destruct (receive cf e 1 []) as [m1|?|?]; [|cbn; auto..]. cbv zeta.
    assert (Q : forall w, w = write_c_i cf m1 c_i -> lenN (a_mem (written w c_i)) = lenN (a_mem c_i) /\
       a_len (written w c_i) <= lenN (a_mem (written w c_i))).
    { intros [w|?|?] EW; cbn [written]; auto. symmetry in EW. apply write_c_i_shows in EW as (b & EW). apply shows_mem in EW. tauto. }
    specialize (Q _ eq_refl). destruct Q as [Q1 Q2].
    destruct (after_write _ _) as [[ci rc]|?|?] eqn:E2; [|cbn; auto..].
    assert (E2' : msg2_gen cr cf r m1 (a_len c_i) = Ok (ci, rc)).
    { unfold after_write in E2. destruct (write_c_i _ _ _); congruence. }
    apply (msg2_gen_sound cr cf K) in E2'. destruct E2' as (me & su & g_x & ead & sr & pt2 & P1 & MS & GS & _ & _ & ET3 & V).
    destruct (e_ead e 1 (rr_ead rc)) as [?|?|?]; [|cbn; auto..]. destruct (e_tx e 2 (rr_msg rc)) as [?|?|?]; [|cbn; auto..].
    destruct (receive cf e 3 [rr_msg rc]) as [m3|?|?]; [|cbn; auto..].
    destruct (let* f := msg3_credential cr cf pf r rc m3 creds in export_pk pk (f_pk f)) as [pk'|?|?] eqn:EX; [|cbn; auto..].
    assert (PK' : match pk, pk' with Some a, Some a' => lenN (a_mem a') = lenN (a_mem a) | None, None => True | _, _ => False end).
    { apply bind_ok in EX as (f & _ & EX). destruct pk as [pa|].
      - apply export_mem in EX as (a' & -> & L). exact L.
      - injection EX as <-. exact I. }
    destruct (msg3_process cr cf pf r rc m3 creds (lenN prk)) as [[[ead3 k] out]|?|?] eqn:E3; [|cbn; auto..].
    cbn [leave l_prk l_peer_c l_peer_pk].
    assert (L : lenN out = lenN prk); [|auto].
    eapply (msg3_sound cr cf pf K (last su 0)) in E3; [|exact GS|exact HP| |].
    2:{ exact (eq_refl (v_prk_3e2m {| v_m1 := m1; v_g_y := r_g_y r; v_pt2 := pt2; v_cred_r := r_cred r;
           v_prk_3e2m := rr_prk_3e2m rc; v_pt3 := []; v_cred_i := []; v_prk_4e3m := [] |})). }
    2:{ symmetry. exact ET3. }
    destruct E3 as (pt & s & f & p4 & _ & _ & _ & _ & Q). exact Q.
Qed.
Print Assumptions C64_in_bounds.

(** Two parties over the toy cryptography; [impostor] claims to be the initiator but
    does not have its signature key, [fake] claims to be the responder. *)
Definition new32 : array := new_array (repeat 0 32).
Definition impostor : initiator := {|
  i_c_i := [1; 2]; i_method := 0; i_suites := [2]; i_ead_1 := []; i_ead_3 := [];
  i_id_cred := toy_id_i; i_cred := toy_cred_i;
  i_g_x := repeat 11 32; i_x := repeat 11 32; i_g_i := repeat 12 32; i_i := repeat 12 32;
  i_sk := repeat 99 32; i_pk := repeat 99 32 |}.
Definition fake : responder := {|
  r_c_r := [6; 6; 6]; r_suites := [2]; r_g_y := repeat 21 32; r_y := repeat 21 32;
  r_g_r := repeat 22 32; r_r := repeat 22 32; r_ead_2 := [];
  r_id_cred := toy_id_r; r_cred := toy_cred_r; r_sk := repeat 99 32; r_pk := repeat 99 32 |}.
Definition good_i : initiator := toy_initiator 0 [2] [1; 2] [].
Definition good_r : responder := toy_responder [2] [7; 8].
Definition left_i (r : responder) : left :=
  initiator_leaves toy_crypto default_cfg toy_pf good_i toy_creds_r (new_array (repeat 0 10)) (repeat 0 32)
    (toy_env (toy_m2 default_cfg good_i r) (Err not_implemented)).
Definition left_r (i : initiator) (creds : list other_party_cred) (pk : array) : left :=
  responder_leaves toy_crypto default_cfg toy_pf good_r creds (new_array (repeat 0 10)) (Some pk) (repeat 0 32)
    (toy_env (toy_m1 default_cfg i) (toy_m3 default_cfg i good_r)).

Example C64_example :
  l_ret (left_i good_r) = Ok tt /\ content (l_peer_c (left_i good_r)) = [7; 8] /\
  l_ret (left_r good_i toy_creds_i new32) = Ok tt /\ content (l_peer_c (left_r good_i toy_creds_i new32)) = [1; 2] /\
  l_prk (left_i good_r) = l_prk (left_r good_i toy_creds_i new32) /\ l_prk (left_i good_r) <> repeat 0 32 /\
  l_peer_pk (left_r good_i toy_creds_i new32) = Some (new_array (repeat 13 32)).
Proof. vm_compute. repeat split; discriminate. Qed.

(** The arrays for C_R and the key of the initiator are written before the peer is
    verified: after a run that failed the authentication they show what an impostor
    claimed. *)
Example C64_unverified_ex :
  l_ret (left_i fake) = Err signature_authentication_failed /\ content (l_peer_c (left_i fake)) = [6; 6; 6] /\
  l_prk (left_i fake) = repeat 0 32 /\
  l_ret (left_r impostor toy_creds_i new32) = Err signature_authentication_failed /\
  l_peer_pk (left_r impostor toy_creds_i new32) = Some (new_array (repeat 13 32)) /\
  l_prk (left_r impostor toy_creds_i new32) = repeat 0 32.
Proof. vm_compute. repeat split. Qed.

(** A key that does not fit its array: the run succeeds, the array has a length of 32
    bytes although there are only 16. The next run with this array writes beyond its
    end, before the peer is verified. *)
Example C64_short_key_ex :
  let l := left_r good_i toy_creds_i (new_array (repeat 0 16)) in
  l_ret l = Ok tt /\ l_peer_pk l = Some {| a_mem := repeat 0 16; a_len := 32 |} /\
  l_ret (left_r impostor toy_creds_i {| a_mem := repeat 0 16; a_len := 32 |}) = UB OobWrite.
Proof. vm_compute. repeat split. Qed.

(** An array that is large enough but was used for a shorter key before: the second run
    succeeds and the array shows the first key followed by old memory. *)
Definition long_key_creds : list other_party_cred := [
  {| oc_id_cred := toy_id_i; oc_cred := toy_cred_i; oc_pk := repeat 13 40; oc_g := repeat 12 32; oc_ca := []; oc_ca_pk := [] |}].
Definition long_key_i : initiator := {|
  i_c_i := [1; 2]; i_method := 0; i_suites := [2]; i_ead_1 := []; i_ead_3 := [];
  i_id_cred := toy_id_i; i_cred := toy_cred_i;
  i_g_x := repeat 11 32; i_x := repeat 11 32; i_g_i := repeat 12 32; i_i := repeat 12 32;
  i_sk := repeat 13 40; i_pk := repeat 13 40 |}.
Example C64_reuse_ex :
  let first := left_r good_i toy_creds_i (new_array (repeat 0 65)) in
  match l_peer_pk first with
  | Some a =>
      let second := left_r long_key_i long_key_creds a in
      l_ret first = Ok tt /\ content a = repeat 13 32 /\ l_ret second = Ok tt /\
      match l_peer_pk second with
      | Some b => content b = repeat 13 32 ++ repeat 0 8
      | None => False
      end
  | None => False
  end.
Proof. vm_compute. repeat split. Qed.
