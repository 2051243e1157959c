(** message_1 at its limits: C34 (when it is made), C47 (its buffer), C34 and C73 (suites
    that are too many or too large). *)
From Verif Require Import Base Proof_Base Model_Common Model_Cbor Proof_Cbor Model_Crypto Model_Toy Model_ToyRun Proof_Toy
  Spec_CborTree Proof_CborTree Spec_Edhoc Spec_EdhocRun Spec_EdhocInterop Model_EdhocCfg Model_EdhocCbor Proof_EdhocBase Model_EdhocCert Model_EdhocMsg
  Model_EdhocRun Model_ToyEdhoc Proof_EdhocMsg1 Proof_EdhocRun Prop_EdhocInterop.

(** The initiator makes message_1 exactly if it offers 1 to 10 suites, the last of which
    it knows, and the message of the RFC fits its buffer. *)
Theorem C34_when : forall cr cf c,
  (exists m1 st h, msg1_gen cr cf c = Ok (m1, st, h)) <->
  1 <= lenN (i_suites c) <= 10 /\ (exists st, get_suite (last (i_suites c) 0) = Ok st) /\
  lenN (rfc_message_1 (i_method c) (i_suites c) (i_g_x c) (i_c_i c) (i_ead_1 c)) <= MSG_MAX_SIZE cf.
Proof.
  intros cr cf c. split.
  - intros (m1 & st & h & E). apply msg1_gen_ok in E as (L & -> & G & _ & M). split; [exact L|]. split; [eauto|exact M].
  - intros (L & (st & G) & M). eexists _, _, _. apply (msg1_gen_fits cr cf c st); assumption.
Qed.
Print Assumptions C34_when.

(** lengths of the parts of message_1 *)
Lemma suites_len su : Forall (fun s => s < 24) su -> 1 <= lenN su <= 10 ->
  lenN (cbor (rfc_suites_i su)) = if lenN su =? 1 then 1 else 1 + lenN su.
Proof.
  intros F L. rewrite rfc_suites_enc. assert (Q : forall l, Forall (fun s => s < 24) l -> lenN (flat_map enc_int (map Z.of_N l)) = lenN l).
  { clear. induction 1 as [|x l Hx _ IH]; [reflexivity|]. cbn [map flat_map]. rewrite lenN_app, IH, lenN_cons.
    unfold enc_int. destruct (Z.leb_spec 0 (Z.of_N x)); [|lia]. rewrite N2Z.id, enc_head_len. unfold head_len.
    destruct (N.ltb_spec x 24); lia. }
  destruct su as [|s [|s' l]].
  - change (lenN (@nil N)) with 0 in L. lia.
  - pose proof (Q _ F) as E. cbn [map flat_map] in E. rewrite app_nil_r in E. rewrite E. reflexivity.
  - rewrite lenN_app, (Q _ F). unfold enc_list. rewrite enc_head_len. unfold head_len.
    destruct (N.ltb_spec (lenN (s :: s' :: l)) 24); [|lia]. destruct (N.eqb_spec (lenN (s :: s' :: l)) 1) as [E|]; [|reflexivity].
    rewrite !lenN_cons in E. lia.
Qed.
Lemma method_len me : me <= 3 -> lenN (cbor (CInt (Z.of_N me))) = 1.
Proof. intros H. rewrite cbor_int. unfold enc_int. destruct (Z.leb_spec 0 (Z.of_N me)); [|lia]. rewrite N2Z.id, enc_head_len. unfold head_len. destruct (N.ltb_spec me 24); lia. Qed.
Lemma conn_len c : lenN c < 2 ^ 32 -> lenN (rfc_conn_id c) <= as_bstr_size (lenN c).
Proof.
  intros H. unfold rfc_conn_id, as_bstr_size. destruct (one_byte_int c); [lia|]. rewrite cbor_bytes, enc_bstr_len.
  pose proof (overhead_ge _ H). lia.
Qed.
Lemma as_bstr_mono a b : a <= b -> as_bstr_size a <= as_bstr_size b.
Proof. intros H. unfold as_bstr_size, bstr_overhead. destruct (N.leb_spec a 5), (N.leb_spec b 5), (N.leb_spec a 255), (N.leb_spec b 255), (N.leb_spec a 65535), (N.leb_spec b 65535); lia. Qed.
Lemma ead_len e : lenN e < 65536 -> lenN (match e with [] => [] | _ => cbor (CBytes e) end) <= 3 + lenN e.
Proof.
  intros H. destruct e as [|x e]; [cbn; lia|]. rewrite cbor_bytes, enc_bstr_len. unfold head_len.
  change (2 ^ 8) with 256. change (2 ^ 16) with 65536. destruct (N.ltb_spec (lenN (x :: e)) 24), (N.ltb_spec (lenN (x :: e)) 256), (N.ltb_spec (lenN (x :: e)) 65536); lia.
Qed.

(** An initiator whose values are within the configured sizes makes message_1 if the
    message buffer has 6 bytes more than what was planned for message_1. What is missing
    is the case that message_1 is the largest message: *)
Theorem C47_message_1_partial : forall cr cf c, MSG_1_SIZE cf + 6 <= MSG_MAX_SIZE cf -> EAD_SIZE cf < 65536 -> C_I_SIZE cf < 2 ^ 32 ->
  i_method c <= 3 -> Forall (fun s => s < 24) (i_suites c) -> 1 <= lenN (i_suites c) <= 10 -> lenN (i_suites c) <= SUITES_I_SIZE cf ->
  (exists st, get_suite (last (i_suites c) 0) = Ok st) -> lenN (i_g_x c) = 32 -> lenN (i_c_i c) <= C_I_SIZE cf -> lenN (i_ead_1 c) <= EAD_SIZE cf ->
  exists m1 st h, msg1_gen cr cf c = Ok (m1, st, h).
Proof.
  intros cr cf c M E C HM HS HL HL' HG HX HC HE. apply C34_when. split; [exact HL|]. split; [exact HG|].
  unfold rfc_message_1. rewrite !lenN_app, (method_len _ HM), (suites_len _ HS HL), cbor_bytes, enc_bstr_len, HX.
  pose proof (conn_len (i_c_i c) ltac:(lia)) as L1. pose proof (as_bstr_mono _ _ HC) as L2. pose proof (ead_len (i_ead_1 c) ltac:(lia)) as L3.
  change (head_len 32) with 2. unfold MSG_1_SIZE, G_X_SIZE in M. destruct (lenN (i_suites c) =? 1); lia.
Qed.
Print Assumptions C47_message_1_partial.
(** The planned size has no room for the headers of SUITES_I, G_X and EAD_1. If
    message_1 is the largest message then an initiator that uses the configured sizes
    in full sends nothing. *)
Theorem C47_message_1_refuted : forall cr cf pf c, MSG_MAX_SIZE cf = MSG_1_SIZE cf -> C_I_SIZE cf < 2 ^ 16 -> 2 <= C_I_SIZE cf ->
  2 <= lenN (i_suites c) -> lenN (i_suites c) = SUITES_I_SIZE cf -> lenN (i_g_x c) = 32 ->
  lenN (i_c_i c) = C_I_SIZE cf -> lenN (i_ead_1 c) = EAD_SIZE cf ->
  forall creds n e, let o := initiator_run cr cf pf c creds n e in o_sent o = [] /\ o_prk o = None /\ o_ret o <> Ok tt.
Proof.
  intros cr cf pf c M C C2 HL HS HX HC HE creds n e. cbv zeta. unfold initiator_run, initiator_run_extended.
  destruct (msg1_gen cr cf c) as [[[m1 st] h]|?|?] eqn:E1; try (repeat split; discriminate). exfalso.
  apply msg1_gen_ok in E1 as (L & -> & _ & _ & LM). rewrite M in LM. unfold rfc_message_1 in LM. rewrite !lenN_app, cbor_bytes, enc_bstr_len, HX in LM.
  change (head_len 32) with 2 in LM.
  assert (Q1 : 1 <= lenN (cbor (CInt (Z.of_N (i_method c))))).
  { rewrite cbor_int. unfold enc_int. destruct (0 <=? _)%Z; rewrite enc_head_len; unfold head_len; repeat destruct (_ <? _); lia. }
  assert (Q2 : 1 + lenN (i_suites c) <= lenN (cbor (rfc_suites_i (i_suites c)))).
  { assert (Q : forall l, lenN l <= lenN (flat_map enc_int (map Z.of_N l))).
    { clear. induction l as [|x l IH]; [cbn; lia|]. cbn [map flat_map]. rewrite lenN_app, lenN_cons.
      assert (1 <= lenN (enc_int (Z.of_N x))); [|lia]. unfold enc_int. destruct (0 <=? _)%Z; rewrite enc_head_len; unfold head_len; repeat destruct (_ <? _); lia. }
    rewrite rfc_suites_enc. destruct (i_suites c) as [|s [|s' l]]; [unfold lenN in HL; cbn [length] in HL; lia|unfold lenN in HL; cbn [length] in HL; lia|].
    rewrite lenN_app. unfold enc_list. rewrite enc_head_len. pose proof (Q (s :: s' :: l)). unfold head_len. repeat destruct (_ <? _); lia. }
  assert (Q3 : as_bstr_size (C_I_SIZE cf) <= 1 + lenN (rfc_conn_id (i_c_i c))).
  { unfold rfc_conn_id. destruct (one_byte_int (i_c_i c)) eqn:O.
    - destruct (i_c_i c) as [|b [|? ?]]; try discriminate. change (lenN [b]) with 1 in HC. lia.
    - rewrite cbor_bytes, enc_bstr_len, HC. unfold as_bstr_size, bstr_overhead, head_len. change (2 ^ 8) with 256. change (2 ^ 16) with 65536 in *.
      destruct (N.leb_spec (C_I_SIZE cf) 5), (N.leb_spec (C_I_SIZE cf) 255), (N.leb_spec (C_I_SIZE cf) 65535), (N.ltb_spec (C_I_SIZE cf) 24), (N.ltb_spec (C_I_SIZE cf) 256), (N.ltb_spec (C_I_SIZE cf) 65536); lia. }
  assert (Q4 : EAD_SIZE cf <= lenN (match i_ead_1 c with [] => [] | _ => cbor (CBytes (i_ead_1 c)) end)).
  { rewrite <- HE. destruct (i_ead_1 c) as [|x l]; [reflexivity|]. rewrite cbor_bytes, enc_bstr_len. lia. }
  unfold MSG_1_SIZE, G_X_SIZE in LM. lia.
Qed.
Print Assumptions C47_message_1_refuted.
(** Such a configuration; with the default one the 6 bytes are there. *)
Definition long_c_i_cfg : cfg := {| EAD_SIZE := 0; C_I_SIZE := 400; C_R_SIZE := 3; ID_CRED_I_SIZE := 20; ID_CRED_R_SIZE := 20;
  CRED_I_SIZE := 100; CRED_R_SIZE := 100; SUITES_I_SIZE := 2 |}.
Example C47_message_1_example :
  MSG_MAX_SIZE long_c_i_cfg = MSG_1_SIZE long_c_i_cfg /\ MSG_1_SIZE default_cfg + 6 <= MSG_MAX_SIZE default_cfg.
Proof. split; [reflexivity|]. apply N.leb_le. reflexivity. Qed.

(** More suites than the responder has room for (by default 6), or more than 10, are
    allowed by the RFC; the responder sends nothing, whatever suite is selected. *)
Theorem C73_many_suites_refuted : forall cr cf pf r creds ci_cap pk_cap n e me su g_x c_i e1,
  2 <= lenN su < 2 ^ 64 -> 10 < lenN su \/ SUITES_I_SIZE cf < lenN su -> me <= 3 ->
  e_rx e 1 [] = Ok (rfc_message_1 me su g_x c_i [] ++ e1) ->
  let o := responder_run_extended cr cf pf r creds ci_cap pk_cap n e in o_sent o = [] /\ o_prk o = None /\ o_ret o <> Ok tt.
Proof.
  intros cr cf pf r creds ci_cap pk_cap n e me su g_x c_i e1 L2 L ME RX. cbv zeta. unfold responder_run_extended, receive. rewrite RX. cbn [bind].
  destruct (_ <? _); [repeat split; discriminate|].
  destruct (msg2_gen cr cf r _ ci_cap) as [[ci rc]|?|?] eqn:E; try (repeat split; discriminate). exfalso.
  unfold msg2_gen in E. apply bind_ok in E as ([[[[me' su'] gx'] ci'] ead'] & E & _). unfold msg1_parse in E.
  apply bind_ok in E as (m & EM & E). apply ext_ok in EM.
  assert (Q : exists l, m1_suites m = SList l /\ lenN l = lenN su /\ lenN su <= 10).
  { unfold cbor_decode_message_1, rfc_message_1 in EM. rewrite <- !app_assoc, cbor_int, dec_enc_int in EM by (unfold is_int32; lia).
    destruct (dec_suites _) as [[sc l2]|] eqn:ES; [|discriminate]. destruct (dec_bstr l2) as [[? l3]|]; [|discriminate].
    destruct (dec_int_or_bstr l3) as [[? ?]|]; [|discriminate]. injection EM as <-. cbn [m1_suites].
    unfold dec_suites, dec_list in ES. rewrite rfc_suites_enc in ES. destruct su as [|s [|s' tl]]; [unfold lenN in L2; cbn [length] in L2; lia|unfold lenN in L2; cbn [length] in L2; lia|].
    unfold enc_list in ES. rewrite <- !app_assoc, dec_enc_head in ES by lia. destruct ((2 <=? _) && _) eqn:B in ES; [|discriminate].
    apply andb_prop in B as [_ B]. apply N.leb_le in B. destruct (dec_ints _ _) as [[zs r']|] eqn:D; [|discriminate]. injection ES as <- _.
    exists zs. split; [reflexivity|]. split; [|exact B]. clear - D. unfold lenN in *. apply N2Nat.inj. rewrite Nat2N.id.
    revert D. generalize (N.to_nat (N.of_nat (length (s :: s' :: tl)))) as k. intros k. match goal with |- dec_ints _ ?x = _ -> _ => generalize x end. revert zs r'.
    induction k as [|k IH]; intros zs r' x; cbn [dec_ints].
    - intros D. injection D as <- _. reflexivity.
    - destruct (dec_int x) as [[z y]|]; [|discriminate]. destruct (dec_ints k y) as [[zs' y']|] eqn:D; [|discriminate].
      intros Q. injection Q as <- _. cbn [length]. f_equal. exact (IH _ _ _ D). }
  destruct Q as (l & QS & QL & Q10). rewrite QS, QL in E. destruct L as [L|L]; [lia|].
  destruct ((_ || _)%bool); [discriminate|]. destruct (N.ltb_spec (SUITES_I_SIZE cf) (lenN su)); [discriminate|lia].
Qed.
Print Assumptions C73_many_suites_refuted.

(** Suites are integers of any size in message_1, but the responder keeps their lowest 8
    bits: a message_1 that selects a suite that does not exist, like 258 or -254, is
    processed like one that selects another suite. *)
Definition message_1_with (me : N) (suites : list Z) (g_x c_i e1 : bytes) : bytes :=
  cbor (CInt (Z.of_N me)) ++ cbor (match suites with [z] => CInt z | _ => CArr (map CInt suites) end) ++ cbor (CBytes g_x) ++ rfc_conn_id c_i ++ e1.
Lemma seq_ints l : flat_map cbor (map CInt l) = flat_map enc_int l.
Proof. induction l as [|x l IH]; [reflexivity|]. cbn [map flat_map]. now rewrite IH, cbor_int. Qed.
Lemma wide_parse cf me zs g_x c_i e1 cap : Forall is_int32 zs -> me <= 3 -> lenN g_x < 2 ^ 64 -> lenN c_i < 2 ^ 64 -> 1 <= lenN zs <= 10 ->
  exists k : bytes -> res (N * bytes * bytes * bytes * option bytes),
  (forall zs', Forall is_int32 zs' -> lenN zs' = lenN zs ->
    msg1_parse cf (message_1_with me zs' g_x c_i e1) cap =
    bind (if lenN zs =? 1 then if SUITES_I_SIZE cf =? 0 then UB NullDeref else Ok (map z_u8 zs')
          else if SUITES_I_SIZE cf <? lenN zs then Err suites_i_list_to_long else Ok (map z_u8 zs')) k).
Proof.
  intros F ME LX LC L. eexists. intros zs' F' L'. unfold msg1_parse, cbor_decode_message_1, message_1_with.
  rewrite cbor_int, dec_enc_int by (unfold is_int32; lia).
  assert (D : forall r, dec_suites (cbor (match zs' with [z] => CInt z | _ => CArr (map CInt zs') end) ++ r) =
    Some (match zs' with [z] => SInt z | _ => SList zs' end, r)).
  { intros r. destruct zs' as [|z [|z' l]].
    - rewrite <- L' in L. unfold lenN in L. cbn [length] in L. lia.
    - inversion F' as [|? ? Fz _]; subst. rewrite cbor_int. unfold dec_suites, dec_list. unfold enc_int at 1.
      assert (H' : dec_head (enc_int z ++ r) = Some (if (0 <=? z)%Z then 0 else 1, if (0 <=? z)%Z then Z.to_N z else Z.to_N (-1 - z), r)).
      { unfold enc_int. unfold is_int32 in Fz. destruct (Z.leb_spec 0 z); apply dec_enc_head; lia. }
      fold (enc_int z). rewrite H'. rewrite dec_enc_int by exact Fz. destruct (0 <=? z)%Z; reflexivity.
    - set (q := z :: z' :: l) in *. change (cbor (CArr (map CInt q))) with (rfc_head 4 (lenN (map CInt q)) ++ flat_map cbor (map CInt q)).
      rewrite rfc_head_eq, seq_ints. assert (LM : lenN (map CInt q) = lenN q) by (unfold lenN; now rewrite map_length). rewrite LM.
      unfold dec_suites, dec_list. rewrite <- app_assoc, dec_enc_head by (change (2 ^ 64) with 18446744073709551616; lia).
      assert (2 <= lenN q) by (unfold q; rewrite !lenN_cons; lia). destruct ((2 <=? lenN q) && (lenN q <=? 10)) eqn:E; [|lia].
      replace (N.to_nat (lenN q)) with (length q) by (unfold lenN; lia). rewrite dec_ints_enc by exact F'. reflexivity. }
  rewrite D, cbor_bytes, dec_enc_bstr by exact LX. rewrite dec_conn_id by exact LC. cbn [ext bind m1_method m1_suites m1_g_x m1_c_i m1_ead_1].
  destruct ((3 <? Z.of_N me) || (Z.of_N me <? 0))%Z eqn:EM; [lia|].
  rewrite <- L'. destruct zs' as [|z [|z' l]]; [rewrite <- L' in L; unfold lenN in L; cbn [length] in L; lia| |].
  - change (lenN [z] =? 1) with true. cbv iota. reflexivity.
  - destruct (N.eqb_spec (lenN (z :: z' :: l)) 1) as [Q|Q]; [rewrite !lenN_cons in Q; lia|]. reflexivity.
Qed.
Theorem C34_wide_suite_refuted : forall cf me zs g_x c_i e1 cap, Forall is_int32 zs -> me <= 3 -> lenN g_x < 2 ^ 64 -> lenN c_i < 2 ^ 64 ->
  1 <= lenN zs <= 10 ->
  msg1_parse cf (message_1_with me zs g_x c_i e1) cap =
  msg1_parse cf (message_1_with me (map (fun z => z mod 256)%Z zs) g_x c_i e1) cap.
Proof.
  intros cf me zs g_x c_i e1 cap F ME LX LC L. destruct (wide_parse cf me zs g_x c_i e1 cap F ME LX LC L) as (k & HK).
  assert (F' : Forall is_int32 (map (fun z => z mod 256)%Z zs)).
  { apply Forall_forall. intros x HI. apply in_map_iff in HI as (z & <- & _). unfold is_int32. pose proof (Z.mod_pos_bound z 256). lia. }
  rewrite (HK _ F eq_refl), (HK _ F') by (unfold lenN; now rewrite map_length).
  assert (E : map z_u8 (map (fun z => z mod 256)%Z zs) = map z_u8 zs).
  { rewrite map_map. apply map_ext. intros z. unfold z_u8. now rewrite Z.mod_mod. }
  now rewrite E.
Qed.
Print Assumptions C34_wide_suite_refuted.
(** The responder of C73 answers a message_1 that selects suite 258 (or -254). *)
Definition answer (suites : list Z) : outcome :=
  responder_run_extended toy_crypto default_cfg toy_pf (party_r [7; 8] x_r) known_i 10 None 32
    (toy_env (Ok (message_1_with 3 suites (repeat 11 32) [1; 2] [])) (Err not_implemented)).
Example C34_wide_suite_example :
  lenN (o_sent (answer [258%Z])) = 1 /\ lenN (o_sent (answer [(-254)%Z])) = 1 /\ lenN (o_sent (answer [0%Z; 2050%Z])) = 1 /\
  o_sent (answer [259%Z; 7%Z]) = [] /\ o_sent (answer (repeat 2%Z 7)) = [] /\ lenN (o_sent (answer (repeat 2%Z 6))) = 1.
Proof. vm_compute. repeat split. Qed.
