(** Properties C34 (message_1) and C32 (suite selection). *)
From Verif Require Import Base Proof_Base Model_Common Model_Cbor Proof_Cbor Model_Crypto
  Spec_CborTree Proof_CborTree Spec_Edhoc Model_EdhocCfg Model_EdhocCbor Model_EdhocKeys Proof_EdhocBase
  Model_EdhocCert Model_EdhocMsg Model_EdhocRun Proof_EdhocMsg1 Model_Toy Model_ToyEdhoc.

(* ---------- C34 ---------- *)

(** The initiator's message_1 is the one of RFC 9528, for all its inputs; the suite it
    goes on with is the last one of its list. *)
Theorem C34_message_1_is_rfc : forall (cr : crypto) (cf : cfg) (c : initiator) (m1 : bytes) (st : suite) (h : bytes),
  msg1_gen cr cf c = Ok (m1, st, h) ->
  m1 = rfc_message_1 (i_method c) (i_suites c) (i_g_x c) (i_c_i c) (i_ead_1 c) /\
  get_suite (last (i_suites c) 0) = Ok st /\ h = cr_hash cr m1.
Proof. intros cr cf c m1 st h H. apply msg1_gen_ok in H. tauto. Qed.
Print Assumptions C34_message_1_is_rfc.

(** The responder recovers every field, except (what is missing from the full
    statement) connection identifiers that are the encoding of a negative integer. *)
Theorem C34_recovered_partial :
  forall (cr : crypto) (cf : cfg) (c : initiator) (m1 : bytes) (st : suite) (h : bytes) (ci_cap : N),
  msg1_gen cr cf c = Ok (m1, st, h) ->
  i_method c <= 3 -> is_bytes (i_suites c) -> lenN (i_suites c) <= SUITES_I_SIZE cf ->
  lenN (i_g_x c) <= 32 -> lenN (i_c_i c) <= ci_cap -> lenN (i_c_i c) < 2 ^ 64 ->
  lenN (i_ead_1 c) <= EAD_SIZE cf -> lenN (i_ead_1 c) < 2 ^ 64 ->
  (forall b, i_c_i c = [b] -> ~ (0x20 <= b <= 0x37)) ->
  msg1_parse cf m1 ci_cap =
    Ok (i_method c, i_suites c, i_g_x c, i_c_i c, match i_ead_1 c with [] => None | e => Some e end).
Proof.
  intros cr cf c m1 st h ci_cap H HM HB HS HG HC HC' HE HE' HN.
  apply msg1_gen_ok in H as (HS' & -> & _). rewrite msg1_parse_rfc by assumption.
  rewrite arrived_same by assumption. destruct (i_ead_1 c); reflexivity.
Qed.
Print Assumptions C34_recovered_partial.

(** For those the responder reads another identifier: the initiator calls itself
    [0x20 .. 0x37], the responder gets [0xFF .. 0xE8]. *)
Theorem C34_negative_c_i_refuted :
  forall (cr : crypto) (cf : cfg) (c : initiator) (m1 : bytes) (st : suite) (h : bytes) (ci_cap b : N),
  msg1_gen cr cf c = Ok (m1, st, h) ->
  i_method c <= 3 -> is_bytes (i_suites c) -> lenN (i_suites c) <= SUITES_I_SIZE cf ->
  lenN (i_g_x c) <= 32 -> 1 <= ci_cap -> lenN (i_ead_1 c) <= EAD_SIZE cf -> lenN (i_ead_1 c) < 2 ^ 64 ->
  i_c_i c = [b] -> 0x20 <= b <= 0x37 ->
  exists me su g e c', msg1_parse cf m1 ci_cap = Ok (me, su, g, c', e) /\ c' = [287 - b] /\ c' <> i_c_i c.
Proof.
  intros cr cf c m1 st h ci_cap b H HM HB HS HG HC HE HE' HI HR.
  apply msg1_gen_ok in H as (HS' & -> & _).
  do 5 eexists. split; [apply msg1_parse_rfc; try assumption; rewrite HI; change (lenN [b]) with 1; lia|].
  rewrite HI. cbn. destruct ((32 <=? b) && (b <=? 55)) eqn:E; [|lia].
  split; [reflexivity|]. intros Q. injection Q. lia.
Qed.
Print Assumptions C34_negative_c_i_refuted.

(** Anything the responder accepts as message_1 has a method 0..3 and lengths within
    its buffers. *)
Theorem C34_parse_ranges : forall (cf : cfg) (msg : bytes) (ci_cap me : N) (su g c : bytes) (e : option bytes),
  msg1_parse cf msg ci_cap = Ok (me, su, g, c, e) ->
  me <= 3 /\ 1 <= lenN su <= SUITES_I_SIZE cf /\ lenN g <= 32 /\ lenN c <= ci_cap /\
  match e with Some x => lenN x <= EAD_SIZE cf | None => True end.
Proof.
  intros cf msg ci_cap me su g c e H. unfold msg1_parse in H. apply bind_ok in H as (m & EM & H).
  apply ext_ok in EM.
  destruct ((3 <? m1_method m) || (m1_method m <? 0))%Z eqn:EME; [discriminate|].
  assert (CN : forall cap b x, copy_null cap b = Ok x -> lenN x <= cap).
  { clear. intros cap b x H. unfold copy_null in H. destruct (N.eqb_spec (lenN b) 0).
    - injection H as <-. change (lenN (@nil N)) with 0. lia.
    - destruct (N.eqb_spec cap 0); [discriminate|]. apply bind_ok in H as ([] & H1 & H). injection H as <-.
      apply check_ok in H1. exact H1. }
  apply bind_ok in H as (su' & ES & H). apply bind_ok in H as (g' & EG & H).
  apply bind_ok in H as (c' & EC & H). apply bind_ok in H as (e' & EE & H).
  injection H as <- <- <- <- <-. apply CN in EG. repeat split.
  - lia.
  - destruct (m1_suites m) as [z|l] eqn:EQ.
    + destruct (N.eqb_spec (SUITES_I_SIZE cf) 0); [discriminate|]. injection ES as <-. change (lenN [z_u8 z]) with 1. lia.
    + destruct (N.ltb_spec (SUITES_I_SIZE cf) (lenN l)); [discriminate|]. injection ES as <-.
      assert (2 <= lenN l).
      { unfold cbor_decode_message_1 in EM. destruct (dec_int msg) as [[? l1]|]; [|discriminate].
        destruct (dec_suites l1) as [[? l2]|] eqn:DS; [|discriminate].
        destruct (dec_bstr l2) as [[? l3]|]; [|discriminate].
        destruct (dec_int_or_bstr l3) as [[? l4]|]; [|discriminate]. injection EM as <-. cbn in EQ. subst.
        unfold dec_suites in DS. destruct (dec_list l1) as [[n r]|].
        - destruct ((2 <=? n) && (n <=? 10)) eqn:EN; [|discriminate].
          destruct (dec_ints (N.to_nat n) r) as [[zs r']|] eqn:DI; [|discriminate]. injection DS as <- <-.
          assert (L : forall k r zs r', dec_ints k r = Some (zs, r') -> length zs = k).
          { clear. induction k as [|k IH]; intros r zs r' H; cbn in H; [injection H as <- <-; reflexivity|].
            destruct (dec_int r) as [[z r1]|]; [|discriminate]. destruct (dec_ints k r1) as [[zs' r2]|] eqn:E; [|discriminate].
            injection H as <- <-. cbn. erewrite IH; eauto. }
          apply L in DI. unfold lenN. lia.
        - destruct (dec_int l1) as [[? ?]|]; discriminate. }
      unfold lenN in *. rewrite map_length. lia.
  - destruct (m1_suites m) as [z|l] eqn:EQ.
    + destruct (N.eqb_spec (SUITES_I_SIZE cf) 0); [discriminate|]. injection ES as <-. change (lenN [z_u8 z]) with 1. lia.
    + destruct (N.ltb_spec (SUITES_I_SIZE cf) (lenN l)); [discriminate|]. injection ES as <-.
      unfold lenN in *. rewrite map_length. lia.
  - exact EG.
  - destruct (m1_c_i m) as [z|b].
    + destruct (N.eqb_spec ci_cap 0); [discriminate|]. injection EC as <-. change (lenN [z_u8 z]) with 1. lia.
    + apply CN in EC. exact EC.
  - destruct (m1_ead_1 m) as [b|].
    + apply bind_ok in EE as (x & EX & EE). injection EE as <-. apply CN in EX. exact EX.
    + injection EE as <-. exact I.
Qed.
Print Assumptions C34_parse_ranges.

Example C34_example :
  toy_m1 default_cfg (toy_initiator 3 [6; 2] [0x18] []) =
    Ok ([3; 0x82; 6; 2; 0x58; 0x20] ++ repeat 11 32 ++ [0x41; 0x18]) /\
  msg1_parse default_cfg ([3; 0x82; 6; 2; 0x58; 0x20] ++ repeat 11 32 ++ [0x41; 0x18]) 10 =
    Ok (3, [6; 2], repeat 11 32, [0x18], None) /\
  (exists m, toy_m1 default_cfg (toy_initiator 3 [6; 2] [0x20] []) = Ok m /\
     msg1_parse default_cfg m 10 = Ok (3, [6; 2], repeat 11 32, [0xFF], None)).
Proof. split; [vm_compute; reflexivity|]. split; [vm_compute; reflexivity|]. eexists. split; [vm_compute; reflexivity|]. vm_compute. reflexivity. Qed.

(* ---------- C32 ---------- *)

(** A responder answers, for every first message and every network, in the same way
    whatever suites it is configured with, as long as there is one. *)
Theorem C32_list_is_ignored_refuted :
  forall (cr : crypto) (cf : cfg) (pf : platform) (c : responder) (l : bytes) (creds : list other_party_cred)
    (ci_cap : N) (pk_cap : option N) (prk_len : N) (e : env),
  r_suites c <> [] -> l <> [] ->
  responder_run_extended cr cf pf c creds ci_cap pk_cap prk_len e =
  responder_run_extended cr cf pf
    {| r_c_r := r_c_r c; r_suites := l; r_g_y := r_g_y c; r_y := r_y c; r_g_r := r_g_r c; r_r := r_r c;
       r_ead_2 := r_ead_2 c; r_id_cred := r_id_cred c; r_cred := r_cred c; r_sk := r_sk c; r_pk := r_pk c |}
    creds ci_cap pk_cap prk_len e.
Proof.
  intros cr cf pf c l creds ci_cap pk_cap prk_len e H1 H2. unfold responder_run_extended, msg2_gen, msg3_process.
  cbn [r_suites r_c_r r_g_y r_y r_g_r r_r r_ead_2 r_id_cred r_cred r_sk r_pk].
  assert (Q : forall s, selected_suite_is_supported s (r_suites c) = selected_suite_is_supported s l).
  { intros s. unfold selected_suite_is_supported. destruct (r_suites c), l; congruence. }
  destruct (receive cf e 1 []) as [m1| |]; [|reflexivity|reflexivity].
  destruct (msg1_parse cf m1 ci_cap) as [[[[[me su] g_x] c_i] ead]| |]; cbn [bind]; [|reflexivity|reflexivity].
  rewrite Q. reflexivity.
Qed.
Print Assumptions C32_list_is_ignored_refuted.

(** A complete run with a suite the responder does not support: both parties finish
    and have a key. *)
Example C32_run_ex :
  let i := toy_initiator 0 [2] [1; 2] [] in let r := toy_responder [0; 1; 3] [7; 8] in
  ~ In (last (i_suites i) 0) (r_suites r) /\
  o_ret (toy_oi default_cfg i r) = Ok tt /\ o_ret (toy_or default_cfg i r) = Ok tt /\
  exists k, o_prk (toy_oi default_cfg i r) = Some k /\ o_prk (toy_or default_cfg i r) = Some k.
Proof.
  cbv zeta. split; [cbn; intros H; repeat (destruct H as [H|H]; [discriminate|]); assumption|].
  split; [vm_compute; reflexivity|]. split; [vm_compute; reflexivity|].
  eexists. split; vm_compute; reflexivity.
Qed.

(** What is left of the check: with an empty list, or with a selected suite that is
    not one of 0..3, the responder sends nothing and derives nothing. *)
Theorem C32_partial :
  forall (cr : crypto) (cf : cfg) (pf : platform) (c : responder) (creds : list other_party_cred)
    (ci_cap : N) (pk_cap : option N) (prk_len : N) (e : env) (m1 : bytes) (me : N) (su g c_i : bytes) (ead : option bytes),
  receive cf e 1 [] = Ok m1 -> msg1_parse cf m1 ci_cap = Ok (me, su, g, c_i, ead) ->
  r_suites c = [] \/ 3 < last su 0 ->
  let o := responder_run_extended cr cf pf c creds ci_cap pk_cap prk_len e in
  o_sent o = [] /\ o_prk o = None /\
  o_ret o = Err (match r_suites c with [] => error_message_sent | _ => unsupported_cipher_suite end).
Proof.
  intros cr cf pf c creds ci_cap pk_cap prk_len e m1 me su g c_i ead HR HP HC. cbv zeta.
  unfold responder_run_extended. rewrite HR. unfold msg2_gen. rewrite HP. cbn [bind].
  unfold selected_suite_is_supported. destruct (r_suites c) as [|s l] eqn:ES; cbn [negb].
  - repeat split.
  - destruct HC as [HC|HC]; [discriminate|].
    assert (Q : get_suite (last su 0) = Err unsupported_cipher_suite).
    { unfold get_suite. destruct (last su 0) as [|[[p|p|]|[p|p|]|]]; try lia; reflexivity. }
    rewrite Q. cbn [bind]. repeat split.
Qed.
Print Assumptions C32_partial.

Example C32_example :
  o_ret (toy_or default_cfg (toy_initiator 0 [2] [1; 2] []) (toy_responder [] [7; 8])) = Err error_message_sent.
Proof. vm_compute. reflexivity. Qed.
