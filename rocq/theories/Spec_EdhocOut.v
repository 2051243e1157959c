(** What a run of EDHOC may leave in the arrays of its caller. *)
From Verif Require Import Base Model_Crypto Model_EdhocCfg Model_EdhocCert Model_EdhocMsg Model_EdhocRun Model_EdhocOut
  Spec_Edhoc Spec_EdhocRun Spec_EdhocView.

(** An array that the caller may pass: its length does not exceed its memory, and a
    length of 0 means that there is none. *)
Definition sound_array (a : array) : Prop := a_len a <= lenN (a_mem a) /\ (a_len a = 0 -> a_mem a = []).
(** The array shows [b]; the memory behind it is as before. *)
Definition shows (a : array) (b : bytes) (before : array) : Prop :=
  a_len a = lenN b /\ lenN b <= lenN (a_mem before) /\ a_mem a = b ++ dropN (lenN b) (a_mem before).

(** The initiator's message_2 [m2] was verified and gave C_R, EAD_2 and, if message_3
    could be made, the key of the session. *)
Definition initiator_verified (cr : crypto) (cf : cfg) (pf : platform) (i : initiator) (creds : list other_party_cred)
    (c_cap prk_len : N) (e : env) (c_r ead_2 : bytes) (prk : bytes) : Prop :=
  let m1 := rfc_message_1 (i_method i) (i_suites i) (i_g_x i) (i_c_i i) (i_ead_1 i) in
  exists st m2 si sr s f v,
    get_suite (last (i_suites i) 0) = Ok st /\ (i_method i <= 3 -> method_static (i_method i) si sr) /\
    e_rx e 2 [m1] = Ok m2 /\ verified_message_2_into c_cap cr cf pf i creds st si sr m2 s f v /\
    c_r = sp_c_r s /\ ead_2 = sp_ead s /\ v_cred_i v = i_cred i /\ prk = v_prk_out cr v prk_len.
(** The responder received message_1, made message_2 and verified message_3. *)
Definition responder_verified (cr : crypto) (cf : cfg) (pf : platform) (r : responder) (creds : list other_party_cred)
    (c_cap prk_len : N) (e : env) (c_i ead_3 pk prk : bytes) : Prop :=
  exists m1 m2 m3 me su g_x ead_1 si sr st s f v,
    e_rx e 1 [] = Ok m1 /\ e_rx e 3 [m2] = Ok m3 /\
    msg1_parse cf m1 c_cap = Ok (me, su, g_x, c_i, ead_1) /\ method_static me si sr /\ get_suite (last su 0) = Ok st /\
    made_message_2 cr r st sr g_x m1 m2 v /\ verified_message_3 cr cf pf r creds st si m3 s f v /\
    ead_3 = sp_ead s /\ pk = f_pk f /\ prk = v_prk_out cr v prk_len.
