(** Properties C48 (message_4 in honest runs) and C49 (what an accepted message_4
    proves), for the build with MESSAGE_4. *)
From Verif Require Import Base Proof_Base Model_Common Model_Cbor Proof_Cbor Model_Crypto
  Spec_CborTree Proof_CborTree Spec_Hkdf Proof_Hkdf Spec_Edhoc Spec_EdhocRun Spec_EdhocView Model_EdhocCfg Model_EdhocCbor Model_EdhocKeys
  Proof_EdhocBase Model_EdhocCert Model_EdhocMsg Model_EdhocRun Model_EdhocMsg4 Proof_EdhocMsg1 Proof_EdhocMsg Proof_EdhocRun
  Proof_EdhocMsg4 Proof_EdhocAgree Proof_EdhocDefault Prop_EdhocAuth Proof_EdhocSound Prop_EdhocRun Model_Toy Proof_Toy
  Model_ToyEdhoc.

(* ---------- C48 ---------- *)

Lemma m4_le_m3 a b ml : a <= b -> bstr_len (a + ml) <= bstr_len (b + ml).
Proof.
  intros H. unfold bstr_len.
  destruct (N.ltb_spec (a + ml) 24), (N.ltb_spec (b + ml) 24); try lia; destruct (N.ltb_spec (a + ml) 256), (N.ltb_spec (b + ml) 256); lia.
Qed.
(** both runs, for any EAD_4 that fits the buffers *)
Lemma run4_both cr cf pf i r creds_i creds_r st si sr id_i id_r key_i key_r g_xy g_rx g_iy ei er prk_len pk_cap ead_4 :
  crypto_ok cr -> aead_total cr ->
  fit cr cf pf i r creds_i creds_r st si sr id_i id_r key_i key_r g_xy g_rx g_iy ->
  m3_fits_m2 r st si sr id_i id_r ->
  is_bytes ead_4 -> lenN ead_4 + edhoc_mac_len_static_dh st <= EAD_SIZE cf + 8 ->
  lenN ead_4 <= pt3_size id_i (sig_len si (edhoc_mac_len_static_dh st)) ->
  obliging ei -> obliging er -> prk_len <= 8128 ->
  let oi := initiator_run4 cr cf pf i creds_r prk_len ei in
  let or := responder_run4_extended cr cf pf r ead_4 creds_i (C_I_SIZE cf) pk_cap prk_len er in
  connected4 ei er oi or ->
  let m1 := rfc_message_1 (i_method i) (i_suites i) (i_g_x i) (i_c_i i) (i_ead_1 i) in
  exists s2 s3 ct3 ct4, let x := session i r st si sr m1 id_i id_r g_xy g_rx g_iy s2 s3 in
  let prk := x_prk_out (cr_hmac cr) (cr_hash cr) x prk_len in
  x_ct3 (cr_hmac cr) (cr_hash cr) (cr_aead_enc cr) x = Some ct3 /\
  x_ct4 (cr_hmac cr) (cr_hash cr) (cr_aead_enc cr) x ead_4 = Some ct4 /\
  oi = match ead4_get cf ead_4 0 with
       | Ok e4 => stop [m1; cbor (CBytes ct3)] [[]; e4] (Some prk) (Some (r_c_r r)) None (Ok tt)
       | r' => stop [m1; cbor (CBytes ct3)] [[]] (Some prk) (Some (r_c_r r)) None r'
       end /\
  o_ret or = Ok tt /\ o_sent or = [x_m2 (cr_hmac cr) (cr_hash cr) x; cbor (CBytes ct4)] /\ o_prk or = Some prk /\
  o_peer_c or = Some (i_c_i i).
Proof.
  intros K A F M B4 T4 LP Oi Or HP oi or Cn m1.
  destruct (sig2_exists cr cf pf K i r creds_i creds_r st si sr id_i id_r key_i key_r g_xy g_rx g_iy F) as (s2 & G2 & L2).
  destruct (sig3_exists cr cf pf K i r creds_i creds_r st si sr id_i id_r key_i key_r g_xy g_rx g_iy F s2) as (s3 & G3 & L3).
  pose proof (G2 s3) as G2'. edestruct (ct3_exists cr cf pf K A i r creds_i creds_r st si sr) as (ct3 & C3); [exact F|eassumption..|].
  assert (E4 : lenN ead_4 <= EAD_SIZE cf + 8) by lia.
  pose proof (m4_le_m3 _ _ (edhoc_mac_len_static_dh st) LP) as M4.
  destruct (ct4_exists cr cf pf K A i r creds_i creds_r st si sr id_i id_r key_i key_r g_xy g_rx g_iy F s2 s3 L2 L3 prk_len ead_4
    HP E4 B4 T4 M4) as (ct4 & C4).
  pose proof (run4_r cr cf pf K i r creds_i creds_r st si sr id_i id_r key_i key_r g_xy g_rx g_iy F s2 s3 G2' L2 G3 L3
    ei er prk_len pk_cap ead_4 Oi Or HP Cn ct3 C3 M E4 T4 M4 ct4 C4) as RR.
  assert (R4 : lenN (cbor (CBytes ct4)) <= MSG_MAX_SIZE cf).
  { pose proof (fit_m2_size _ _ _ _ _ _ _ _ _ _ _ _ _ _ _ _ _ F) as Q. unfold m3_fits_m2 in M.
    pose proof (fit_pt3_size _ _ _ _ _ _ _ _ _ _ _ _ _ _ _ _ _ F) as Q3.
    destruct (st_lens cr cf pf i r creds_i creds_r st si sr id_i id_r key_i key_r g_xy g_rx g_iy F) as (_ & ML1 & _).
    assert (L4 : lenN ct4 = lenN ead_4 + edhoc_mac_len_static_dh st) by (apply (ok_aead_enc_len cr K _ _ _ _ _ _ C4)).
    rewrite bstr_len_enc; rewrite L4; lia. }
  pose proof (run4_i cr cf pf K i r creds_i creds_r st si sr id_i id_r key_i key_r g_xy g_rx g_iy F s2 s3 G2' L2 G3 L3
    ei er prk_len pk_cap ead_4 Oi Or HP Cn ct3 C3 M E4 T4 M4 ct4 C4 R4) as RI.
  exists s2, s3, ct3, ct4. cbv zeta. split; [exact C3|]. split; [exact C4|]. split; [exact RI|].
  unfold or. rewrite RR. cbn [o_ret o_sent o_prk o_peer_c]. repeat split; reflexivity.
Qed.

(** Two parties that fit together and the build of which has room for the tag finish
    with ok also when message_4 is used and EAD_4 is empty; both have the PRK_out of
    RFC 9528, and message_4 is the one of RFC 9528.
    Missing: other EAD_4, and suites with 16-byte tags when EAD_SIZE is less than 8. *)
Theorem C48_agreement_partial :
  forall (cr : crypto) (cf : cfg) (pf : platform) (i : initiator) (r : responder) (creds_i creds_r : list other_party_cred)
    (st : suite) (si sr : bool) (id_i id_r : cred_id) (key_i key_r g_xy g_rx g_iy : bytes) (ei er : env) (prk_len pk_cap : N),
  crypto_ok cr -> aead_total cr ->
  fit cr cf pf i r creds_i creds_r st si sr id_i id_r key_i key_r g_xy g_rx g_iy ->
  m3_fits_m2 r st si sr id_i id_r ->
  edhoc_mac_len_static_dh st <= EAD_SIZE cf + 8 ->
  obliging ei -> obliging er -> prk_len <= 8128 ->
  let oi := initiator_run4 cr cf pf i creds_r prk_len ei in
  let or := responder_run4_extended cr cf pf r [] creds_i (C_I_SIZE cf) (Some pk_cap) prk_len er in
  connected4 ei er oi or ->
  let m1 := rfc_message_1 (i_method i) (i_suites i) (i_g_x i) (i_c_i i) (i_ead_1 i) in
  exists s2 s3 ct3 ct4, let x := session i r st si sr m1 id_i id_r g_xy g_rx g_iy s2 s3 in
  let prk := x_prk_out (cr_hmac cr) (cr_hash cr) x prk_len in
  x_ct3 (cr_hmac cr) (cr_hash cr) (cr_aead_enc cr) x = Some ct3 /\
  x_ct4 (cr_hmac cr) (cr_hash cr) (cr_aead_enc cr) x [] = Some ct4 /\
  o_ret oi = Ok tt /\ o_sent oi = [m1; cbor (CBytes ct3)] /\ o_prk oi = Some prk /\ o_peer_c oi = Some (r_c_r r) /\
  o_eads oi = [[]; []] /\
  o_ret or = Ok tt /\ o_sent or = [x_m2 (cr_hmac cr) (cr_hash cr) x; cbor (CBytes ct4)] /\ o_prk or = Some prk /\
  o_peer_c or = Some (i_c_i i) /\ lenN prk = prk_len.
Proof.
  intros cr cf pf i r creds_i creds_r st si sr id_i id_r key_i key_r g_xy g_rx g_iy ei er prk_len pk_cap K A F M T Oi Or HP oi or Cn m1.
  assert (T4 : lenN (@nil N) + edhoc_mac_len_static_dh st <= EAD_SIZE cf + 8) by (change (lenN (@nil N)) with 0; lia).
  destruct (run4_both cr cf pf i r creds_i creds_r st si sr id_i id_r key_i key_r g_xy g_rx g_iy ei er prk_len (Some pk_cap) [] K A F M
    (Forall_nil _) T4 (N.le_0_l _) Oi Or HP Cn) as (s2 & s3 & ct3 & ct4 & C3 & C4 & EI & R1 & R2 & R3 & R4).
  exists s2, s3, ct3, ct4. cbv zeta. fold m1 in C3, C4, EI, R2, R3. split; [exact C3|]. split; [exact C4|].
  fold oi in EI. rewrite EI. change (ead4_get cf [] 0) with (Ok [] : res bytes). cbn [stop o_ret o_sent o_prk o_peer_c o_eads].
  do 5 (split; [reflexivity|]). do 4 (split; [assumption|]). apply kdf_len, (ok_hmac_len cr K).
Qed.
Print Assumptions C48_agreement_partial.

(** With a longer tag the responder writes behind its buffer whenever it accepts an
    honest message_3. *)
Theorem C48_overflow_refuted :
  forall (cr : crypto) (cf : cfg) (pf : platform) (i : initiator) (r : responder) (creds_i creds_r : list other_party_cred)
    (st : suite) (si sr : bool) (id_i id_r : cred_id) (key_i key_r g_xy g_rx g_iy ead_4 : bytes) (ei er : env)
    (prk_len : N) (pk_cap : option N),
  crypto_ok cr -> aead_total cr ->
  fit cr cf pf i r creds_i creds_r st si sr id_i id_r key_i key_r g_xy g_rx g_iy ->
  m3_fits_m2 r st si sr id_i id_r ->
  lenN ead_4 <= EAD_SIZE cf + 8 < lenN ead_4 + edhoc_mac_len_static_dh st ->
  obliging ei -> obliging er -> prk_len <= 8128 ->
  let oi := initiator_run4 cr cf pf i creds_r prk_len ei in
  let or := responder_run4_extended cr cf pf r ead_4 creds_i (C_I_SIZE cf) pk_cap prk_len er in
  connected4 ei er oi or -> o_ret or = UB OobWrite.
Proof.
  intros cr cf pf i r creds_i creds_r st si sr id_i id_r key_i key_r g_xy g_rx g_iy ead_4 ei er prk_len pk_cap K A F M [E4 T] Oi Or HP oi or Cn.
  destruct (sig2_exists cr cf pf K i r creds_i creds_r st si sr id_i id_r key_i key_r g_xy g_rx g_iy F) as (s2 & G2 & L2).
  destruct (sig3_exists cr cf pf K i r creds_i creds_r st si sr id_i id_r key_i key_r g_xy g_rx g_iy F s2) as (s3 & G3 & L3).
  pose proof (G2 s3) as G2'. edestruct (ct3_exists cr cf pf K A i r creds_i creds_r st si sr) as (ct3 & C3); [exact F|eassumption..|].
  exact (run4_overflow cr cf pf K i r creds_i creds_r st si sr id_i id_r key_i key_r g_xy g_rx g_iy F s2 s3 G2' L2 G3 L3
    ei er prk_len pk_cap ead_4 Oi Or HP Cn ct3 C3 M E4 T).
Qed.
Print Assumptions C48_overflow_refuted.

(** In particular with the default sizes, key identifiers and the suites 1 and 3 *)
Theorem C48_default_refuted :
  forall (cr : crypto) (pf : platform) (i : initiator) (r : responder) (creds_i creds_r : list other_party_cred)
    (st : suite) (si sr : bool) (kid_i kid_r : Z) (g_xy g_rx g_iy : bytes) (ei er : env),
  crypto_ok cr -> aead_total cr ->
  kid_parties cr i r creds_i creds_r st si sr kid_i kid_r g_xy g_rx g_iy -> ~ (si = false /\ sr = true) ->
  last (i_suites i) 0 = 1 \/ last (i_suites i) 0 = 3 ->
  obliging ei -> obliging er ->
  let oi := initiator_run4 cr default_cfg pf i creds_r 32 ei in
  let or := responder_run4 cr default_cfg pf r [] creds_i 32 er in
  connected4 ei er oi or -> o_ret or = UB OobWrite.
Proof.
  intros cr pf i r creds_i creds_r st si sr kid_i kid_r g_xy g_rx g_iy ei er K A P NM HL Oi Or oi or Cn.
  pose proof (kid_fit cr pf i r creds_i creds_r st si sr kid_i kid_r g_xy g_rx g_iy P) as F.
  apply (kid_m3 cr i r creds_i creds_r st si sr kid_i kid_r g_xy g_rx g_iy P) in NM.
  assert (H32 : 32 <= 8128) by (apply N.leb_le; reflexivity).
  pose proof (kp_suite _ _ _ _ _ _ _ _ _ _ _ _ _ P) as ES.
  assert (E16 : edhoc_mac_len_static_dh st = 16) by (destruct HL as [L|L]; rewrite L in ES; injection ES as <-; reflexivity).
  apply (C48_overflow_refuted cr default_cfg pf i r creds_i creds_r st si sr _ _ _ _ g_xy g_rx g_iy [] ei er 32 None K A F NM);
    try assumption.
  rewrite E16. change (lenN (@nil N)) with 0. change (EAD_SIZE default_cfg) with 0. lia.
Qed.
Print Assumptions C48_default_refuted.

(** A non-empty EAD_4, a CBOR byte string, makes the initiator of an honest session
    without EAD_2 fail after the responder has finished with ok. *)
Theorem C48_ead_4_refuted :
  forall (cr : crypto) (cf : cfg) (pf : platform) (i : initiator) (r : responder) (creds_i creds_r : list other_party_cred)
    (st : suite) (si sr : bool) (id_i id_r : cred_id) (key_i key_r g_xy g_rx g_iy b : bytes) (ei er : env)
    (prk_len : N) (pk_cap : option N),
  crypto_ok cr -> aead_total cr ->
  fit cr cf pf i r creds_i creds_r st si sr id_i id_r key_i key_r g_xy g_rx g_iy ->
  m3_fits_m2 r st si sr id_i id_r ->
  let ead_4 := cbor (CBytes b) in
  b <> [] -> is_bytes b -> lenN ead_4 + edhoc_mac_len_static_dh st <= EAD_SIZE cf + 8 ->
  lenN ead_4 <= pt3_size id_i (sig_len si (edhoc_mac_len_static_dh st)) ->
  obliging ei -> obliging er -> prk_len <= 8128 ->
  let oi := initiator_run4 cr cf pf i creds_r prk_len ei in
  let or := responder_run4_extended cr cf pf r ead_4 creds_i (C_I_SIZE cf) pk_cap prk_len er in
  connected4 ei er oi or ->
  o_ret or = Ok tt /\ o_eads oi = [[]] /\ exists e, o_ret oi = Err e.
Proof.
  intros cr cf pf i r creds_i creds_r st si sr id_i id_r key_i key_r g_xy g_rx g_iy b ei er prk_len pk_cap K A F M ead_4 BN BB T LP Oi Or HP oi or Cn.
  assert (B4 : is_bytes ead_4) by (unfold ead_4; rewrite cbor_bytes; now apply enc_bstr_bytes).
  destruct (run4_both cr cf pf i r creds_i creds_r st si sr id_i id_r key_i key_r g_xy g_rx g_iy ei er prk_len pk_cap ead_4 K A F M
    B4 T LP Oi Or HP Cn) as (s2 & s3 & ct3 & ct4 & C3 & C4 & EI & R1 & _).
  split; [exact R1|]. fold oi in EI. rewrite EI.
  assert (LB : lenN b <> 0) by (destruct b; [congruence|rewrite lenN_cons; lia]).
  pose proof (fit_pt3_size _ _ _ _ _ _ _ _ _ _ _ _ _ _ _ _ _ F) as Q3.
  assert (L4 : lenN b <= lenN ead_4) by (unfold ead_4; rewrite cbor_bytes, enc_bstr_len; lia).
  assert (EE : exists e, ead4_get cf ead_4 0 = Err e).
  { unfold ead4_get. destruct (N.eqb_spec (lenN ead_4) 0) as [Q|Q]; [lia|]. unfold ead_4. rewrite cbor_bytes.
    rewrite <- (app_nil_r (enc_bstr b)), dec_enc_bstr by lia. cbn [ext bind].
    destruct (N.eqb_spec (lenN b) 0) as [Q'|Q']; [lia|]. destruct (EAD_SIZE cf =? 0); [eexists; reflexivity|].
    unfold check_buffer_size. destruct (N.ltb_spec 0 (lenN b)) as [Q''|Q'']; [eexists; reflexivity|lia]. }
  destruct EE as (e & EE). rewrite EE. cbn [stop o_eads o_ret]. split; [reflexivity|]. now exists e.
Qed.
Print Assumptions C48_ead_4_refuted.

(** Two parties with the suite 2 agree, with the suite 3 the responder overflows. *)
Definition toy_env4 (a b c : res bytes) : env := {|
  e_tx := fun _ _ => Ok tt;
  e_rx := fun n _ => if n =? 4 then c else if n =? 3 then b else a;
  e_ead := fun _ _ => Ok tt |}.
Definition toy_or4 cf i r ead_4 : outcome :=
  responder_run4 toy_crypto cf toy_pf r ead_4 toy_creds_i 32 (toy_env4 (toy_m1 cf i) (toy_m3 cf i r) (Err not_implemented)).
Definition toy_m4 cf i r ead_4 : res bytes :=
  match o_sent (toy_or4 cf i r ead_4) with _ :: m4 :: _ => Ok m4 | _ => Err not_implemented end.
Definition toy_oi4 cf i r ead_4 : outcome :=
  initiator_run4 toy_crypto cf toy_pf i toy_creds_r 32 (toy_env4 (toy_m2 cf i r) (Err not_implemented) (toy_m4 cf i r ead_4)).
Definition toy_cf4 : cfg := {| EAD_SIZE := 6; C_I_SIZE := 10; C_R_SIZE := 10; ID_CRED_I_SIZE := 400; ID_CRED_R_SIZE := 400;
  CRED_I_SIZE := 400; CRED_R_SIZE := 400; SUITES_I_SIZE := 6 |}.
Example C48_example :
  let i s := toy_initiator 3 [s] [1; 2] [] in
  let r s := toy_responder [s] [7; 8] in
  let run cf s e := (o_ret (toy_oi4 cf (i s) (r s) e), o_ret (toy_or4 cf (i s) (r s) e)) in
  run default_cfg 2 [] = (Ok tt, Ok tt) /\ snd (run default_cfg 3 []) = UB OobWrite /\
  run toy_cf4 2 [] = (Ok tt, Ok tt) /\ run toy_cf4 2 [0x42; 1; 2] = (Err buffer_to_small, Ok tt).
Proof. vm_compute. auto. Qed.
(** the hypotheses are met *)
Lemma nth_rx (o : list bytes) (n : nat) (a : res bytes) :
  match nth_error o n with Some m => match a with Ok m' => beqb m m' | _ => false end | None => true end = true ->
  forall m, nth_error o n = Some m -> a = Ok m.
Proof. intros B m' E. rewrite E in B. destruct a as [m''|?|?]; try discriminate. apply beqb_eq in B. now subst. Qed.
Example C48_hypotheses :
  let i := toy_initiator 3 [2] [1; 2] [] in
  let r := toy_responder [2] [7; 8] in
  let ei := toy_env4 (toy_m2 default_cfg i r) (Err not_implemented) (toy_m4 default_cfg i r []) in
  let er := toy_env4 (toy_m1 default_cfg i) (toy_m3 default_cfg i r) (Err not_implemented) in
  obliging ei /\ obliging er /\
  connected4 ei er (initiator_run4 toy_crypto default_cfg toy_pf i toy_creds_r 32 ei)
    (responder_run4_extended toy_crypto default_cfg toy_pf r [] toy_creds_i 10 (Some 65) 32 er) /\
  exists st g_xy g_rx g_iy, kid_parties toy_crypto i r toy_creds_i toy_creds_r st true true 5 (-3) g_xy g_rx g_iy /\
    edhoc_mac_len_static_dh st <= EAD_SIZE default_cfg + 8.
Proof.
  intros i r ei er. split; [split; reflexivity|]. split; [split; reflexivity|]. split.
  - unfold connected4, connected. cbn [e_rx ei er toy_env4].
    split; [split; [|split]|]; intros x; intros; eapply nth_rx; try eassumption; vm_compute; reflexivity.
  - do 4 eexists. split; [exact (toy_parties true true)|]. apply N.leb_le. reflexivity.
Qed.
Example C48_default_hypotheses :
  let i := toy_initiator 3 [3] [1; 2] [] in
  let r := toy_responder [3] [7; 8] in
  let ei := toy_env4 (toy_m2 default_cfg i r) (Err not_implemented) (toy_m4 default_cfg i r []) in
  let er := toy_env4 (toy_m1 default_cfg i) (toy_m3 default_cfg i r) (Err not_implemented) in
  obliging ei /\ obliging er /\
  connected4 ei er (initiator_run4 toy_crypto default_cfg toy_pf i toy_creds_r 32 ei)
    (responder_run4 toy_crypto default_cfg toy_pf r [] toy_creds_i 32 er) /\
  exists st g_xy g_rx g_iy, kid_parties toy_crypto i r toy_creds_i toy_creds_r st true true 5 (-3) g_xy g_rx g_iy.
Proof.
  intros i r ei er. split; [split; reflexivity|]. split; [split; reflexivity|]. split.
  - unfold connected4, connected. cbn [e_rx ei er toy_env4].
    split; [split; [|split]|]; intros x; intros; eapply nth_rx; try eassumption; vm_compute; reflexivity.
  - exists {| suite_label := 3; edhoc_aead := AES_CCM_16_128_128; edhoc_mac_len_static_dh := 16;
       edhoc_ecdh := P256; edhoc_sign := ES256; app_aead := AES_CCM_16_64_128 |}.
    pose proof (toy_parties true true) as Q. destruct Q. do 3 eexists.
    constructor; try assumption; try eassumption; try reflexivity.
    + split; [|split; apply N.leb_le; reflexivity]. apply is_bytes_dec. reflexivity.
    + discriminate.
Qed.

(* ---------- C49 ---------- *)

(** If edhoc_initiator_run of the build with MESSAGE_4, or edhoc_initiator_run_extended
    with a c_r_bytes of any capacity, returns ok, it received a
    message_4 that decrypts under the keys of the session with the responder that
    message_2 authenticated. Missing: when the initiator could not make message_3
    (PRK_out is unwritten), TH_4 in those keys is not the transcript. *)
Theorem C49_initiator_ok_partial :
  forall (cr : crypto) (cf : cfg) (pf : platform) (i : initiator) (creds : list other_party_cred) (c_cap prk_len : N) (e : env),
  crypto_ok cr -> prk_len <= 8128 ->
  let o := initiator_run4_extended cr cf pf i creds c_cap prk_len e in
  o_ret o = Ok tt ->
  let m1 := rfc_message_1 (i_method i) (i_suites i) (i_g_x i) (i_c_i i) (i_ead_1 i) in
  exists st m2 m3 m4 si sr s f v th4 ct4 rest4 pt4 ead_4,
    get_suite (last (i_suites i) 0) = Ok st /\ (i_method i <= 3 -> method_static (i_method i) si sr) /\
    e_rx e 2 [m1] = Ok m2 /\ o_sent o = [m1; m3] /\ e_rx e 4 [m1; m3] = Ok m4 /\
    o_peer_c o = Some (sp_c_r s) /\ o_eads o = [sp_ead s; ead_4] /\
    verified_message_2_into c_cap cr cf pf i creds st si sr m2 s f v /\
    dec_bstr m4 = Some (ct4, rest4) /\
    cr_aead_dec cr (rfc_kdf (cr_hmac cr) (v_prk_4e3m v) L_K_4 th4 16) (rfc_kdf (cr_hmac cr) (v_prk_4e3m v) L_IV_4 th4 13)
      (rfc_aad th4) (edhoc_mac_len_static_dh st) ct4 = Some pt4 /\
    ((pt4 = [] /\ ead_4 = []) \/ exists rest', dec_bstr pt4 = Some (ead_4, rest')) /\
    (forall prk, o_prk o = Some prk ->
       sealed_message_3 cr i st m3 v /\ th4 = cr_hash cr (v_th4_input cr v) /\ prk = v_prk_out cr v prk_len).
Proof.
  intros cr cf pf i creds c_cap prk_len e K HP o HO m1. subst o. unfold initiator_run4_extended in *.
  destruct (msg1_gen cr cf i) as [[[m1' st] h1]|?|?] eqn:E1; try discriminate HO.
  apply msg1_gen_ok in E1 as (_ & -> & GS & -> & _). fold m1 in HO |- *.
  destruct (e_tx e 1 m1) as [u1|?|?]; try discriminate HO.
  destruct (receive cf e 2 [m1]) as [m2|?|?] eqn:ER; try discriminate HO.
  destruct (msg3_gen cr cf pf i st (cr_hash cr m1) m2 creds c_cap prk_len) as [[[a m3] prk]|?|?] eqn:E3; try discriminate HO.
  destruct (e_ead e 2 (a2_ead a)) as [u2|?|?]; try discriminate HO.
  destruct (e_tx e 3 m3) as [u3|?|?]; try discriminate HO.
  destruct (receive cf e 4 [m1; m3]) as [m4|?|?] eqn:ER4; try discriminate HO.
  destruct (msg4_process cr cf st (a2_ead a) (a2_prk_4e3m a) (rc_th4 cr cf i st a m2) m4) as [ead4|?|?] eqn:E4; try discriminate HO.
  unfold receive in ER, ER4. apply bind_ok in ER as (m & ER & EM). destruct (_ <? _) in EM; [discriminate|]. injection EM as ->.
  apply bind_ok in ER4 as (m & ER4 & EM). destruct (_ <? _) in EM; [discriminate|]. injection EM as ->.
  destruct (authentication_type_get (i_method i) (false, false)) as [si sr] eqn:EA.
  destruct (msg3_gen_sound cr cf pf K (last (i_suites i) 0) i st _ _ _ _ _ _ _ _ si sr GS EA HP E3) as [E2 QP].
  apply (msg2_sound_into cr cf pf K c_cap (last (i_suites i) 0)) in E2; [|exact GS].
  destruct E2 as (g_y & pt & s & f & EC & EE & ET & _ & _ & V).
  apply (msg4_sound cr cf K (last (i_suites i) 0)) in E4; [|exact GS].
  destruct E4 as (ct4 & rest4 & pt4 & D4 & A4 & P4).
  assert (MS : i_method i <= 3 -> method_static (i_method i) si sr).
  { intros HM. destruct (method_inv _ HM) as (si' & sr' & EA' & MS). rewrite EA in EA'. injection EA' as -> ->. exact MS. }
  cbn [stop o_sent o_peer_c o_prk o_eads]. rewrite EC, EE. destruct prk as [p|].
  - destruct (QP p eq_refl) as (pt3 & ct3 & Q1 & Q2 & _ & Q5 & Q3 & Q4).
    exists st, m2, m3, m4, si, sr, s, f. eexists. exists (rc_th4 cr cf i st a m2), ct4, rest4, pt4, ead4.
    do 7 (split; [first [assumption|reflexivity]|]). split; [apply (V pt3 (i_cred i))|]. do 3 (split; [assumption|]).
    intros p' Q. injection Q as <-. rewrite ET in Q1, Q3, Q5. split; [|split; [exact Q5|exact Q3]].
    split; [reflexivity|]. exists ct3. split; [exact Q1|exact Q2].
  - exists st, m2, m3, m4, si, sr, s, f. eexists. exists (rc_th4 cr cf i st a m2), ct4, rest4, pt4, ead4.
    do 7 (split; [first [assumption|reflexivity]|]). split; [apply (V [] [])|]. do 3 (split; [assumption|]).
    intros p' Q. discriminate Q.
Qed.
Print Assumptions C49_initiator_ok_partial.

(** If edhoc_responder_run of that build returns ok, message_3 was verified as in
    C38_responder_ok and the message_4 that was sent encrypts EAD_4 under the keys of
    the session. *)
Theorem C49_responder_ok :
  forall (cr : crypto) (cf : cfg) (pf : platform) (r : responder) (ead_4 : bytes) (creds : list other_party_cred) (ci_cap : N)
    (pk_cap : option N) (prk_len : N) (e : env),
  crypto_ok cr -> prk_len <= 8128 ->
  let o := responder_run4_extended cr cf pf r ead_4 creds ci_cap pk_cap prk_len e in
  o_ret o = Ok tt ->
  exists m1 m2 m3 m4 me su g_x c_i ead_1 si sr st s f v e1 ct4,
    e_rx e 1 [] = Ok m1 /\ e_rx e 3 [m2] = Ok m3 /\ o_sent o = [m2; m4] /\ o_peer_c o = Some c_i /\ o_eads o = [e1; sp_ead s] /\
    msg1_parse cf m1 ci_cap = Ok (me, su, g_x, c_i, ead_1) /\ method_static me si sr /\ get_suite (last su 0) = Ok st /\
    made_message_2 cr r st sr g_x m1 m2 v /\ verified_message_3 cr cf pf r creds st si m3 s f v /\
    o_prk o = Some (v_prk_out cr v prk_len) /\ (forall k, o_peer_pk o = Some k -> k = f_pk f) /\
    let th4 := cr_hash cr (v_th4_input cr v) in
    cr_aead_enc cr (rfc_kdf (cr_hmac cr) (v_prk_4e3m v) L_K_4 th4 16) (rfc_kdf (cr_hmac cr) (v_prk_4e3m v) L_IV_4 th4 13)
      (rfc_aad th4) (edhoc_mac_len_static_dh st) ead_4 = Some ct4 /\
    m4 = cbor (CBytes ct4).
Proof.
  intros cr cf pf r ead_4 creds ci_cap pk_cap prk_len e K HP o HO. subst o. unfold responder_run4_extended in *.
  destruct (receive cf e 1 []) as [m1|?|?] eqn:ER1; try discriminate HO.
  destruct (msg2_gen cr cf r m1 ci_cap) as [[c_i rc]|?|?] eqn:E2; try discriminate HO.
  destruct (e_ead e 1 (rr_ead rc)) as [?|?|?]; try discriminate HO.
  destruct (e_tx e 2 (rr_msg rc)) as [?|?|?]; try discriminate HO.
  destruct (receive cf e 3 [rr_msg rc]) as [m3|?|?] eqn:ER3; try discriminate HO.
  destruct (msg3_process_full cr cf pf r rc m3 creds prk_len) as [[[[ead3 pk] prk] [p4 t4]]|?|?] eqn:E3; try discriminate HO.
  destruct (e_ead e 3 ead3) as [?|?|?]; try discriminate HO.
  destruct (msg4_gen cr cf (rr_suite rc) ead_4 p4 t4 (lenN m3)) as [m4|?|?] eqn:E4; try discriminate HO.
  unfold receive in ER1, ER3. apply bind_ok in ER1 as (m & ER1 & EM). destruct (_ <? _) in EM; [discriminate|]. injection EM as ->.
  apply bind_ok in ER3 as (m & ER3 & EM). destruct (_ <? _) in EM; [discriminate|]. injection EM as ->.
  apply (msg2_gen_sound cr cf K) in E2.
  destruct E2 as (me & su & g_x & ead & sr & pt2 & P1 & MS & GS & _ & _ & ET3 & V).
  eapply (msg3_full_sound cr cf pf K (last su 0)) in E3; [|exact GS|exact HP| |].
  2:{ exact (eq_refl (v_prk_3e2m {| v_m1 := m1; v_g_y := r_g_y r; v_pt2 := pt2; v_cred_r := r_cred r;
         v_prk_3e2m := rr_prk_3e2m rc; v_pt3 := []; v_cred_i := []; v_prk_4e3m := [] |})). }
  2:{ symmetry. exact ET3. }
  destruct E3 as (pt & s & f & -> & -> & W & -> & -> & _).
  apply (msg4_gen_sound cr cf K (last su 0)) in E4; [|exact GS]. destruct E4 as (ct4 & E4 & EM4).
  cbn [v_m1 v_g_y v_pt2 v_cred_r v_prk_3e2m] in W, E4 |- *.
  exists m1, (rr_msg rc), m3, m4, me, su, g_x, c_i, ead, (rr_static_i rc), sr, (rr_suite rc), s, f.
  match type of W with verified_message_3 _ _ _ _ _ _ _ _ _ _ ?w => exists w, (rr_ead rc), ct4 end.
  cbn [stop o_sent o_peer_c o_prk o_eads o_peer_pk]. do 8 (split; [first [assumption|reflexivity]|]).
  split; [apply V|]. split; [exact W|]. split; [reflexivity|]. split; [|split; [exact E4|exact EM4]].
  intros k. destruct pk_cap as [n|]; [|discriminate]. destruct (_ <? _); [discriminate|]. congruence.
Qed.
Print Assumptions C49_responder_ok.

(** Parties with key identifiers and method 1: message_3 cannot be made. A peer that
    knows PRK_4e3m of the session makes the initiator return ok with a message_4
    under 32 zero bytes in place of TH_4, although there is no PRK_out. *)
Theorem C49_no_key_refuted :
  forall (cr : crypto) (pf : platform) (i : initiator) (r : responder) (creds_i creds_r : list other_party_cred)
    (st : suite) (kid_i kid_r : Z) (g_xy g_rx g_iy : bytes) (ei er : env),
  crypto_ok cr -> aead_total cr ->
  kid_parties cr i r creds_i creds_r st false true kid_i kid_r g_xy g_rx g_iy ->
  edhoc_mac_len_static_dh st = 8 -> obliging ei -> obliging er ->
  let oi := initiator_run4 cr default_cfg pf i creds_r 32 ei in
  let or := responder_run4 cr default_cfg pf r [] creds_i 32 er in
  connected ei er oi or ->
  exists prk_4 ct4, let z := repeat 0 32 in
    cr_aead_enc cr (rfc_kdf (cr_hmac cr) prk_4 L_K_4 z 16) (rfc_kdf (cr_hmac cr) prk_4 L_IV_4 z 13) (rfc_aad z) 8 [] = Some ct4 /\
    ((forall s, e_rx ei 4 s = Ok (cbor (CBytes ct4))) -> o_ret oi = Ok tt /\ o_prk oi = None).
Proof.
  intros cr pf i r creds_i creds_r st kid_i kid_r g_xy g_rx g_iy ei er K A P E8 Oi Or oi or Cn.
  pose proof (kid_fit cr pf i r creds_i creds_r st false true kid_i kid_r g_xy g_rx g_iy P) as F.
  assert (NM : ~ m3_fits_m2 r st false true (KidInt kid_i) (KidInt kid_r)).
  { intros Q. apply (kid_m3 cr i r creds_i creds_r st false true kid_i kid_r g_xy g_rx g_iy P) in Q. tauto. }
  destruct (sig2_exists cr default_cfg pf K i r creds_i creds_r st false true _ _ _ _ g_xy g_rx g_iy F) as (s2 & G2 & L2).
  destruct (sig3_exists cr default_cfg pf K i r creds_i creds_r st false true _ _ _ _ g_xy g_rx g_iy F s2) as (s3 & G3 & L3).
  pose proof (G2 s3) as G2'. edestruct (ct3_exists cr default_cfg pf K A i r creds_i creds_r st false true) as (ct3 & C3); [exact F|eassumption..|].
  assert (H32 : 32 <= 8128) by (apply N.leb_le; reflexivity).
  set (x := session i r st false true (rfc_message_1 (i_method i) (i_suites i) (i_g_x i) (i_c_i i) (i_ead_1 i))
    (KidInt kid_i) (KidInt kid_r) g_xy g_rx g_iy s2 s3) in *.
  set (p4 := x_prk_4e3m (cr_hmac cr) (cr_hash cr) x).
  destruct (cr_aead_enc cr (k4 cr p4 (repeat 0 32)) (iv4 cr p4 (repeat 0 32)) (rfc_aad (repeat 0 32)) (edhoc_mac_len_static_dh st) [])
    as [ct4|] eqn:C4.
  2:{ exfalso. revert C4. apply A.
      - apply kdf_len, (ok_hmac_len cr K).
      - apply kdf_len, (ok_hmac_len cr K).
      - lia.
      - apply N.ltb_lt. reflexivity.
      - constructor. }
  exists p4, ct4. cbv zeta. rewrite E8 in C4. split; [exact C4|]. rewrite <- E8 in C4. intros R4.
  assert (LC : lenN ct4 = 8).
  { rewrite (ok_aead_enc_len cr K _ _ _ _ _ _ C4), E8. reflexivity. }
  unfold oi. rewrite (run4_no_key cr default_cfg pf K i r creds_i creds_r st false true _ _ _ _ g_xy g_rx g_iy F s2 s3 G2' L2 G3 L3
    ei er 32 None [] ct3 ct4 Oi Or H32 Cn C3 NM C4).
  - split; reflexivity.
  - rewrite E8. apply N.leb_le. reflexivity.
  - rewrite bstr_len_enc; rewrite LC; [apply N.leb_le; reflexivity|apply N.ltb_lt; reflexivity].
  - apply R4.
Qed.
Print Assumptions C49_no_key_refuted.

(** C49_initiator_ok_partial and C49_responder_ok: the runs of C48_example. For
    C49_no_key_refuted, a run of method 1 with such a message_4: *)
Example C49_example :
  let i := toy_initiator 1 [2] [1; 2] [] in
  let r := toy_responder [2] [7; 8] in
  let prk_4 := match toy_m1 default_cfg i, toy_m2 default_cfg i r, get_suite 2 with
    | Ok m1, Ok m2, Ok st =>
        match msg3_gen toy_crypto default_cfg toy_pf i st (cr_hash toy_crypto m1) m2 toy_creds_r 10 32 with
        | Ok (a, _, _) => a2_prk_4e3m a | _ => [] end
    | _, _, _ => [] end in
  let m4 th := match cr_aead_enc toy_crypto (rfc_kdf (cr_hmac toy_crypto) prk_4 L_K_4 th 16)
      (rfc_kdf (cr_hmac toy_crypto) prk_4 L_IV_4 th 13) (rfc_aad th) 8 [] with
    | Some c => Ok (cbor (CBytes c)) | None => Err not_implemented end in
  let o th := initiator_run4 toy_crypto default_cfg toy_pf i toy_creds_r 32
    (toy_env4 (toy_m2 default_cfg i r) (Err not_implemented) (m4 th)) in
  lenN prk_4 = 32 /\ o_ret (o (repeat 0 32)) = Ok tt /\ o_prk (o (repeat 0 32)) = None /\
  o_ret (o (repeat 1 32)) <> Ok tt.
Proof. vm_compute. repeat split; try reflexivity. discriminate. Qed.
