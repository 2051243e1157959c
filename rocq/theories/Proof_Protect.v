(** coap2oscore succeeds on supported messages. *)
From Coq Require Import Permutation.
From Verif Require Import Base Proof_Base Model_Common Model_Crypto Model_Cbor Proof_Cbor Model_OscorePrims Spec_OscorePrims Proof_OscorePrims
  Model_Coap Spec_Coap Proof_Coap Model_Interactions Model_Context Spec_Options Proof_Options
  Spec_OscoreOption Proof_OscoreOption Prop_Interactions Spec_UriPath Proof_UriPath
  Model_Send Model_Recv Model_Run Spec_Interactions Proof_Interactions Proof_Send
  Proof_Run Proof_Session Proof_Wire Spec_RoundTrip Proof_RoundTrip Spec_Protect Spec_EdhocRun.

Lemma ext_is_extra x : opt_extra_bytes x = ext_bytes x.
Proof. reflexivity. Qed.
Lemma ext_mono a b : a <= b -> ext_bytes a <= ext_bytes b.
Proof. unfold ext_bytes. intros H. destruct (N.ltb_spec a 13), (N.ltb_spec b 13), (N.ltb_spec a 269), (N.ltb_spec b 269); lia. Qed.

(** Length of the encoded inner options, and the length the code computes. *)
Lemma split_exact req opts : forall nr esum usum elen E U l,
  delta_consistent nr opts -> Forall (fun o => o_num o < 2 ^ 16) opts -> nr < 2 ^ 16 -> esum <= nr -> usum <= nr ->
  elen + opt_sum opts < 2 ^ 16 ->
  split_loop req opts nr esum usum elen = (E, U, l) ->
  lenN (ser_opts E) + elen = l + grows nr esum (map nv opts) /\ l <= elen + opt_sum opts.
Proof.
  induction opts as [|o opts IH]; intros nr esum usum elen E U l HD HF Hn He Hu Hs H.
  - cbn in H. injection H as <- <- <-. change (ser_opts []) with (@nil N). cbn [map grows opt_sum]. rewrite lenN_nil. lia.
  - inversion HD as [|? ? ? Hle Hd HD']; subst. inversion HF as [|? ? Ho HF']; subst.
    cbn [split_loop] in H. cbn [opt_sum] in *. cbn [map].
    assert (HN : u16 (nr + o_delta o) = o_num o).
    { rewrite Hd. replace (nr + (o_num o - nr)) with (o_num o) by lia. apply u16_small. exact Ho. }
    rewrite HN in H.
    assert (W : forall s, s <= nr -> u16 (o_num o + 2 ^ 16 - s) = o_num o - s).
    { intros s Hs'. unfold u16. change (2 ^ 16) with 65536 in *. replace (o_num o + 65536 - s) with (o_num o - s + 1 * 65536) by lia.
      rewrite N.mod_add by lia. apply N.mod_small. lia. }
    rewrite !W in H by assumption.
    assert (W' : forall s, s <= nr -> u16 (s + (o_num o - s)) = o_num o).
    { intros s Hs'. replace (s + (o_num o - s)) with (o_num o) by lia. apply u16_small. exact Ho. }
    rewrite !W' in H by assumption.
    pose proof (opt_extra_le (o_delta o)) as X1. pose proof (opt_extra_le (lenN (o_val o))) as X2.
    assert (FULL : u16 (elen + 1 + (opt_extra_bytes (o_delta o) + opt_extra_bytes (lenN (o_val o))) + lenN (o_val o)) =
       elen + 1 + (opt_extra_bytes (o_delta o) + opt_extra_bytes (lenN (o_val o))) + lenN (o_val o)).
    { apply u16_small. lia. }
    rewrite FULL in H.
    assert (MONO : ext_bytes (o_num o - nr) <= ext_bytes (o_num o - esum)) by (apply ext_mono; lia).
    change opt_extra_bytes with ext_bytes in *. rewrite Hd in *.
    unfold nv at 1. cbn [grows].
    destruct (N.eqb_spec (o_num o) OPT_OBSERVE) as [E6|E6].
    + assert (UC : is_class_u (o_num o) = false) by (rewrite E6; reflexivity). rewrite UC.
      destruct (split_loop req opts (o_num o) (o_num o) (o_num o) _) as [[e u] l'] eqn:R in H.
      injection H as <- <- <-. unfold ser_opts. cbn [flat_map]. fold (ser_opts e). rewrite lenN_app, ser_opt_len. cbn [o_delta o_val].
      change OPT_OBSERVE with 6 in E6. change opt_extra_bytes with ext_bytes in *.
      assert (Z : ext_bytes (o_num o - esum) = 0) by (unfold ext_bytes; destruct (N.ltb_spec (o_num o - esum) 13); [reflexivity|lia]).
      destruct req.
      * apply IH in R as [R1 R2]; try assumption; try lia.
      * rewrite (u16_small (elen + 1)) in R by lia. apply IH in R as [R1 R2]; try assumption; try lia.
        change (ext_bytes (lenN (@nil N))) with 0. change (lenN (@nil N)) with 0. split; lia.
    + destruct (is_class_e (o_num o)) eqn:EC.
      * assert (UC : is_class_u (o_num o) = false) by (rewrite class_u_spec, EC; reflexivity). rewrite UC.
        destruct (split_loop req opts (o_num o) (o_num o) usum _) as [[e u] l'] eqn:R in H.
        injection H as <- <- <-. unfold ser_opts. cbn [flat_map]. fold (ser_opts e). rewrite lenN_app, ser_opt_len. cbn [o_delta o_val].
        change opt_extra_bytes with ext_bytes in *.
        apply IH in R as [R1 R2]; try assumption; try lia.
      * assert (UC : is_class_u (o_num o) = true) by (rewrite class_u_spec, EC; reflexivity). rewrite UC.
        destruct (split_loop req opts (o_num o) esum (o_num o) _) as [[e u] l'] eqn:R in H.
        injection H as <- <- <-.
        apply IH in R as [R1 R2]; try assumption; try lia.
Qed.

(** The growth is at most the number of class-U options. *)
Lemma grows_le l : forall p q, asc p l -> q <= p -> (q = p \/ p < 256) ->
  grows p q l <= lenN (filter (fun x => is_class_u (fst x)) l) + (if q =? p then 0 else 1).
Proof.
  induction l as [|[n v] l IH]; intros p q A Q H; [destruct (q =? p); cbn; lia|].
  inversion A as [|? ? ? ? L A']; subst. cbn [grows filter fst]. destruct (is_class_u n) eqn:E.
  - assert (n < 256).
    { apply outside_small. right. unfold is_class_u in E. apply existsb_exists in E as (x & I & E). apply N.eqb_eq in E. congruence. }
    specialize (IH n q A' ltac:(lia) ltac:(lia)). rewrite lenN_cons. destruct (q =? n), (q =? p); lia.
  - specialize (IH n n A' ltac:(lia) ltac:(lia)). rewrite N.eqb_refl in IH.
    destruct (N.eqb_spec q p) as [->|D]; [lia|].
    assert (X : ext_bytes (n - q) <= ext_bytes (n - p) + 1); [|lia].
    replace (n - q) with (n - p + (p - q)) by lia. rewrite <- !ext_is_extra. apply extra_plus. lia.
Qed.

(** ** The plaintext *)
Lemma nibble_byte x : opt_nibble x < 16.
Proof. unfold opt_nibble. destruct (N.ltb_spec x 13); [lia|]. destruct (x <? 269); lia. Qed.
Lemma ext_is_bytes x : is_bytes (opt_ext x).
Proof.
  unfold opt_ext. destruct (x <? 13); [constructor|]. destruct (x <? 269).
  - constructor; [apply N.mod_lt; discriminate|constructor].
  - constructor; [apply N.div_lt_upper_bound; [discriminate|apply u16_lt]|].
    constructor; [apply N.mod_lt; discriminate|constructor].
Qed.
Lemma ser_opts_bytes l : Forall (fun o => is_bytes (o_val o)) l -> is_bytes (ser_opts l).
Proof.
  induction 1 as [|o l H F IH]; [constructor|]. unfold ser_opts. cbn [flat_map]. apply Forall_app. split; [|exact IH].
  unfold ser_opt, opt_header. apply Forall_app. split; [|exact H]. constructor.
  - pose proof (nibble_byte (o_delta o)). pose proof (nibble_byte (lenN (o_val o))). unfold is_byte. change (2 ^ 8) with 256. lia.
  - apply Forall_app. split; apply ext_is_bytes.
Qed.

Lemma plaintext_total code e payload elen g :
  opt_sum e <= 100 -> lenN (ser_opts e) = elen + g -> lenN payload <= 922 ->
  plaintext_setup code e payload (if lenN payload =? 0 then 1 + elen else u32 (1 + elen + 1 + lenN payload)) =
    if g =? 0 then Ok (code :: ser_opts e ++ marked payload)
    else if negb (lenN payload =? 0) && (g =? lenN payload + 1) then Ok (code :: ser_opts e) else Err buffer_to_small.
Proof.
  intros HO HS HP. pose proof (ser_opts_le e) as LE. unfold plaintext_setup, options_serialize.
  rewrite (serialize_fits E_OPTIONS_BUFF_MAX_LEN E_OPTIONS_BUFF_MAX_LEN e []) by
    (unfold E_OPTIONS_BUFF_MAX_LEN; change (2 ^ 32) with 4294967296; rewrite ?lenN_nil; lia).
  cbn [bind app].
  assert (U : u32 (1 + elen + 1 + lenN payload) = 2 + elen + lenN payload) by (unfold u32; change (2 ^ 32) with 4294967296; rewrite N.mod_small; lia).
  rewrite U. destruct (N.eqb_spec (lenN payload) 0) as [Z|Z].
  - apply lenN_0 in Z. subst payload. cbn [marked]. rewrite app_nil_r. change (lenN (@nil N)) with 0 in *.
    rewrite sub32_small by lia. replace (1 + elen - 1) with elen by lia.
    destruct (N.eqb_spec g 0) as [G|G].
    + assert (C : (if lenN (ser_opts e) =? 0 then Ok tt else check_buffer_size elen (lenN (ser_opts e))) = Ok tt).
      { destruct (_ =? 0); [reflexivity|]. apply check_ok. lia. }
      rewrite C. cbn [bind]. destruct (N.ltb_spec (lenN (code :: ser_opts e)) (1 + elen)) as [X|X]; [rewrite lenN_cons in X; lia|].
      f_equal. apply takeN_all. rewrite lenN_cons. lia.
    + destruct (N.eqb_spec (lenN (ser_opts e)) 0); [lia|]. rewrite check_err by lia. cbn [negb andb]. reflexivity.
  - assert (M : marked payload = 255 :: payload) by (destruct payload; [destruct Z; reflexivity|reflexivity]). rewrite M.
    cbn [negb andb]. rewrite sub32_small by lia.
    destruct (N.le_gt_cases g (lenN payload + 1)) as [GP|GP].
    2:{ destruct (N.eqb_spec g 0); [lia|]. destruct (N.eqb_spec g (lenN payload + 1)); [lia|].
        destruct (N.eqb_spec (lenN (ser_opts e)) 0); [lia|]. rewrite check_err by lia. reflexivity. }
    assert (C : (if lenN (ser_opts e) =? 0 then Ok tt else check_buffer_size (2 + elen + lenN payload - 1) (lenN (ser_opts e))) = Ok tt).
    { destruct (_ =? 0); [reflexivity|]. apply check_ok. lia. }
    rewrite C. cbn [bind]. unfold MAX_PLAINTEXT_LEN. rewrite lenN_cons.
    destruct (N.leb_spec 1024 (1 + lenN (ser_opts e))); [lia|].
    destruct (N.eqb_spec g (lenN payload + 1)) as [GX|GX].
    + destruct (N.eqb_spec g 0) as [G|G]; [lia|].
      assert (S : sub32 (2 + elen + lenN payload) (1 + lenN (ser_opts e) + 1) = 4294967295).
      { unfold sub32, u32. change (2 ^ 32) with 4294967296. rewrite HS, GX.
        replace (2 + elen + lenN payload + 4294967296 - (1 + (elen + (lenN payload + 1)) + 1)) with 4294967295 by lia. reflexivity. }
      rewrite S, check_ok by lia. cbn [bind]. destruct (N.ltb_spec 1024 (1 + lenN (ser_opts e) + 1 + lenN payload)); [lia|]. cbn [bind].
      change ((code :: ser_opts e) ++ [255] ++ payload) with ((code :: ser_opts e) ++ 255 :: payload).
      rewrite lenN_cons, lenN_app, lenN_cons.
      destruct (N.ltb_spec (1 + (lenN (ser_opts e) + (1 + lenN payload))) (2 + elen + lenN payload)); [lia|].
      f_equal. replace (2 + elen + lenN payload) with (lenN (code :: ser_opts e)) by (rewrite lenN_cons; lia).
      change (code :: ser_opts e ++ 255 :: payload) with ((code :: ser_opts e) ++ 255 :: payload). apply takeN_app.
    + rewrite sub32_small by lia. destruct (N.eqb_spec g 0) as [G|G].
      * rewrite check_ok by lia. cbn [bind]. destruct (N.ltb_spec 1024 (1 + lenN (ser_opts e) + 1 + lenN payload)); [lia|]. cbn [bind].
        change ((code :: ser_opts e) ++ [255] ++ payload) with (code :: ser_opts e ++ 255 :: payload).
        rewrite lenN_cons, lenN_app, lenN_cons.
        destruct (N.ltb_spec (1 + (lenN (ser_opts e) + (1 + lenN payload))) (2 + elen + lenN payload)); [lia|].
        f_equal. apply takeN_all. rewrite lenN_cons, lenN_app, lenN_cons. lia.
      * rewrite check_err by lia. reflexivity.
Qed.

(** ** Keys of a context *)
Definition keyed (c : ctx) : Prop := c_alg c = 10%Z /\ lenN (c_skey c) = 16 /\ lenN (c_iv c) = 13.
Lemma reachable_keyed cr c : (forall k m, lenN (cr_hmac cr k m) = 32) -> reachable cr c -> keyed c.
Proof.
  intros HL. apply (reachable_inv cr keyed).
  - intros p nvm gn ge gf c0 H. unfold oscore_context_init in H.
    destruct (negb (ip_aead p =? OSCORE_AES_CCM_16_64_128)%Z) eqn:E1 in H; [discriminate|]. destruct (negb _) in H; [discriminate|].
    apply negb_false_iff, Z.eqb_eq in E1.
    apply bind_ok in H as (iv & EI & H). apply derive_len in EI; [|exact HL|reflexivity].
    destruct (_ <? _) in H; [discriminate|].
    apply bind_ok in H as (rk & _ & H). apply bind_ok in H as (ssn & _ & H). apply bind_ok in H as (sk & ES & H).
    apply derive_len in ES; [|exact HL|reflexivity]. injection H as <-. split; [exact E1|split; [exact ES|exact EI]].
  - intros c0 a c' o (A & B & C) H. apply exec_keys in H as ((K1 & _ & K3 & _ & _ & K6 & _) & _). unfold keyed. rewrite K1, K3, K6. auto.
Qed.

(** ** Additional authenticated data *)
Lemma aad_total kid piv : lenN kid + lenN piv <= 7 -> exists aad, create_aad 10 kid piv MAX_AAD_LEN = Ok aad /\ lenN aad <= 14.
Proof.
  intros H. unfold create_aad, cbor_put. set (b := enc_list 5 ++ _).
  assert (L : lenN b = 7 + lenN kid + lenN piv).
  { unfold b. rewrite !lenN_app, !enc_bstr_len.
    change (lenN (enc_list 5)) with 1. change (lenN (enc_uint 1)) with 1. change (lenN (enc_list 1)) with 1. change (lenN (enc_int 10)) with 1.
    assert (Q : forall n, n < 24 -> head_len n = 1) by (intros n X; unfold head_len; destruct (N.ltb_spec n 24); [reflexivity|lia]).
    rewrite !Q by (rewrite ?lenN_nil; lia). rewrite lenN_nil. lia. }
  unfold MAX_AAD_LEN. destruct (N.leb_spec (lenN b) 30); [|lia]. exists b. split; [reflexivity|lia].
Qed.

Lemma cose_total cr pt nonce aad key : aead_total cr -> lenN key = 16 -> lenN nonce = 13 -> lenN aad <= 14 ->
  lenN pt < 65536 -> is_bytes pt -> exists ct, oscore_cose_encrypt cr pt nonce aad key = Ok ct.
Proof.
  intros AT K Nn A P B. unfold oscore_cose_encrypt.
  assert (U : u32 (lenN aad + ENCRYPT0_ENCODING_OVERHEAD) = lenN aad + 16).
  { unfold u32, ENCRYPT0_ENCODING_OVERHEAD. change (2 ^ 32) with 4294967296. rewrite N.mod_small; lia. }
  rewrite U. unfold byte_array_new. rewrite check_ok by (unfold MAX_AAD_LEN; lia). cbn [bind].
  unfold oscore_enc_structure, cbor_put. set (b := enc_list 3 ++ _).
  assert (L : lenN b <= lenN aad + 16).
  { unfold b. rewrite !lenN_app, !enc_bstr_len.
    change (lenN (enc_list 3)) with 1. change (lenN (enc_tstr str_Encrypt0)) with 9.
    assert (Q : forall n, n < 24 -> head_len n = 1) by (intros n X; unfold head_len; destruct (N.ltb_spec n 24); [reflexivity|lia]).
    rewrite !Q by (rewrite ?lenN_nil; lia). rewrite lenN_nil. lia. }
  destruct (N.leb_spec (lenN b) (lenN aad + 16)); [|lia]. cbn [bind].
  pose proof (AT key nonce b AUTH_TAG_LEN pt K Nn (or_introl eq_refl) P B) as X.
  destruct (cr_aead_enc cr key nonce b AUTH_TAG_LEN pt); [cbn [ext]; eauto|congruence].
Qed.

Lemma piv_len_spec n p : n < OSCORE_SSN_OVERFLOW_VALUE -> ssn2piv n = Ok p -> lenN p = piv_len n /\ lenN p <= 5.
Proof.
  intros L H. apply ssn2piv_ok in H as (_ & (HB & HV & H1 & HM) & L5). split; [|exact L5].
  unfold OSCORE_SSN_OVERFLOW_VALUE in L. pose proof (be_val_bound p HB) as UB. rewrite HV in UB.
  assert (LOW : n = 0 /\ lenN p = 1 \/ 256 ^ (lenN p - 1) <= n).
  { destruct p as [|x p]; [rewrite lenN_nil in H1; lia|]. destruct (N.eq_dec x 0) as [->|D].
    - left. specialize (HM eq_refl). injection HM as ->. split; [rewrite <- HV; reflexivity|reflexivity].
    - right. rewrite lenN_cons. replace (1 + lenN p - 1) with (lenN p) by lia. rewrite <- HV, be_val_cons. nia. }
  unfold piv_len. destruct LOW as [[-> E]|LOW]; [rewrite E; reflexivity|].
  assert (C : lenN p = 1 \/ lenN p = 2 \/ lenN p = 3 \/ lenN p = 4 \/ lenN p = 5) by lia.
  destruct C as [C|[C|[C|[C|C]]]]; rewrite C in *.
  - change (256 ^ 1) with 256 in UB. destruct (N.ltb_spec n 256); lia.
  - change (256 ^ 2) with 65536 in UB. change (256 ^ (2 - 1)) with 256 in LOW. destruct (N.ltb_spec n 256); [lia|]. destruct (N.ltb_spec n 65536); lia.
  - change (256 ^ (3 - 1)) with 65536 in LOW. destruct (N.ltb_spec n 256); [lia|]. destruct (N.ltb_spec n 65536); lia.
  - change (256 ^ (4 - 1)) with 16777216 in LOW. lia.
  - change (256 ^ (5 - 1)) with 4294967296 in LOW. lia.
Qed.

Lemma value_len piv kid kctx : 1 <= lenN piv -> gen_len piv kid kctx = oscore_value_len (lenN piv) (lenN kid) (lenN kctx).
Proof.
  intros H. rewrite gen_len_pos by (intros (-> & _); rewrite lenN_nil in H; lia). unfold oscore_value_len. destruct kctx as [|x kctx]; [reflexivity|].
  destruct (N.eqb_spec (lenN (x :: kctx)) 0) as [E|E]; [rewrite lenN_cons in E; lia|]. reflexivity.
Qed.

(** ** encrypt_wrapper *)
Section WithCrypto.
Variable cr : crypto.
Hypothesis OK : crypto_ok cr.
Hypothesis AT : aead_total cr.

Lemma new_ssn_total nw s : c_fresh (s_ctx s) = true \/ (forall v, nw v = Ok tt) ->
  exists s1, generate_new_ssn nw s = (s1, Ok tt).
Proof.
  intros H. unfold generate_new_ssn. destruct (c_fresh (s_ctx s)); [eauto|]. destruct H as [|H]; [discriminate|].
  destruct (ssn_store_in_nvm _ _); [rewrite H|]; eauto.
Qed.

Lemma encrypt_total nw s pt k : let c := s_ctx s in
  keyed c -> c_ssn c < OSCORE_SSN_OVERFLOW_VALUE -> lenN pt < 65536 -> is_bytes pt ->
  segs_size (path_segments (k_opts k)) < 30 ->
  (uses_new_piv c k = true -> may_number nw c /\ lenN (c_sid c) <= 7) ->
  (uses_new_piv c k = false -> lenN (c_nonce c) = 13) ->
  (forall piv kid kctx, wire_ids (uses_new_piv c k) c piv kid kctx ->
     exists rpiv rkid t, read_wrapper (coap_get_message_type k) (k_token k) (c_inter c) (Some (piv, kid)) = Ok (rpiv, rkid) /\
       lenN rkid + lenN rpiv <= 7 /\
       update_wrapper (coap_get_message_type k) (k_token k) (path_string (path_segments (k_opts k))) (c_inter c) rpiv rkid = Ok t) ->
  exists s' ct opt, encrypt_wrapper cr nw s pt k = (s', Ok (ct, opt)) /\ lenN ct = lenN pt + 8 /\
    lenN opt = (if uses_new_piv c k then oscore_value_len (piv_len (c_ssn c)) (lenN (c_sid c)) (lenN (c_id_context c)) else 0) /\ lenN opt <= 23.
Proof.
  intros c (K1 & K2 & K3) SSN LP BP LS NW ON RU. unfold encrypt_wrapper. fold c.
  unfold uses_new_piv in *. set (new := needs_new_piv (coap_get_message_type k) (c_echo c)) in *.
  assert (X : exists s1 nonce piv kid kctx opt,
    (if new then
       try s let piv := ssn2piv (c_ssn c) in
       call s1, _ := generate_new_ssn nw s in
       try s1 let nonce := create_nonce (c_sid (s_ctx s1)) piv (c_iv (s_ctx s1)) in
       (s1, Ok (nonce, piv, c_sid (s_ctx s1), c_id_context (s_ctx s1)))
     else (s, Ok (c_nonce c, [], [], []))) = (s1, Ok (nonce, piv, kid, kctx)) /\
    wire_ids new c piv kid kctx /\ lenN nonce = 13 /\ oscore_option_generate piv kid kctx = Ok opt /\
    lenN opt = (if new then oscore_value_len (piv_len (c_ssn c)) (lenN (c_sid c)) (lenN (c_id_context c)) else 0) /\ lenN opt <= 23 /\
    c_inter (s_ctx s1) = c_inter c /\ c_alg (s_ctx s1) = c_alg c /\ c_skey (s_ctx s1) = c_skey c).
  { destruct new.
    - destruct (NW eq_refl) as ((_ & FR & VL) & SID).
      destruct (ssn2piv_spec (c_ssn c)) as (piv & EP & _).
      { unfold OSCORE_SSN_OVERFLOW_VALUE in SSN. change (2 ^ 40) with 1099511627776. lia. }
      destruct (piv_len_spec _ _ SSN EP) as [PL P5]. destruct (new_ssn_total nw s FR) as (s1 & EG).
      pose proof (generate_new_ssn_spec nw s s1 _ EG) as [G1 _]. fold c in G1.
      pose proof (create_nonce_spec (c_sid c) piv (c_iv c) SID P5 K3) as EN.
      assert (P1 : 1 <= lenN piv). { rewrite PL. unfold piv_len. destruct (c_ssn c <? 256); [lia|]. destruct (c_ssn c <? 65536); lia. }
      pose proof (value_len piv (c_sid c) (c_id_context c) P1) as GL.
      assert (GL' : gen_len piv (c_sid c) (c_id_context c) <= 23) by (rewrite GL, PL; exact VL).
      pose proof (generate_exact piv (c_sid c) (c_id_context c) P5 ltac:(lia)) as OG.
      destruct (N.ltb_spec 23 (gen_len piv (c_sid c) (c_id_context c))); [lia|].
      assert (GP : 0 < gen_len piv (c_sid c) (c_id_context c)) by (rewrite GL; unfold oscore_value_len; lia).
      destruct (N.eqb_spec (gen_len piv (c_sid c) (c_id_context c)) 0); [lia|].
      assert (OL : lenN (rfc_oscore_bytes (gen_opt piv (c_sid c) (c_id_context c))) = gen_len piv (c_sid c) (c_id_context c)).
      { apply gen_len_bytes. intros (-> & _). rewrite lenN_nil in P1. lia. }
      exists s1, (rfc_nonce (c_sid c) piv (c_iv c)), piv, (c_sid c), (c_id_context c), (rfc_oscore_bytes (gen_opt piv (c_sid c) (c_id_context c))).
      rewrite EP. cbn [tryc]. rewrite EG. cbn [callc]. rewrite G1. cbn [set_ssn c_sid c_iv c_id_context c_inter c_alg c_skey]. rewrite EN. cbn [tryc].
      unfold wire_ids. conj; auto.
      + eapply create_nonce_len; eassumption.
      + rewrite OL, GL, PL. reflexivity.
      + rewrite OL. exact GL'.
    - exists s, (c_nonce c), [], [], [], []. unfold wire_ids. conj; auto. change (lenN (@nil N)) with 0. lia. }
  destruct X as (s1 & nonce & piv & kid & kctx & opt & EX & WI & NL & OG & OL & O23 & I1 & I2 & I3).
  destruct (RU piv kid kctx WI) as (rpiv & rkid & t & RW & RL & UW).
  destruct (aad_total rkid rpiv RL) as (aad & EA & AL).
  destruct (cose_total cr pt nonce aad (c_skey c) AT K2 NL AL LP BP) as (ct & EC).
  rewrite EX. cbn [callc]. rewrite OG. cbn [tryc]. rewrite I1, RW. cbn [tryc]. rewrite I2, K1, EA. cbn [tryc]. rewrite I3, EC. cbn [tryc].
  rewrite uri_path_create_exact by reflexivity. cbv zeta. change OSCORE_MAX_URI_PATH_LEN with 30.
  destruct (N.ltb_spec (segs_size (path_segments (k_opts k))) 30); [|lia]. cbn [tryc s_ctx].
  assert (I4 : c_inter (if new then set_nonce (s_ctx s1) nonce else s_ctx s1) = c_inter c) by (destruct new; exact I1).
  rewrite I4, UW. cbn [tryc].
  eexists _, ct, opt. conj; [reflexivity| |exact OL|exact O23].
  unfold oscore_cose_encrypt in EC. apply bind_ok in EC as (? & _ & EC). apply bind_ok in EC as (a & _ & EC).
  unfold ext in EC. destruct (cr_aead_enc cr (c_skey c) nonce a AUTH_TAG_LEN pt) eqn:E; [|discriminate]. injection EC as <-.
  exact (ok_aead_enc_len _ OK _ _ _ _ _ _ E).
Qed.

Lemma opt_sum_insert u val : forall placed s, opt_sum (insert_oscore u placed val s) = opt_sum u + (if placed then 0 else 5 + lenN val).
Proof.
  induction u as [|o u IH]; intros placed s; cbn [insert_oscore]; [destruct placed; cbn [opt_sum o_val]; lia|].
  destruct placed; cbn [negb andb].
  - cbn [opt_sum o_val]. rewrite IH. lia.
  - destruct (OPT_OSCORE <? o_num o); cbn [opt_sum o_val]; rewrite IH; lia.
Qed.

Lemma opt_sum_count l : 5 * lenN l <= opt_sum l.
Proof.
  induction l as [|x l IH]; cbn [opt_sum]; [apply N.le_refl|]. rewrite lenN_cons.
  lia.
Qed.

(** The Echo option of the inner part is that of the message. *)
Lemma find_nv n l : option_map o_val (find (fun o => o_num o =? n) l) = option_map snd (find (fun p => fst p =? n) (map nv l)).
Proof. induction l as [|o l IH]; [reflexivity|]. cbn [map find nv fst]. destruct (o_num o =? n); [reflexivity|exact IH]. Qed.
Lemma echo_inside b m l : map nv l = map (inner_value b) (inside_opts m) -> option_map o_val (find (fun o => o_num o =? OPT_ECHO) l) = echo_of m.
Proof.
  intros E. rewrite find_nv, E. unfold echo_of, inside_opts. change OPT_ECHO with 252. clear. induction (m_opts m) as [|[n v] r IH]; [reflexivity|].
  cbn [filter find fst]. destruct (is_class_u n) eqn:U; cbn [negb].
  - destruct (N.eqb_spec n 252) as [->|_]; [discriminate U|exact IH].
  - cbn [map find]. rewrite inner_fst. cbn [fst]. destruct (N.eqb_spec n 252) as [->|_]; [|exact IH].
    unfold inner_value; cbn [fst]. reflexivity.
Qed.
Lemma echo_stage_total c m e b : map nv e = map (inner_value b) (inside_opts m) -> echo_ready c m ->
  exists s1, echo_stage c e = (s1, Ok tt).
Proof.
  intros E R. unfold echo_stage, echo_ready, verifying in *. destruct (c_echo c); [eauto| |eauto].
  destruct (R eq_refl) as (v & EV & L1 & L2). pose proof (echo_inside b m e E) as F. rewrite EV in F. unfold cache_echo_val.
  destruct (find _ e) as [o|]; [|discriminate]. injection F as ->. unfold memcpy_s. destruct (N.eqb_spec (lenN v) 0) as [Z|Z].
  - cbn [bind tryc]. eauto.
  - rewrite check_ok by exact L1. cbn [bind]. destruct (N.ltb_spec (lenN v) (lenN v)); [lia|].
    destruct (N.ltb_spec (lenN (c_echo_buf c)) (lenN v)); [lia|]. cbn [bind tryc]. eauto.
Qed.

(** A whole call. *)
Lemma protect_gen nw c m input buf olen :
  keyed c -> rfc_message m input -> nearly_supported m input -> is_bytes input -> 0 < m_code m ->
  c_ssn c < OSCORE_SSN_OVERFLOW_VALUE -> echo_ready c m ->
  fits m olen (lenN buf) -> lenN buf < 2 ^ 32 ->
  exists k, coap_deserialize input = Ok k /\ msg_of k = m /\
  (growth m <> 0 -> squeezed_out m = false -> coap2oscore cr nw c input buf = (s0 c, buf, Err buffer_to_small)) /\
  ((uses_new_piv c k = true -> may_number nw c /\ lenN (c_sid c) <= 7) ->
   (uses_new_piv c k = false -> lenN (c_nonce c) = 13) ->
   olen = (if uses_new_piv c k then oscore_value_len (piv_len (c_ssn c)) (lenN (c_sid c)) (lenN (c_id_context c)) else 0) ->
   (forall piv kid kctx, wire_ids (uses_new_piv c k) c piv kid kctx ->
     exists rpiv rkid t, read_wrapper (coap_get_message_type k) (k_token k) (c_inter c) (Some (piv, kid)) = Ok (rpiv, rkid) /\
       lenN rkid + lenN rpiv <= 7 /\
       update_wrapper (coap_get_message_type k) (k_token k) (path_string (path_segments (k_opts k))) (c_inter c) rpiv rkid = Ok t) ->
   growth m = 0 \/ squeezed_out m = true -> exists s buf1 n, coap2oscore cr nw c input buf = (s, buf1, Ok n)).
Proof.
  intros KC HM SUP HB CZ SSN EV (F1 & F2 & F3 & F4) LB.
  destruct (coap_parse_rfc m input HM (proj1 SUP)) as (k & EK & EM & TK & DC). exists k. split; [exact EK|]. split; [exact EM|].
  destruct SUP as ((PD & PV & PN & PC & PB) & DI & LI & N9 & ND & SZ).
  assert (EO : map nv (k_opts k) = m_opts m) by (rewrite <- EM; reflexivity).
  assert (EPL : k_payload k = m_payload m) by (rewrite <- EM; reflexivity).
  assert (ECD : h_code (k_hdr k) = m_code m) by (rewrite <- EM; reflexivity).
  assert (FN : Forall (fun o => o_num o < 2 ^ 16) (k_opts k)) by (apply (forall_nums (fun n => n < 2 ^ 16)); rewrite EO; exact PN).
  assert (LI32 : lenN input < 2 ^ 32) by (change (2^32) with 4294967296; change (2 ^ 16) with 65536 in PB; lia).
  destruct (coap_parse_sound _ _ EK HB LI32) as (W & HWk & L19 & OW & NC & PBY & _).
  destruct (inner_outer_option_split k) as [[[e u] elen]|er|ur] eqn:ES.
  2:{ unfold inner_outer_option_split, MAX_OPTION_COUNT in ES. destruct (N.ltb_spec 20 (lenN (k_opts k))); [lia|discriminate]. }
  2:{ unfold inner_outer_option_split in ES. destruct (_ <? _) in ES; discriminate. }
  pose proof ES as ES'. unfold inner_outer_option_split in ES'. destruct (_ <? _) in ES'; [discriminate|]. injection ES' as ES'.
  destruct (split_loop_spec (is_request k) (k_opts k) 0 0 0 0 e u elen NC eq_refl eq_refl eq_refl ES') as (inner & SI & EI & SU & _ & _).
  rewrite EO in SI, SU.
  apply (selects_filter _ (fun p => negb (is_class_u (fst p)))) in SI; [|intros x; apply inside_dec].
  apply (selects_filter _ (fun p => (fst p =? 6) || is_class_u (fst p))) in SU; [|intros x; apply outside_dec].
  fold (inside_opts m) in SI. fold (outside_opts m) in SU. subst inner.
  assert (SK : opt_sum (k_opts k) <= 100) by (rewrite opt_sum_size, EO; exact SZ).
  destruct (split_exact (is_request k) (k_opts k) 0 0 0 0 e u elen DC FN ltac:(reflexivity) ltac:(lia) ltac:(lia)
    ltac:(change (2 ^ 16) with 65536; lia) ES') as [LE LL].
  rewrite EO in LE. fold (growth m) in LE. rewrite N.add_0_r in LE.
  assert (FSZ : forall f l, opts_size (filter f l) <= opts_size l).
  { intros f l. induction l as [|p l IH]; [reflexivity|]. cbn [filter]. unfold opts_size in *. destruct (f p); cbn [fold_right]; lia. }
  assert (OE : opt_sum e <= 100).
  { rewrite opt_sum_size, EI. pose proof (opts_size_inner (is_request k) (inside_opts m)).
    pose proof (FSZ (fun p => negb (is_class_u (fst p))) (m_opts m)). unfold inside_opts in *. lia. }
  pose proof (plaintext_total (m_code m) e (m_payload m) elen (growth m) OE LE F1) as PT. fold (squeezed_out m) in PT.
  set (plen := if lenN (m_payload m) =? 0 then 1 + elen else u32 (1 + elen + 1 + lenN (m_payload m))) in *.
  assert (PLEN : plen <= 1024).
  { unfold plen. destruct (_ =? 0); [lia|]. unfold u32. change (2 ^ 32) with 4294967296. rewrite N.mod_small; lia. }
  assert (NOACK : (h_type (k_hdr k) =? 2) && (h_code (k_hdr k) =? 0) = false).
  { apply andb_false_iff. right. apply N.eqb_neq. lia. }
  destruct (echo_stage_total c m e (is_request k) EI EV) as (s1 & E1).
  assert (START : forall R : sstate * res (cpkt + bytes),
    (forall pt, plaintext_setup (m_code m) e (m_payload m) plen = Ok pt ->
        (call s2, (ct, opt) := encrypt_wrapper cr nw s1 pt k in
         try s2 let out := oscore_pkg_generate k u ct opt in (s2, Ok (inl out))) = R) ->
    (forall er, plaintext_setup (m_code m) e (m_payload m) plen = Err er -> (s0 c, Err er) = R) ->
    (forall ub, plaintext_setup (m_code m) e (m_payload m) plen = UB ub -> (s0 c, UB ub) = R) ->
    coap2oscore_core cr nw c input = R).
  { intros R R1 R2 R3. unfold coap2oscore_core, check_context_freshness.
    destruct (N.leb_spec OSCORE_SSN_OVERFLOW_VALUE (c_ssn c)); [lia|]. cbn [tryc]. rewrite EK. cbn [tryc]. rewrite NOACK, ES. cbn [tryc].
    rewrite EPL, ECD. fold plen. unfold byte_array_new. rewrite check_ok by (unfold MAX_PLAINTEXT_LEN; lia). cbn [tryc].
    destruct (plaintext_setup (m_code m) e (m_payload m) plen) as [pt|er|ub] eqn:EP; cbn [tryc]; [|apply R2; reflexivity|apply R3; reflexivity].
    assert (U : u32 (plen + AUTH_TAG_LEN) = plen + 8) by (unfold u32, AUTH_TAG_LEN; change (2 ^ 32) with 4294967296; rewrite N.mod_small; lia).
    rewrite U. rewrite check_ok by (unfold MAX_CIPHERTEXT_LEN; lia). cbn [tryc].
    specialize (R1 pt eq_refl). fold (echo_stage c e). rewrite E1. cbn [callc]. exact R1. }
  split.
  - intros G SQ. rewrite SQ in PT. unfold coap2oscore. rewrite (START (s0 c, Err buffer_to_small)); [reflexivity|..];
      rewrite PT; destruct (N.eqb_spec (growth m) 0); try contradiction; try discriminate; congruence.
  - intros NW ON OLEN RU G.
    assert (PT' : plaintext_setup (m_code m) e (m_payload m) plen = Ok (m_code m :: ser_opts e ++ marked (arriving m))).
    { rewrite PT. unfold arriving. destruct (N.eqb_spec (growth m) 0) as [Z|Z]; [reflexivity|].
      destruct G as [G|G]; [contradiction|]. rewrite G. cbn [marked]. rewrite app_nil_r. reflexivity. }
    clear PT. rename PT' into PT.
    set (pt := m_code m :: ser_opts e ++ marked (arriving m)) in *.
    assert (LPT : lenN pt = plen) by (eapply plaintext_setup_len; exact PT).
    assert (VB : Forall (fun o => is_bytes (o_val o)) e).
    { apply (forall_vals is_bytes). rewrite EI, Forall_map, Forall_forall. intros [n v] Hp. apply filter_In in Hp as [Hp _].
      unfold inner_value; cbn [fst]. destruct ((n =? 6) && negb (is_request k)); cbn [snd]; [constructor|]. rewrite <- EO in Hp.
      apply in_map_iff in Hp as (y & Ey & Hy). rewrite Forall_forall in OW. destruct (OW y Hy) as (_ & _ & _ & B & _).
      unfold nv in Ey. injection Ey as _ <-. exact B. }
    assert (BPT : is_bytes pt).
    { unfold pt. constructor; [destruct HM as (_ & _ & M3 & _); exact M3|]. apply Forall_app. split; [apply ser_opts_bytes; exact VB|].
      unfold arriving. destruct (growth m =? 0); [|constructor].
      rewrite <- EPL. destruct (k_payload k); [constructor|]. constructor; [reflexivity|exact PBY]. }
    assert (EW' : exists s' ct opt, encrypt_wrapper cr nw s1 pt k = (s', Ok (ct, opt)) /\ lenN ct = lenN pt + 8 /\ lenN opt = olen /\ lenN opt <= 23).
    { rewrite OLEN. apply echo_stage_spec in E1 as (_ & _ & [E1|(bb & nn & _ & _ & E1)]).
      - destruct (encrypt_total nw s1 pt k) as (s' & ct & opt & EW & LC & LO & L23); rewrite ?E1; try assumption; try lia.
        { rewrite (path_of_message k m EM). exact F2. }
        rewrite E1 in LO. exists s', ct, opt. auto.
      - destruct (encrypt_total nw s1 pt k) as (s' & ct & opt & EW & LC & LO & L23); rewrite ?E1; try assumption; try lia.
        { rewrite (path_of_message k m EM). exact F2. }
        rewrite E1 in LO. exists s', ct, opt. auto. }
    destruct EW' as (s' & ct & opt & EW & LC & LO & L23).
    assert (LU : opt_sum u = opts_size (outside_opts m)) by (rewrite opt_sum_size, SU; reflexivity).
    assert (LUN : lenN u <= 19).
    { pose proof (opt_sum_count u). lia. }
    assert (EG : exists out, oscore_pkg_generate k u ct opt = Ok out).
    { unfold oscore_pkg_generate, MAX_OPTION_COUNT. destruct (N.ltb_spec 20 (lenN u + 1)); [lia|]. eauto. }
    destruct EG as (out & EG).
    destruct (fun X => pkg_out_wf nw _ _ _ _ _ _ _ _ HB LI32 EK ES X L23 EG) as [WO HW].
    { rewrite LC, LPT. change (2 ^ 32) with 4294967296. lia. }
    unfold coap2oscore. rewrite (START (s', Ok (inl out))); [|..].
    + assert (OF : opts_fit out /\ k_payload out = ct /\ h_tkl (k_hdr out) <= 8).
      { destruct WO as (_ & T & _). unfold oscore_pkg_generate in EG. destruct (_ <? _) in EG; [discriminate|]. injection EG as <-.
        unfold opts_fit; cbn [k_opts k_payload k_hdr h_tkl] in *. split; [rewrite opt_sum_insert; lia|]. split; [reflexivity|].
        rewrite TK. destruct HM as (_ & _ & _ & _ & M5 & _). exact M5. }
      destruct OF as (OF & OP & OT).
      rewrite (serialize_back out (lenN buf) WO LB OF); [eauto|].
      rewrite pkt_bytes_len by exact WO. rewrite marked_len, OP, LC, LPT. pose proof (ser_opts_le (k_opts out)). unfold opts_fit in OF.
      assert (PE : plen <= 102 + lenN (m_payload m)).
      { unfold plen. destruct (N.eqb_spec (lenN (m_payload m)) 0); [lia|]. unfold u32. change (2 ^ 32) with 4294967296. rewrite N.mod_small; lia. }
      destruct (N.eqb_spec (plen + 8) 0); lia.
    + intros pt' EP. assert (pt' = pt) as -> by congruence. rewrite EW. cbn [callc]. rewrite EG. reflexivity.
    + intros er EP. congruence.
    + intros ub EP. congruence.
Qed.

Lemma growth_bound m input : rfc_message m input -> supported m input -> m_payload m = [] \/ growth m <= lenN (m_payload m).
Proof.
  intros HM SUP. destruct (coap_parse_rfc m input HM (proj1 SUP)) as (k & EK & EM & TK & DC).
  destruct SUP as (_ & _ & _ & _ & _ & _ & PL). destruct PL as [->|PL]; [left; reflexivity|right].
  assert (EO : map nv (k_opts k) = m_opts m) by (rewrite <- EM; reflexivity).
  assert (A : asc 0 (m_opts m)) by (rewrite <- EO; apply delta_asc; exact DC).
  pose proof (grows_le (m_opts m) 0 0 A ltac:(lia) ltac:(left; reflexivity)) as G. change (0 =? 0) with true in G. cbv iota in G.
  unfold growth, class_u_opts in *. lia.
Qed.
Lemma supported_kept m input : rfc_message m input -> supported m input -> squeezed_out m = false.
Proof.
  intros HM SUP. unfold squeezed_out. destruct (growth_bound m input HM SUP) as [->|G]; [reflexivity|].
  destruct (N.eqb_spec (growth m) (lenN (m_payload m) + 1)); [lia|]. apply andb_false_r.
Qed.
Lemma protect_total nw c m input buf olen :
  keyed c -> rfc_message m input -> supported m input -> is_bytes input -> 0 < m_code m ->
  c_ssn c < OSCORE_SSN_OVERFLOW_VALUE -> echo_ready c m ->
  fits m olen (lenN buf) -> lenN buf < 2 ^ 32 ->
  exists k, coap_deserialize input = Ok k /\ msg_of k = m /\
  (growth m <> 0 -> coap2oscore cr nw c input buf = (s0 c, buf, Err buffer_to_small)) /\
  ((uses_new_piv c k = true -> may_number nw c /\ lenN (c_sid c) <= 7) ->
   (uses_new_piv c k = false -> lenN (c_nonce c) = 13) ->
   olen = (if uses_new_piv c k then oscore_value_len (piv_len (c_ssn c)) (lenN (c_sid c)) (lenN (c_id_context c)) else 0) ->
   (forall piv kid kctx, wire_ids (uses_new_piv c k) c piv kid kctx ->
     exists rpiv rkid t, read_wrapper (coap_get_message_type k) (k_token k) (c_inter c) (Some (piv, kid)) = Ok (rpiv, rkid) /\
       lenN rkid + lenN rpiv <= 7 /\
       update_wrapper (coap_get_message_type k) (k_token k) (path_string (path_segments (k_opts k))) (c_inter c) rpiv rkid = Ok t) ->
   growth m = 0 -> exists s buf1 n, coap2oscore cr nw c input buf = (s, buf1, Ok n)).
Proof.
  intros KC HM SUP HB CZ SSN EV FI LB. pose proof (supported_kept m input HM SUP) as K.
  destruct (protect_gen nw c m input buf olen KC HM (supported_nearly _ _ SUP) HB CZ SSN EV FI LB) as (k & A & B & C & D).
  exists k. split; [exact A|]. split; [exact B|]. split; [intros G; apply C; assumption|].
  intros X1 X2 X3 X4 X5. apply D; auto.
Qed.
End WithCrypto.

(** ** Requests and responses *)
Lemma reachable_both cr c : crypto_ok cr -> reachable cr c -> usable c /\ keyed c.
Proof. intros OK H. split; [apply reachable_usable with cr; exact H|]. eapply reachable_keyed; [apply (ok_hmac_len _ OK)|exact H]. Qed.

Section Calls.
Variable cr : crypto.
Hypothesis OK : crypto_ok cr.
Hypothesis AT : aead_total cr.

Lemma request_gen nw c m input buf :
  usable c -> keyed c -> rfc_message m input -> nearly_supported m input -> is_bytes input -> 0 < m_code m < 32 ->
  may_request nw c m -> fits m (request_olen c) (lenN buf) -> lenN buf < 2 ^ 32 ->
  (growth m <> 0 -> squeezed_out m = false -> coap2oscore cr nw c input buf = (s0 c, buf, Err buffer_to_small)) /\
  (growth m = 0 \/ squeezed_out m = true -> exists s buf1 n, coap2oscore cr nw c input buf = (s, buf1, Ok n)).
Proof.
  intros (TC & _) KC HM SUP HB CO (MN & EV & SL & NF) FI LB. pose proof MN as (SSN & _ & _).
  destruct (protect_gen cr OK AT nw c m input buf (request_olen c) KC HM SUP HB ltac:(lia) SSN EV FI LB) as (k & EK & EM & BAD & GOOD).
  split; [exact BAD|]. intros G.
  assert (RQ : is_request k = true). { rewrite is_request_code. change (h_code (k_hdr k)) with (m_code (msg_of k)). rewrite EM. apply N.ltb_lt; lia. }
  assert (NEW : uses_new_piv c k = true).
  { unfold uses_new_piv, needs_new_piv. destruct (type_request k RQ) as [-> | [-> | ->]]; reflexivity. }
  rewrite NEW in GOOD.
  assert (PL1 : 1 <= piv_len (c_ssn c)). { unfold piv_len. destruct (c_ssn c <? 256); [lia|]. destruct (c_ssn c <? 65536); lia. }
  apply GOOD; [intros _; split; [exact MN|lia]|discriminate|reflexivity| |exact G].
  intros piv kid kctx (EP & -> & ->). destruct (piv_len_spec _ _ SSN EP) as [PL P5].
  destruct (update_request k m (c_inter c) (path_string (path_segments (k_opts k))) piv (c_sid c) TC EM RQ) as [_ UR].
  { rewrite (path_of_message k m EM). reflexivity. }
  destruct (UR NF) as (t & ET).
  - unfold inter_sizes, record_for. cbn [i_token i_uri i_piv i_kid]. destruct HM as (_ & _ & _ & _ & M5 & _).
    repeat split; [exact M5| |exact P5|lia]. apply path_string_len. apply FI.
  - exists piv, (c_sid c), t. split; [|split; [lia|exact ET]]. destruct (type_request k RQ) as [-> | [-> | ->]]; reflexivity.
Qed.
Lemma request_total nw c m input buf :
  usable c -> keyed c -> rfc_message m input -> supported m input -> is_bytes input -> 0 < m_code m < 32 ->
  may_request nw c m -> fits m (request_olen c) (lenN buf) -> lenN buf < 2 ^ 32 ->
  (growth m <> 0 -> coap2oscore cr nw c input buf = (s0 c, buf, Err buffer_to_small)) /\
  (growth m = 0 -> exists s buf1 n, coap2oscore cr nw c input buf = (s, buf1, Ok n)).
Proof.
  intros UC KC HM SUP HB CO MR FI LB. pose proof (supported_kept m input HM SUP) as K.
  destruct (request_gen nw c m input buf UC KC HM (supported_nearly _ _ SUP) HB CO MR FI LB). auto.
Qed.

Lemma response_gen nw c m input buf :
  usable c -> keyed c -> rfc_message m input -> nearly_supported m input -> is_bytes input -> 32 <= m_code m ->
  may_respond nw c m -> fits m (response_olen c m) (lenN buf) -> lenN buf < 2 ^ 32 ->
  (growth m <> 0 -> squeezed_out m = false -> coap2oscore cr nw c input buf = (s0 c, buf, Err buffer_to_small)) /\
  (growth m = 0 \/ squeezed_out m = true -> exists s buf1 n, coap2oscore cr nw c input buf = (s, buf1, Ok n)).
Proof.
  intros (TC & _) KC HM SUP HB CO (SSN & EV & MN & x & X1 & X2 & X3) FI LB.
  destruct (protect_gen cr OK AT nw c m input buf (response_olen c m) KC HM SUP HB ltac:(lia) SSN EV FI LB) as (k & EK & EM & BAD & GOOD).
  split; [exact BAD|]. intros G.
  assert (RQ : is_request k = false). { rewrite is_request_code. change (h_code (k_hdr k)) with (m_code (msg_of k)). rewrite EM. apply N.ltb_ge; lia. }
  assert (TY : coap_get_message_type k = if notifies m then MNOTIFICATION else MRESPONSE).
  { rewrite type_by_observe by exact RQ. rewrite is_observe_nv. change (map nv (k_opts k)) with (m_opts (msg_of k)). rewrite EM. reflexivity. }
  assert (NEW : uses_new_piv c k = takes_number c m).
  { unfold uses_new_piv, needs_new_piv, takes_number, verifying. rewrite TY. destruct (notifies m); [reflexivity|]. destruct (c_echo c); reflexivity. }
  assert (TK : k_token k = m_token m) by (rewrite <- EM; reflexivity).
  rewrite NEW, TY, TK in GOOD.
  apply GOOD; [| |reflexivity| |exact G].
  - intros E. rewrite E in MN. exact MN.
  - intros E. rewrite E in MN. exact MN.
  - intros piv kid kctx _. exists (i_piv x), (i_kid x).
    assert (GR : get_record (c_inter c) (m_token m) = Ok x) by (apply C24_get; [exact TC|]; auto).
    destruct (C24_remove (c_inter c) (m_token m) TC) as (_ & RM & _).
    assert (RM' : exists t, remove_record (c_inter c) (m_token m) = Ok t).
    { specialize (RM (ex_intro _ x (conj X1 X2))). destruct (remove_record (c_inter c) (m_token m)); try discriminate. eauto. }
    destruct RM' as (t & ET). destruct (notifies m); cbn [read_wrapper update_wrapper]; rewrite GR; cbn [bind].
    + eauto.
    + exists t. auto.
Qed.
Lemma response_total nw c m input buf :
  usable c -> keyed c -> rfc_message m input -> supported m input -> is_bytes input -> 32 <= m_code m ->
  may_respond nw c m -> fits m (response_olen c m) (lenN buf) -> lenN buf < 2 ^ 32 ->
  (growth m <> 0 -> coap2oscore cr nw c input buf = (s0 c, buf, Err buffer_to_small)) /\
  (growth m = 0 -> exists s buf1 n, coap2oscore cr nw c input buf = (s, buf1, Ok n)).
Proof.
  intros UC KC HM SUP HB CO MR FI LB. pose proof (supported_kept m input HM SUP) as K.
  destruct (response_gen nw c m input buf UC KC HM (supported_nearly _ _ SUP) HB CO MR FI LB). auto.
Qed.
End Calls.
