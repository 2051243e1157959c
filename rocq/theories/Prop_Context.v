(** Property C30: the keys of a context and of its mirror image. *)
From Verif Require Import Base Proof_Base Model_Common Model_Crypto Model_Cbor Proof_Cbor Model_OscorePrims Model_Interactions Model_Context
  Spec_CborTree Proof_CborTree Spec_OscorePrims Proof_OscorePrims Spec_Hkdf Proof_Hkdf Model_Toy Proof_Toy Model_ToyRun.

(** RFC 8613 section 3.2.1 with HKDF SHA-256 (RFC 5869): the parameter of [L] bytes
    derived for [id]; [iv] tells Common IV from keys. *)
Definition rfc_derive (cr : crypto) (p : init_params) (id : bytes) (iv : bool) (L : N) : bytes :=
  hkdf_okm (cr_hmac cr) (cr_hmac cr (match ip_salt p with [] => repeat 0 32 | s => s end) (ip_secret p))
    (cbor (rfc_info id (ip_id_context p) (ip_aead p) iv)) L.

Lemma derive_is_rfc cr p id t L x : (forall k m, lenN (cr_hmac cr k m) = 32) -> (L <=? 254 * 32) = true ->
  derive cr (ip_secret p) (ip_salt p) (ip_id_context p) (ip_aead p) (ip_hkdf p) id t L = Ok x ->
  x = rfc_derive cr p id (type_is_iv t) L.
Proof.
  intros HL HO EI. unfold derive in EI. apply bind_ok in EI as (info & EF & EI).
  rewrite info_is_rfc in EF. apply cbor_put_ok in EF as [-> _].
  destruct (_ =? _)%Z; [|discriminate]. unfold hkdf_sha_256 in EI.
  rewrite expand_tc_correct in EI; [|exact HL|apply N.leb_le; exact HO].
  assert (E : forall a b : bytes, Ok a = Ok b -> b = a) by (intros a b Q; inversion Q; reflexivity).
  apply E in EI. rewrite EI. unfold rfc_derive, hkdf_extract. destruct (ip_salt p); reflexivity.
Qed.

(** The keys and the Common IV of an initialised context are those of RFC 8613. *)
Theorem C30_keys_are_rfc :
  forall (cr : crypto) (p : init_params) (nvm : res N) (gn ge : bytes) (gf : N) (c : ctx),
  (forall k m, lenN (cr_hmac cr k m) = 32) ->
  oscore_context_init cr p nvm gn ge gf = Ok c ->
  c_skey c = rfc_derive cr p (ip_sender_id p) false 16 /\
  c_rkey c = rfc_derive cr p (ip_recipient_id p) false 16 /\
  c_iv c = rfc_derive cr p [] true 13 /\
  c_sid c = ip_sender_id p /\ c_rid c = ip_recipient_id p /\ c_alg c = ip_aead p /\ c_id_context c = ip_id_context p /\
  ip_aead p = 10%Z /\ ip_hkdf p = 0%Z.
Proof.
  intros cr p nvm gn ge gf c HL H. unfold oscore_context_init in H.
  destruct (negb (ip_aead p =? OSCORE_AES_CCM_16_64_128)%Z) eqn:E1; [discriminate|].
  destruct (negb (ip_hkdf p =? OSCORE_SHA_256)%Z) eqn:E2; [discriminate|].
  apply negb_false_iff in E1, E2. apply Z.eqb_eq in E1, E2.
  apply bind_ok in H as (iv & EI & H). apply derive_is_rfc in EI; [|exact HL|reflexivity].
  destruct (_ <? _); [discriminate|].
  apply bind_ok in H as (rk & ER & H). apply derive_is_rfc in ER; [|exact HL|reflexivity].
  apply bind_ok in H as (ssn & _ & H).
  apply bind_ok in H as (sk & EK & H). apply derive_is_rfc in EK; [|exact HL|reflexivity].
  injection H as <-. cbn [c_skey c_rkey c_iv c_sid c_rid c_alg c_id_context].
  exact (conj EK (conj ER (conj EI (conj eq_refl (conj eq_refl (conj eq_refl (conj eq_refl (conj E1 E2)))))))).
Qed.
Print Assumptions C30_keys_are_rfc.

(** Contexts made from the same secret, salt and ID context with swapped IDs fit
    together, whatever the other arguments are. *)
Theorem C30_mirrored :
  forall (cr : crypto) (p q : init_params) (nvm1 nvm2 : res N) (gn1 ge1 gn2 ge2 : bytes) (gf1 gf2 : N) (c d : ctx),
  (forall k m, lenN (cr_hmac cr k m) = 32) ->
  ip_secret q = ip_secret p -> ip_salt q = ip_salt p -> ip_id_context q = ip_id_context p ->
  ip_sender_id q = ip_recipient_id p -> ip_recipient_id q = ip_sender_id p ->
  oscore_context_init cr p nvm1 gn1 ge1 gf1 = Ok c -> oscore_context_init cr q nvm2 gn2 ge2 gf2 = Ok d ->
  c_skey c = c_rkey d /\ c_rkey c = c_skey d /\ c_iv c = c_iv d /\ c_sid c = c_rid d /\ c_rid c = c_sid d /\
  c_alg c = c_alg d /\ c_id_context c = c_id_context d.
Proof.
  intros cr p q nvm1 nvm2 gn1 ge1 gn2 ge2 gf1 gf2 c d HL Q1 Q2 Q3 Q4 Q5 HC HD.
  apply C30_keys_are_rfc in HC as (A1 & A2 & A3 & A4 & A5 & A6 & A7 & A8 & _); [|exact HL].
  apply C30_keys_are_rfc in HD as (B1 & B2 & B3 & B4 & B5 & B6 & B7 & B8 & _); [|exact HL].
  assert (R : forall id b L, rfc_derive cr q id b L = rfc_derive cr p id b L).
  { intros. unfold rfc_derive. rewrite Q1, Q2, Q3, A8, B8. reflexivity. }
  rewrite R in B1, B2, B3. rewrite Q4 in B1, B4. rewrite Q5 in B2, B5.
  rewrite A1, A2, A3, A4, A5, A6, A7, B1, B2, B3, B4, B5, B6, B7, A8, B8, Q3. auto 8.
Qed.
Print Assumptions C30_mirrored.

(** Initialisation succeeds for the supported algorithms and sizes. *)
Theorem C30_init_total :
  forall (cr : crypto) (p : init_params) (nvm : N) (gn ge : bytes) (gf : N),
  (forall k m, lenN (cr_hmac cr k m) = 32) ->
  ip_aead p = 10%Z -> ip_hkdf p = 0%Z -> lenN (ip_recipient_id p) <= 8 -> lenN (ip_sender_id p) <= 23 ->
  lenN (ip_id_context p) + lenN (ip_recipient_id p) <= 40 -> lenN (ip_id_context p) + lenN (ip_sender_id p) <= 40 ->
  exists c, oscore_context_init cr p (Ok nvm) gn ge gf = Ok c.
Proof.
  intros cr p nvm gn ge gf HL E1 E2 L1 L2 L3 L4. unfold oscore_context_init. rewrite E1, E2.
  change (negb (10 =? OSCORE_AES_CCM_16_64_128)%Z) with false. change (negb (0 =? OSCORE_SHA_256)%Z) with false. cbv iota.
  assert (D : forall id t L, lenN id <= 23 -> lenN (ip_id_context p) + lenN id <= 40 -> (L <=? 254 * 32) = true ->
     exists x, derive cr (ip_secret p) (ip_salt p) (ip_id_context p) 10 0 id t L = Ok x).
  { intros id t L I1 I2 I3. unfold derive.
    assert (X : exists info, oscore_create_hkdf_info id (ip_id_context p) 10 t MAX_INFO_LEN = Ok info).
    { unfold oscore_create_hkdf_info.
      set (te := match t with KEY => _ | IV => _ end). destruct te as [ty len] eqn:ET.
      unfold cbor_put. set (b := enc_list 5 ++ _). destruct (N.leb_spec (lenN b) MAX_INFO_LEN) as [?|G]; [eauto|exfalso].
      revert G. apply N.le_ngt. unfold b. rewrite !lenN_app.
      assert (T : lenN (enc_tstr ty) + lenN (enc_uint len) <= 5).
      { unfold te in ET. destruct t; injection ET as <- <-; apply N.leb_le; vm_compute; reflexivity. }
      assert (B1 : lenN (enc_bstr id) <= 1 + lenN id).
      { rewrite enc_bstr_len. assert (head_len (lenN id) = 1); [|lia]. unfold head_len.
        destruct (N.ltb_spec (lenN id) 24); [reflexivity|lia]. }
      assert (B2 : lenN (if lenN (ip_id_context p) =? 0 then enc_nil else enc_bstr (ip_id_context p)) <= 2 + lenN (ip_id_context p)).
      { destruct (_ =? 0); [change (lenN enc_nil) with 1; lia|]. rewrite enc_bstr_len.
        assert (head_len (lenN (ip_id_context p)) <= 2); [|lia]. unfold head_len.
        destruct (N.ltb_spec (lenN (ip_id_context p)) 24); [lia|].
        change (2 ^ 8) with 256. destruct (N.ltb_spec (lenN (ip_id_context p)) 256); lia. }
      change (lenN (enc_list 5)) with 1. change (lenN (enc_int 10)) with 1. change MAX_INFO_LEN with 50. lia. }
    destruct X as (info & ->). cbn [bind]. change (0 =? OSCORE_SHA_256)%Z with true. cbv iota. unfold hkdf_sha_256.
    rewrite expand_tc_correct; [eauto|exact HL|apply N.leb_le; exact I3]. }
  destruct (D [] IV COMMON_IV_LEN) as (iv & ->); [apply N.leb_le; reflexivity|change (lenN (@nil N)) with 0; lia|reflexivity|]. cbn [bind].
  destruct (N.ltb_spec RECIPIENT_ID_BUFF_LEN (lenN (ip_recipient_id p))) as [X|_]; [change RECIPIENT_ID_BUFF_LEN with 8 in X; lia|].
  destruct (D (ip_recipient_id p) KEY KEY_LEN) as (rk & ->); [lia|lia|reflexivity|]. cbn [bind].
  assert (S : exists s, ssn_init (Ok nvm) (ip_fresh p) = Ok s) by (unfold ssn_init; destruct (ip_fresh p); cbn [bind]; eauto).
  destruct S as (s & ->). cbn [bind].
  destruct (D (ip_sender_id p) KEY KEY_LEN) as (sk & ->); [lia|lia|reflexivity|]. cbn [bind]. eauto.
Qed.
Print Assumptions C30_init_total.

(** Client and server of the examples. *)
Example C30_example :
  c_skey toy_client = c_rkey toy_server /\ c_rkey toy_client = c_skey toy_server /\ c_iv toy_client = c_iv toy_server /\
  lenN (c_skey toy_client) = 16 /\ lenN (c_iv toy_client) = 13.
Proof. repeat split; vm_compute; reflexivity. Qed.
