(** Lemmas about sequences of API calls. *)
From Verif Require Import Base Proof_Base Model_Common Model_Crypto Proof_Hkdf Model_Cbor Proof_Cbor Model_OscorePrims Spec_OscorePrims
  Proof_OscorePrims Model_Coap Proof_Coap Model_Interactions Model_Replay Proof_Replay Model_Context
  Model_Send Model_Recv Model_Run Spec_Interactions Proof_Interactions Proof_Send Proof_Recv
  Spec_CborTree Proof_CborTree Spec_Session.

Section WithCrypto.
Variable cr : crypto.

Lemma exec_send c nw input buf c' o : exec cr c (ASend nw input buf) = (c', o) ->
  exists s r, coap2oscore_core cr nw c input = (s, r) /\ c' = s_ctx s /\ ob_enc o = s_enc s /\ ob_nvm o = s_nvm s.
Proof.
  unfold exec, coap2oscore. destruct (coap2oscore_core cr nw c input) as [s r] eqn:E. intros H.
  exists s, r. split; [reflexivity|].
  destruct r as [[out|w]|e|u]; cbn in H.
  - destruct (coap_serialize out (lenN buf)) as [w [|e|u]]; injection H as <- <-; auto.
  - destruct (_ <? _); injection H as <- <-; auto.
  - injection H as <- <-; auto.
  - injection H as <- <-; auto.
Qed.

Lemma exec_recv c input buf c' o : exec cr c (ARecv input buf) = (c', o) ->
  ob_enc o = None /\ ob_nvm o = None /\
  exists r, oscore2coap_core cr c input = (c', r) /\
    match r with
    | Ok out => match coap_serialize out (lenN buf) with
                | (w, Ok _) => ob_buf o = written w buf /\ ob_res o = Ok (lenN w)
                | (w, Err e) => ob_buf o = written w buf /\ ob_res o = Err e
                | (w, UB u) => ob_buf o = buf /\ ob_res o = UB u
                end
    | Err e => ob_buf o = buf /\ ob_res o = Err e
    | UB u => ob_buf o = buf /\ ob_res o = UB u
    end.
Proof.
  unfold exec, oscore2coap. destruct (oscore2coap_core cr c input) as [c1 r] eqn:E. intros H.
  destruct r as [out|e|u].
  - destruct (coap_serialize out (lenN buf)) as [w [x|e|u]] eqn:S; injection H as <- <-; cbn;
      (split; [reflexivity|]; split; [reflexivity|]; exists (Ok out); rewrite S; auto).
  - injection H as <- <-. cbn. split; [reflexivity|]; split; [reflexivity|]. exists (Err e); auto.
  - injection H as <- <-. cbn. split; [reflexivity|]; split; [reflexivity|]. exists (UB u); auto.
Qed.

Lemma run_inv (P : ctx -> Prop) :
  (forall c a c' o, P c -> exec cr c a = (c', o) -> P c') ->
  forall l c, P c -> P (fst (run cr c l)).
Proof.
  intros HS l. induction l as [|a l IH]; intros c HP; [exact HP|]. cbn [run].
  destruct (exec cr c a) as [c1 o] eqn:E. pose proof (HS _ _ _ _ HP E) as HP1.
  destruct (is_ub (ob_res o)); [exact HP1|]. specialize (IH c1 HP1).
  destruct (run cr c1 l) as [c2 os]. exact IH.
Qed.

Lemma exec_keys c a c' o : exec cr c a = (c', o) -> same_keys c c' /\ (table_ok (c_inter c) -> table_ok (c_inter c')).
Proof.
  destruct a as [nw input buf|input buf]; intros H.
  - apply exec_send in H as (s & r & H & -> & _). apply core_effect in H. tauto.
  - apply exec_recv in H as (_ & _ & r & H & _). apply recv_core_effect in H as ((K & _) & T). auto.
Qed.

Lemma derive_len ms salt ctxid aead hk id ty outl x : (forall k m, lenN (cr_hmac cr k m) = 32) -> (outl <=? 254 * 32) = true ->
  derive cr ms salt ctxid aead hk id ty outl = Ok x -> lenN x = outl.
Proof.
  intros HL HO EI. unfold derive in EI. apply bind_ok in EI as (info & _ & EI).
  destruct (_ =? _)%Z; [|discriminate]. unfold hkdf_sha_256 in EI.
  rewrite expand_tc_correct in EI; [|exact HL|apply N.leb_le; exact HO].
  assert (E : forall a b : bytes, Ok a = Ok b -> b = a) by (intros a b Q; inversion Q; reflexivity).
  apply E in EI. rewrite EI. apply okm_len. exact HL.
Qed.

Lemma init_iv p nvm gn ge gf c : (forall k m, lenN (cr_hmac cr k m) = 32) ->
  oscore_context_init cr p nvm gn ge gf = Ok c -> lenN (c_iv c) = 13.
Proof.
  intros HL H. unfold oscore_context_init in H.
  destruct (negb _); [discriminate|]. destruct (negb _); [discriminate|].
  apply bind_ok in H as (iv & EI & H). apply derive_len in EI; [|exact HL|reflexivity].
  destruct (_ <? _); [discriminate|].
  apply bind_ok in H as (rk & _ & H). apply bind_ok in H as (ssn & _ & H). apply bind_ok in H as (sk & _ & H).
  injection H as <-. exact EI.
Qed.

Lemma init_inter p nvm gn ge gf c : oscore_context_init cr p nvm gn ge gf = Ok c ->
  c_inter c = interactions_init /\ c_win c = rw_init /\ c_notif_init c = false /\
  c_echo c = (if ip_fresh p then ECHO_SYNCHRONIZED else ECHO_REBOOT) /\
  c_sid c = ip_sender_id p /\ c_rid c = ip_recipient_id p /\ c_echo_buf c = ge /\ c_echo_len c = 12 /\ c_fresh c = ip_fresh p /\
  ssn_init nvm (ip_fresh p) = Ok (c_ssn c).
Proof.
  intros H. unfold oscore_context_init in H.
  destruct (negb _); [discriminate|]. destruct (negb _); [discriminate|].
  apply bind_ok in H as (iv & EI & H). destruct (_ <? _); [discriminate|].
  apply bind_ok in H as (rk & _ & H). apply bind_ok in H as (ssn & ES & H). apply bind_ok in H as (sk & _ & H).
  injection H as <-. cbn. conj; auto.
Qed.

Lemma reachable_inv (P : ctx -> Prop) :
  (forall p nvm gn ge gf c, oscore_context_init cr p nvm gn ge gf = Ok c -> P c) ->
  (forall c a c' o, P c -> exec cr c a = (c', o) -> P c') ->
  forall c, reachable cr c -> P c.
Proof.
  intros HI HS c (p & nvm & gn & ge & gf & c0 & l & E & <-). apply run_inv; [exact HS|]. eapply HI; exact E.
Qed.

Lemma reachable_table c : reachable cr c -> table_ok (c_inter c).
Proof.
  apply (reachable_inv (fun c => table_ok (c_inter c))).
  - intros p nvm gn ge gf c0 H. apply init_inter in H as (-> & _). apply interactions_init_ok.
  - intros c0 a c' o T H. apply exec_keys in H. tauto.
Qed.

Lemma reachable_iv c : (forall k m, lenN (cr_hmac cr k m) = 32) -> reachable cr c -> lenN (c_iv c) = 13.
Proof.
  intros HL. apply (reachable_inv (fun c => lenN (c_iv c) = 13)).
  - intros p nvm gn ge gf c0 H. eapply init_iv; eassumption.
  - intros c0 a c' o T H. apply exec_keys in H as ((_ & _ & E & _) & _). rewrite E. exact T.
Qed.

(** ** Replay state *)
Lemma recv_replay_state c input c' r : oscore2coap_core cr c input = (c', r) ->
  (c_echo c' = c_echo c /\ c_win c' = c_win c) \/
  (c_echo c = ECHO_SYNCHRONIZED /\ c_echo c' = ECHO_SYNCHRONIZED /\ exists b, c_win c' = snd (rw_update b (c_win c))) \/
  (c_echo c = ECHO_REBOOT /\ c_echo c' = ECHO_VERIFY /\ c_win c' = c_win c) \/
  (c_echo c = ECHO_VERIFY /\ c_echo c' = ECHO_SYNCHRONIZED /\ exists n, c_win c' = rw_reinit n).
Proof.
  intros H. apply recv_core_inv in H as [[-> _]|(k & o & _ & _ & _ & H)]; [auto|].
  destruct (is_request k).
  - apply recv_request_inv in H as [[-> _]|(ssn & rd & _ & _ & _ & _ & c1 & D & H)]; [auto|].
    apply decrypt_wrapper_effect in D as ((_ & (SW & _ & _ & SE) & _) & _).
    destruct H as [(_ & -> & _)|(pt & out & _ & H)]; [rewrite SW, SE; auto|].
    destruct (c_echo c) eqn:EE.
    + destruct H as [-> _]. right; right; left. cbn. auto.
    + destruct H as [(_ & -> & _)|(_ & -> & _)]; [|rewrite SW, SE; auto]. right; right; right. cbn. eauto.
    + destruct H as [(_ & -> & _)|(b & t & _ & -> & _)]; [rewrite SW, SE; auto|]. right; left. cbn. rewrite SE. eauto.
  - apply recv_response_inv in H as [[-> _]|(c1 & rd & D & _ & H)]; [auto|].
    apply decrypt_wrapper_effect in D as ((_ & (SW & _ & _ & SE) & _) & _).
    destruct H as [(_ & -> & _)|(pt & out & _ & _ & H)]; [rewrite SW, SE; auto|].
    destruct (is_observe (k_opts k)); [destruct H as (s & _ & ->)|subst c']; cbn; rewrite SW, SE; auto.
Qed.

Lemma update_keeps H w b : Inv H w -> exists H', Inv H' (snd (rw_update b w)) /\ incl H H' /\
  (rw_valid b w = true \/ In b H -> In b H').
Proof.
  intros HI. destruct (rw_valid b w) eqn:V.
  - exists (b :: H). split; [apply update_inv; assumption|]. split; [apply incl_tl, incl_refl|]. left; reflexivity.
  - rewrite update_rejected by assumption. exists H. split; [exact HI|]. split; [apply incl_refl|]. intros [X|X]; [discriminate|exact X].
Qed.

(** Synchronised, and [n] will never be accepted again. *)
Definition spent (n : N) (c : ctx) : Prop :=
  c_echo c = ECHO_SYNCHRONIZED /\ exists H, Inv H (c_win c) /\ In n H.

Lemma spent_step n c a c' o : spent n c -> exec cr c a = (c', o) -> spent n c'.
Proof.
  intros (E & H & HI & Hn). destruct a as [nw input buf|input buf]; intros X.
  - apply exec_send in X as (s & r & X & -> & _). apply core_effect in X as (_ & (SW & _ & _ & SE) & _).
    split; [congruence|]. exists H. rewrite SW. auto.
  - apply exec_recv in X as (_ & _ & r & X & _).
    apply recv_replay_state in X as [[A B]|[(A & B & b & C)|[(A & _)|(A & _)]]]; try congruence.
    + split; [congruence|]. exists H. rewrite B. auto.
    + split; [assumption|]. destruct (update_keeps H _ b HI) as (H' & HI' & IC & _).
      exists H'. rewrite C. split; [assumption|]. apply IC. exact Hn.
Qed.

Lemma spent_invalid n c : spent n c -> rw_valid n (c_win c) = false.
Proof.
  intros (_ & H & HI & Hn). rewrite (valid_matches_spec _ _ n HI). unfold Spec_Replay.spec_accepts.
  apply andb_false_iff. left. apply negb_false_iff, existsb_eqb_In. exact Hn.
Qed.

Lemma reachable_window c : reachable cr c ->
  (exists H, Inv H (c_win c)) /\ (c_echo c <> ECHO_SYNCHRONIZED -> c_win c = rw_init).
Proof.
  apply (reachable_inv (fun c => (exists H, Inv H (c_win c)) /\ (c_echo c <> ECHO_SYNCHRONIZED -> c_win c = rw_init))).
  - intros p nvm gn ge gf c0 H. apply init_inter in H as (_ & -> & _). split; [exists []; apply init_inv|auto].
  - intros c0 a c' o ((H & HI) & HE) X. destruct a as [nw input buf|input buf].
    + apply exec_send in X as (s & r & X & -> & _). apply core_effect in X as (_ & (SW & _ & _ & SE) & _).
      rewrite SW, SE. split; [exists H; exact HI|exact HE].
    + apply exec_recv in X as (_ & _ & r & X & _).
      apply recv_replay_state in X as [[A B]|[(A & B & b & C)|[(A & B & C)|(A & B & n & C)]]].
      * rewrite A, B. split; [exists H; exact HI|exact HE].
      * rewrite C. split; [|congruence]. destruct (update_keeps H _ b HI) as (H' & HI' & _). exists H'. exact HI'.
      * rewrite C. split; [exists H; exact HI|]. intros _. apply HE. congruence.
      * rewrite C. split; [|congruence]. exists (Spec_Replay.upto n). apply reinit_inv.
Qed.

(** ** Notification state *)
Lemma recv_notif_state c input c' r : oscore2coap_core cr c input = (c', r) ->
  (c_notif c' = c_notif c /\ c_notif_init c' = c_notif_init c) \/
  (c_notif_init c' = true /\ (c_notif_init c = true -> c_notif c < c_notif c')).
Proof.
  intros H. apply recv_core_inv in H as [[-> _]|(k & o & _ & _ & _ & H)]; [auto|].
  destruct (is_request k).
  - apply recv_request_inv in H as [[-> _]|(ssn & rd & _ & _ & _ & _ & c1 & D & H)]; [auto|].
    apply decrypt_wrapper_effect in D as ((_ & (_ & SN & SI & _) & _) & _). left.
    destruct H as [(_ & -> & _)|(pt & out & _ & H)]; [auto|].
    destruct (c_echo c).
    + destruct H as [-> _]. auto.
    + destruct H as [(_ & -> & _)|(_ & -> & _)]; auto.
    + destruct H as [(_ & -> & _)|(b & t & _ & -> & _)]; auto.
  - apply recv_response_inv in H as [[-> _]|(c1 & rd & D & OB & H)]; [auto|].
    apply decrypt_wrapper_effect in D as ((_ & (_ & SN & SI & _) & _) & _).
    destruct H as [(_ & -> & _)|(pt & out & _ & _ & H)]; [auto|].
    destruct (is_observe (k_opts k)); [|subst c'; auto].
    destruct H as (ssn & E1 & ->). right. cbn. split; [reflexivity|]. intros EI.
    destruct (OB eq_refl) as (_ & ssn' & E2 & L). rewrite E1 in E2. injection E2 as <-. auto.
Qed.

Definition seen_notif (n : N) (c : ctx) : Prop := c_notif_init c = true /\ n <= c_notif c.
Lemma seen_step n c a c' o : seen_notif n c -> exec cr c a = (c', o) -> seen_notif n c'.
Proof.
  intros (I & L). destruct a as [nw input buf|input buf]; intros X.
  - apply exec_send in X as (s & r & X & -> & _). apply core_effect in X as (_ & (_ & SN & SI & _) & _).
    unfold seen_notif. rewrite SN, SI. auto.
  - apply exec_recv in X as (_ & _ & r & X & _).
    apply recv_notif_state in X as [[A B]|[A B]]; unfold seen_notif; [rewrite A, B; auto|].
    split; [exact A|]. specialize (B I). lia.
Qed.

(** ** Bytes of the Partial IV *)
Lemma parser_loop_piv l : forall cur o, oscore_option_parser_loop l cur = Ok o ->
  Forall (fun x => is_bytes (o_val x) /\ is_bytes (o_tail x)) l ->
  (forall o', cur = Ok o' -> is_bytes (co_piv o') /\ lenN (co_piv o') <= 5) ->
  is_bytes (co_piv o) /\ lenN (co_piv o) <= 5.
Proof.
  induction l as [|x l IH]; intros cur o H F HC; cbn [oscore_option_parser_loop] in H; [apply HC; exact H|].
  inversion F as [|? ? [Fv Ft] F']; subst. destruct (o_num x =? OPT_OSCORE); [|eapply IH; eassumption].
  apply bind_ok in H as (y & EY & H). eapply IH; [exact H|exact F'|].
  intros o' E. injection E as <-. unfold oscore_value_parse in EY.
  destruct (_ =? 0) in EY; [injection EY as <-; split; [constructor|apply N.leb_le; reflexivity]|].
  apply bind_ok in EY as (fl & _ & EY). destruct (_ || _) eqn:E67; [discriminate|].
  apply orb_false_iff in E67 as [E6 E7]. apply N.eqb_neq in E6, E7.
  apply bind_ok in EY as (piv & ES & EY). apply bind_ok in EY as ([[cx p2] l2] & _ & EY). injection EY as <-. cbn [co_piv].
  apply slice_ok in ES as (SL & _ & ->). split; [|rewrite SL; lia].
  apply is_bytes_takeN, is_bytes_dropN, is_bytes_app. auto.
Qed.

Lemma packet_piv input k piv : is_bytes input -> lenN input < 2 ^ 32 -> packet input k piv ->
  is_bytes piv /\ lenN piv <= 5 /\ piv2ssn piv = Ok (be_val piv).
Proof.
  intros HB HL (HP & o & HO & <-). apply coap_parse_sound in HP as (_ & _ & _ & F & _); [|assumption..].
  assert (G : is_bytes (co_piv o) /\ lenN (co_piv o) <= 5).
  { eapply parser_loop_piv; [exact HO| |discriminate]. rewrite Forall_forall in *. intros x Hx. specialize (F x Hx).
    unfold opt_wf in F. tauto. }
  destruct G as [G1 G2]. auto using piv2ssn_spec.
Qed.

Lemma is_request_spec k : is_request k = true <-> h_code (k_hdr k) < 32.
Proof. unfold is_request. rewrite N.eqb_eq. split; intros; lia. Qed.
Lemma is_observe_spec l : is_observe l = true <-> exists o, In o l /\ o_num o = 6.
Proof.
  unfold is_observe. rewrite existsb_exists. change OPT_OBSERVE with 6. split; intros (o & A & B); exists o;
    (split; [exact A|]); [apply N.eqb_eq in B|apply N.eqb_eq]; exact B.
Qed.

(** ** Authenticity *)
Lemma create_nonce_rfc id piv iv n : lenN iv = 13 -> create_nonce id piv iv = Ok n ->
  lenN id <= 7 /\ lenN piv <= 5 /\ n = rfc_nonce id piv iv.
Proof.
  intros HI H. destruct (N.le_gt_cases (lenN piv) 5) as [LP|LP].
  - destruct (N.le_gt_cases (lenN id) 7) as [LI|LI].
    + rewrite create_nonce_spec in H by assumption. injection H as <-. auto.
    + rewrite create_nonce_ub in H by assumption. discriminate.
  - unfold create_nonce, left_pad, MAX_PIV_LEN in H. destruct (N.ltb_spec 5 (lenN piv)); [discriminate|lia].
Qed.

Lemma cose_decrypt_rfc ct nonce alg kid piv aad key pt :
  create_aad alg kid piv MAX_AAD_LEN = Ok aad -> oscore_cose_decrypt cr ct nonce aad key = Ok pt ->
  cr_aead_dec cr key nonce (rfc_aad alg kid piv) 8 ct = Some pt.
Proof.
  intros HA HD. rewrite aad_is_rfc in HA. apply cbor_put_ok in HA as [-> _].
  unfold oscore_cose_decrypt in HD. apply bind_ok in HD as (? & _ & HD). apply bind_ok in HD as (a & EA & HD).
  rewrite enc_structure_is_rfc in EA. apply cbor_put_ok in EA as [-> _].
  change AUTH_TAG_LEN with 8 in HD. unfold rfc_aad. unfold ext in HD.
  destruct (cr_aead_dec cr key nonce _ 8 ct); [injection HD as ->; reflexivity|discriminate].
Qed.

Lemma cose_encrypt_rfc pt nonce alg kid piv aad key ct :
  create_aad alg kid piv MAX_AAD_LEN = Ok aad -> oscore_cose_encrypt cr pt nonce aad key = Ok ct ->
  cr_aead_enc cr key nonce (rfc_aad alg kid piv) 8 pt = Some ct.
Proof.
  intros HA HD. rewrite aad_is_rfc in HA. apply cbor_put_ok in HA as [-> _].
  unfold oscore_cose_encrypt in HD. apply bind_ok in HD as (? & _ & HD). apply bind_ok in HD as (a & EA & HD).
  rewrite enc_structure_is_rfc in EA. apply cbor_put_ok in EA as [-> _].
  change AUTH_TAG_LEN with 8 in HD. unfold rfc_aad. unfold ext in HD.
  destruct (cr_aead_enc cr key nonce _ 8 pt); [injection HD as ->; reflexivity|discriminate].
Qed.

Lemma type_request k : is_request k = true ->
  coap_get_message_type k = MREQUEST \/ coap_get_message_type k = MREGISTRATION \/ coap_get_message_type k = MCANCELLATION.
Proof.
  unfold coap_get_message_type. intros ->. destruct (get_observe_value _) as [[|v [|]]|]; auto.
  destruct (v =? 0); [auto|]. destruct (v =? 1); auto.
Qed.
Lemma type_response k : is_request k = false ->
  coap_get_message_type k = MRESPONSE \/ coap_get_message_type k = MNOTIFICATION.
Proof. unfold coap_get_message_type. intros ->. destruct (get_observe_value _); auto. Qed.

Lemma opened_authentic c input k o nn rpiv rkid nonce aad pt :
  lenN (c_iv c) = 13 -> table_ok (c_inter c) ->
  coap_deserialize input = Ok k -> oscore_option_parser (k_opts k) = Ok o ->
  (is_request k = true -> nn = Some o /\ kid_view o = Ok (c_rid c) /\ co_kid_len o = lenN (c_rid c)) ->
  (is_request k = false -> nn = resp_nn o) ->
  opened cr c nn k rpiv rkid nonce aad pt -> authentic cr c input k pt.
Proof.
  intros HI TL HP HO HQ HR (ER & EN & EA & ED).
  exists (co_piv o), nonce, rkid, rpiv. split; [split; [exact HP|exists o; auto]|].
  split; [eapply cose_decrypt_rfc; eassumption|].
  destruct (is_request k) eqn:RQ.
  - pose proof RQ as L. apply is_request_spec in L. apply N.ltb_lt in L. rewrite L.
    destruct (HQ eq_refl) as (-> & KV & KL). destruct EN as (kid & KV' & EN). rewrite KV in KV'. injection KV' as <-.
    apply create_nonce_rfc in EN as (_ & _ & ->); [|exact HI].
    assert (EP : (rpiv, rkid) = (co_piv o, takeN (co_kid_len o) (co_kid_mem o))).
    { apply type_request in RQ as [T|[T|T]]; rewrite T in ER; cbn in ER; congruence. }
    injection EP as -> ->. conj; auto.
    unfold kid_view in KV. apply slice_ok in KV as (_ & _ & ->). rewrite dropN_0. reflexivity.
  - assert (L : h_code (k_hdr k) <? 32 = false).
    { destruct (N.ltb_spec (h_code (k_hdr k)) 32) as [L|L]; [|reflexivity]. apply is_request_spec in L. congruence. }
    rewrite L. rewrite (HR eq_refl) in *. split.
    + assert (ER' : exists r, get_record (c_inter c) (k_token k) = Ok r /\ (rpiv, rkid) = (i_piv r, i_kid r)).
      { apply type_response in RQ as [T|T]; rewrite T in ER; cbn [read_wrapper] in ER;
          apply bind_ok in ER as (r & G & ER); exists r; (split; [exact G|congruence]). }
      destruct ER' as (r & G & EP). injection EP as -> ->. exists r.
      apply get_record_held in G; [|exact TL]. tauto.
    + unfold resp_nn in EN. destruct (co_piv o) as [|b t] eqn:EB.
      * exact EN.
      * rewrite lenN_cons. destruct (N.eqb_spec (1 + lenN t) 0); [lia|].
        destruct EN as (kid & _ & EN). rewrite EB in EN. exists kid. apply create_nonce_rfc in EN; tauto.
Qed.
End WithCrypto.
