(** C21: options that anyone adds to a protected message are delivered with those that were
    protected, for all keys and contexts. *)
From Verif Require Import Base Proof_Base Model_Common Model_Crypto Model_Cbor Model_OscorePrims Spec_OscorePrims Proof_OscorePrims
  Model_Coap Spec_Coap Proof_Coap Model_Interactions Model_Replay Model_Context Spec_Options Spec_OscoreOption
  Model_Send Model_Recv Model_Run Spec_Interactions Proof_Interactions Proof_Send Proof_Recv Spec_Session Proof_Run Proof_Session
  Spec_UriPath Spec_RoundTrip Proof_RoundTrip Spec_Protect Proof_Protect Proof_OscoreOption Spec_Interop Proof_Interop
  Spec_Safe Spec_Cut Spec_Peer Proof_Peer Spec_Injected Proof_Injected Model_Toy Proof_Toy Model_ToyRun Prop_Auth Prop_Safe Prop_Peer.

(** [pt] protects a message with this code, these options and this payload; the packet
    around it, [w], has options of its own. Everything fits into the arrays of the library
    and into the buffer of the caller. *)
Definition protects_in (w : message) (code : N) (inner : list (N * bytes)) (payload pt buf : bytes) : Prop :=
  (exists obs, rfc_options 0 inner obs /\ pt = code :: obs ++ marked payload) /\
  Forall plain_delta (deltas 0 inner) /\ Forall (fun p => plain_len (lenN (snd p)) /\ fst p < 2 ^ 16) inner /\
  is_bytes pt /\ lenN pt <= 1024 /\ lenN inner <= 10 /\
  options_room (m_opts w ++ inner) <= 100 /\ path_size (m_opts w ++ inner) < 30 /\
  lenN buf < 2 ^ 32 /\ 113 + lenN payload <= lenN buf.

(** A request with a class E option [(num, v)] outside of the ciphertext and not inside: the
    server accepts it and delivers the option. *)
Theorem C21_injected_refuted :
  forall (cr : crypto) (d : ctx) (o : oscore_opt) (w : message) (wire pt payload buf v : bytes) (code n num : N) (inner : list (N * bytes)),
  crypto_ok cr -> reachable cr d ->
  rfc_sealed cr (c_rkey d) (rfc_nonce (c_rid d) (oo_piv o) (c_iv d)) (rfc_aad (c_alg d) (c_rid d) (oo_piv o)) pt o w wire ->
  protects_in w code inner payload pt buf -> code < 32 ->
  parsable w wire -> is_bytes wire -> lenN wire < 2 ^ 32 -> m_code w < 32 ->
  oo_kid o = Some (c_rid d) -> minimal_be n (oo_piv o) -> lenN (c_rid d) + lenN (oo_piv o) <= 7 ->
  c_ssn d < OSCORE_SSN_OVERFLOW_VALUE -> c_echo d = ECHO_SYNCHRONIZED -> rw_valid n (c_win d) = true ->
  ~ full (c_inter d) -> (forall x, held (c_inter d) x -> i_token x <> m_token w) ->
  goes_inside num -> num <> 6 -> In (num, v) (m_opts w) -> ~ In (num, v) inner ->
  exists d' m out, oscore2coap cr d wire buf = (d', written out buf, Ok (lenN out)) /\ rfc_message m out /\
    m_code m = code /\ m_payload m = payload /\ (forall p, In p inner -> In p (m_opts m)) /\ In (num, v) (m_opts m).
Proof.
  intros cr d o w wire pt payload buf v code n num inner OK RD RS ((obs & IO & ->) & DI & FI & PB & LP & LI & RM & PSZ & LB2 & LB)
    CC PO HB HL HC OKID MB LK SD SE SW NF NT GI N6 IW _. destruct (reachable_both cr d OK RD) as [UD KD].
  destruct (injected_request cr d o w wire code inner obs payload n buf) as (d' & m & out & R & RM' & MC & _ & MP & MO); try assumption.
  exists d', m, out. split; [exact R|]. split; [exact RM'|]. split; [exact MC|]. split; [exact MP|]. split.
  - intros p I. apply MO. left. exact I.
  - apply MO. right. split; [exact IW|]. cbn [fst]. split; [|exact N6]. intros ->. apply GI. cbn. tauto.
Qed.
Print Assumptions C21_injected_refuted.

(** The same for the response to an outstanding request [x]. *)
Theorem C21_injected_response_refuted :
  forall (cr : crypto) (d : ctx) (x : inter) (o : oscore_opt) (w : message) (wire pt payload buf v : bytes) (code num : N) (inner : list (N * bytes)),
  crypto_ok cr -> reachable cr d ->
  rfc_sealed cr (c_rkey d) (c_nonce d) (rfc_aad (c_alg d) (i_kid x) (i_piv x)) pt o w wire ->
  protects_in w code inner payload pt buf -> 32 <= code ->
  parsable w wire -> is_bytes wire -> lenN wire < 2 ^ 32 -> 32 <= m_code w -> ~ In 6 (map fst (m_opts w)) ->
  oo_piv o = [] -> held (c_inter d) x -> i_token x = m_token w -> lenN (i_kid x) + lenN (i_piv x) <= 7 ->
  c_ssn d < OSCORE_SSN_OVERFLOW_VALUE ->
  goes_inside num -> In (num, v) (m_opts w) -> ~ In (num, v) inner ->
  exists d' m out, oscore2coap cr d wire buf = (d', written out buf, Ok (lenN out)) /\ rfc_message m out /\
    m_code m = code /\ m_payload m = payload /\ (forall p, In p inner -> In p (m_opts m)) /\ In (num, v) (m_opts m).
Proof.
  intros cr d x o w wire pt payload buf v code num inner OK RD RS ((obs & IO & ->) & DI & FI & PB & LP & LI & RM & PSZ & LB2 & LB)
    CC PO HB HL HC NO NP HX TX LK SD GI IW _. destruct (reachable_both cr d OK RD) as [UD KD].
  destruct (injected_response cr d o w wire code inner obs payload x buf) as (d' & m & out & R & RM' & MC & _ & MP & MO); try assumption.
  { apply not_true_is_false. intros E. apply NO. apply existsb_exists in E as (p & I & E). apply N.eqb_eq in E. rewrite <- E. apply in_map. exact I. }
  exists d', m, out. split; [exact R|]. split; [exact RM'|]. split; [exact MC|]. split; [exact MP|]. split.
  - intros p I. apply MO. left. exact I.
  - apply MO. right. split; [exact IW|]. cbn [fst]. split.
    + intros ->. apply GI. cbn. tauto.
    + intros ->. apply NO. change 6 with (fst (6, v)). apply in_map. exact IW.
Qed.
Print Assumptions C21_injected_response_refuted.

(** A GET without any options, to which a path of 27 characters is added. *)
Definition toy_wide : bytes := repeat 0 200.
Example C21_injected_hypotheses :
  let w := toy_sealed [1] [(11, toy_a27)] in
  let wire := toy_sealed_wire [1] ([0x2d; 14] ++ toy_a27) in
  crypto_ok toy_crypto /\ reachable toy_crypto toy_server /\
  rfc_sealed toy_crypto (c_rkey toy_server) (rfc_nonce (c_rid toy_server) [0] (c_iv toy_server)) (rfc_aad (c_alg toy_server) (c_rid toy_server) [0])
    [1] toy_opt w wire /\
  protects_in w 1 [] [] [1] toy_wide /\ parsable w wire /\ is_bytes wire /\ lenN wire < 2 ^ 32 /\
  oo_kid toy_opt = Some (c_rid toy_server) /\ minimal_be 0 (oo_piv toy_opt) /\ c_ssn toy_server < OSCORE_SSN_OVERFLOW_VALUE /\
  c_echo toy_server = ECHO_SYNCHRONIZED /\ rw_valid 0 (c_win toy_server) = true /\
  ~ full (c_inter toy_server) /\ (forall x, ~ held (c_inter toy_server) x) /\ goes_inside 11 /\ In (11, toy_a27) (m_opts w).
Proof.
  cbv zeta. split; [exact toy_ok|]. split; [exact toy_server_reachable|].
  destruct (toy_sealed_ok [1] [(11, toy_a27)] ([0x2d; 14] ++ toy_a27)) as [S P]; [repeat constructor|apply N.leb_le; reflexivity|right; split; reflexivity|].
  split; [exact S|]. split.
  { split; [exists []; split; [constructor|reflexivity]|]. split; [constructor|]. split; [constructor|]. split; [repeat constructor|].
    repeat (split; [apply N.leb_le; vm_compute; reflexivity|]).
    split; [apply N.ltb_lt; vm_compute; reflexivity|]. split; [apply N.ltb_lt; vm_compute; reflexivity|apply N.leb_le; vm_compute; reflexivity]. }
  split; [exact P|]. split; [apply is_bytes_dec; vm_compute; reflexivity|]. split; [vm_compute; reflexivity|]. split; [vm_compute; reflexivity|].
  split; [repeat split; try (vm_compute; reflexivity); try (apply N.leb_le; vm_compute; reflexivity); repeat constructor|].
  do 3 (split; [vm_compute; reflexivity|]).
  assert (E : c_inter toy_server = [None; None; None]) by (vm_compute; reflexivity). rewrite E.
  split; [intros F; apply F; left; reflexivity|]. split.
  - intros x H. unfold held in H. cbn in H. intuition discriminate.
  - split; [intros H; cbn in H; intuition discriminate|right; left; reflexivity].
Qed.

(** The answer 2.05 to the client's request, to which Max-Age 60 (option 14) is added. *)
Definition toy_aged_ct : bytes := [69] ++ toy_tag (c_rkey toy_waiting) (c_nonce toy_waiting) (rfc_aad 10 [1] [0]) [69] 8.
Definition toy_aged : message :=
  {| m_ver := 1; m_type := 2; m_code := 68; m_mid := 5; m_token := [5]; m_opts := [(9, []); (14, [60])]; m_payload := toy_aged_ct |}.
Definition toy_aged_wire : bytes := [0x61; 68; 0; 5; 5; 0x90; 0x51; 60; 255] ++ toy_aged_ct.
Example C21_injected_response_hypotheses :
  exists x, reachable toy_crypto toy_waiting /\
  rfc_sealed toy_crypto (c_rkey toy_waiting) (c_nonce toy_waiting) (rfc_aad (c_alg toy_waiting) (i_kid x) (i_piv x)) [69] oo_empty toy_aged toy_aged_wire /\
  protects_in toy_aged 69 [] [] [69] toy_wide /\
  parsable toy_aged toy_aged_wire /\ is_bytes toy_aged_wire /\ ~ In 6 (map fst (m_opts toy_aged)) /\
  held (c_inter toy_waiting) x /\ i_token x = m_token toy_aged /\ lenN (i_kid x) + lenN (i_piv x) <= 7 /\
  c_ssn toy_waiting < OSCORE_SSN_OVERFLOW_VALUE /\ goes_inside 14 /\ In (14, [60]) (m_opts toy_aged).
Proof.
  exists {| i_type := MREQUEST; i_token := [5]; i_uri := [97]; i_piv := [0]; i_kid := [1] |}. cbn [i_kid i_piv i_token].
  split; [exists (toy_params [1] [2] true), (Ok 0), (repeat 0 13), (repeat 0 12), 0, toy_client, [ASend toy_nw (toy_get 5) toy_out]; split; vm_compute; reflexivity|].
  split; [split; [|split]|].
  - unfold rfc_message. cbn [toy_aged m_ver m_type m_code m_mid m_token m_opts m_payload]. do 4 (split; [reflexivity|]). split; [apply N.leb_le; reflexivity|].
    exists (0x90 :: 0x51 :: 60 :: 255 :: toy_aged_ct). split; [|reflexivity]. exists [0x90; 0x51; 60]. split; [|vm_compute; reflexivity].
    refine (rfc_cons 0 9 [] 9 [] 0 [] _ _ _ _ _ _); [apply N.leb_le; reflexivity|apply (field_short 9); reflexivity|apply (field_short 0); reflexivity|].
    refine (rfc_cons 9 14 [60] 5 [] 1 [] _ _ _ _ _ _); [apply N.leb_le; reflexivity|apply (field_short 5); reflexivity|apply (field_short 1); reflexivity|constructor].
  - exists [], [], [(14, [60])]. split; [reflexivity|]. split; [repeat constructor; discriminate|]. split; [constructor|apply N.leb_le; reflexivity].
  - vm_compute. reflexivity.
  - split.
    { split; [exists []; split; [constructor|reflexivity]|]. split; [constructor|]. split; [constructor|]. split; [repeat constructor|].
      repeat (split; [apply N.leb_le; vm_compute; reflexivity|]).
      split; [apply N.ltb_lt; vm_compute; reflexivity|]. split; [apply N.ltb_lt; vm_compute; reflexivity|apply N.leb_le; vm_compute; reflexivity]. }
    split; [unfold parsable; split; [repeat constructor|split; [repeat constructor|split; [repeat constructor|split; [apply N.leb_le; reflexivity|vm_compute; reflexivity]]]]|].
    split; [apply is_bytes_dec; vm_compute; reflexivity|].
    split; [intros [X|[X|[]]]; discriminate X|]. split.
    { assert (E : nth_error (c_inter toy_waiting) 0 = Some (Some {| i_type := MREQUEST; i_token := [5]; i_uri := [97]; i_piv := [0]; i_kid := [1] |}))
        by (vm_compute; reflexivity). exact (nth_error_In _ _ E). }
    split; [reflexivity|]. split; [apply N.leb_le; reflexivity|]. split; [vm_compute; reflexivity|].
    split; [intros H; cbn in H; intuition discriminate|right; left; reflexivity].
Qed.
