(** What two endpoints with the same Master Secret may conclude from a delivered
    message: who sent it, what the sender passed to the API, and which request a
    response answers. *)
From Verif Require Import Base Model_Common Model_Crypto Model_Coap Model_Interactions Model_Context Model_Recv Model_Run
  Spec_CborTree Spec_OscorePrims Spec_Interactions Spec_Coap Spec_Options Spec_RoundTrip Spec_Session.

(** Contexts of two endpoints: same Master Secret, Master Salt and ID Context, and the
    sender ID of one is the recipient ID of the other. *)
Definition paired (cr : crypto) (a b : ctx) : Prop :=
  exists p q nvm1 nvm2 gn1 ge1 gf1 gn2 ge2 gf2,
    ip_secret q = ip_secret p /\ ip_salt q = ip_salt p /\ ip_id_context q = ip_id_context p /\
    ip_sender_id q = ip_recipient_id p /\ ip_recipient_id q = ip_sender_id p /\ ip_sender_id p <> ip_recipient_id p /\
    oscore_context_init cr p nvm1 gn1 ge1 gf1 = Ok a /\ oscore_context_init cr q nvm2 gn2 ge2 gf2 = Ok b.

(** Call [x] was made after the calls [pre] of the history [calls] that starts in
    context [c0], in context [c], and did [o]. *)
Definition happened (cr : crypto) (c0 : ctx) (calls pre : list api_call) (x : api_call) (c : ctx) (o : obs) : Prop :=
  (exists post, calls = pre ++ x :: post) /\
  fst (run cr c0 pre) = c /\ Forall (fun o => is_ub (ob_res o) = false) (snd (run cr c0 pre)) /\
  snd (exec cr c x) = o.

(** A call of coap2oscore with message [msg] that encrypted [pt] under nonce [nonce]
    with the AAD [A]. *)
Definition sealed (cr : crypto) (c0 : ctx) (calls pre : list api_call) (msg : bytes) (c : ctx) (nonce A pt : bytes) : Prop :=
  exists nw buf o a, happened cr c0 calls pre (ASend nw msg buf) c o /\
    ob_enc o = Some (nonce, a, pt) /\ A = cbor (rfc_enc_structure a).

(** The AEAD decryption that the recipient of the packet [input] performs in context
    [c], if it succeeds: nonce, AAD, plaintext. *)
Definition decrypts (cr : crypto) (c : ctx) (input nonce A pt : bytes) : Prop :=
  exists k o rkid rpiv,
    coap_deserialize input = Ok k /\ oscore_option_parser (k_opts k) = Ok o /\
    A = rfc_aad (c_alg c) rkid rpiv /\
    cr_aead_dec cr (c_rkey c) nonce A 8 (k_payload k) = Some pt /\
    if h_code (k_hdr k) <? 32 then
      rkid = c_rid c /\ rpiv = co_piv o /\ nonce = rfc_nonce (c_rid c) (co_piv o) (c_iv c)
    else
      (exists r, held (c_inter c) r /\ i_token r = k_token k /\ rkid = i_kid r /\ rpiv = i_piv r) /\
      (if lenN (co_piv o) =? 0 then nonce = c_nonce c
       else nonce = rfc_nonce (takeN (co_kid_len o) (co_kid_mem o)) (co_piv o) (c_iv c)).

(** The packet is no AEAD forgery: what the recipient's decryption accepts was
    encrypted, with this nonce and AAD, by a call of the peer. *)
Definition unforged (cr : crypto) (c : ctx) (input : bytes) (peer : ctx) (calls : list api_call) : Prop :=
  forall nonce A pt, decrypts cr c input nonce A pt -> exists pre msg cs, sealed cr peer calls pre msg cs nonce A pt.

(** [m], delivered from a packet with the outer options [outer], has the content of
    the message [ms]: code, payload, the options of class E and Observe; besides them
    only options from outside. *)
Definition same_content (outer : list (N * bytes)) (ms m : message) : Prop :=
  m_code m = m_code ms /\ m_payload m = m_payload ms /\
  forall num v, In (num, v) (m_opts m) <->
    In (num, v) (inside_opts (received ms)) \/ (In (num, v) outer /\ num <> 9 /\ num <> 6).

Definition token_of (input token : bytes) : Prop := exists k, coap_deserialize input = Ok k /\ k_token k = token.
Definition code_of (input : bytes) (code : N) : Prop := exists k, coap_deserialize input = Ok k /\ h_code (k_hdr k) = code.

(** The application handed coap2oscore a response with the token of a request it had
    sent itself and that was outstanding. *)
Definition answers_own (cr : crypto) (c0 : ctx) (calls : list api_call) : Prop :=
  exists pre nw msg buf c o k r, happened cr c0 calls pre (ASend nw msg buf) c o /\
    coap_deserialize msg = Ok k /\ 32 <= h_code (k_hdr k) /\ held (c_inter c) r /\ i_token r = k_token k /\ i_kid r = c_sid c.
