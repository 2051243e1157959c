(** What is required of the OSCORE API, in terms of received and sent messages. *)
From Verif Require Import Base Model_Common Model_Crypto Model_Coap Model_Interactions Model_Context Model_Recv Model_Run
  Spec_CborTree Spec_OscorePrims Spec_Interactions.

(** Reading of a received packet. *)
Definition packet (input : bytes) (k : cpkt) (piv : bytes) : Prop :=
  coap_deserialize input = Ok k /\
  exists o, oscore_option_parser (k_opts k) = Ok o /\ co_piv o = piv.
Definition request_packet (input piv : bytes) : Prop :=
  exists k, packet input k piv /\ h_code (k_hdr k) < 32.
Definition response_packet (input piv : bytes) (observe : bool) : Prop :=
  exists k, packet input k piv /\ 32 <= h_code (k_hdr k) /\
    (observe = true <-> exists o, In o (k_opts k) /\ o_num o = 6).

(** Protected by the peer: the AEAD accepts the payload of the packet under the
    recipient key, with the nonce of RFC 8613 section 5.2 and the AAD of section
    5.4, where (request_kid, request_piv) are those of the request itself, or of
    the outstanding request with the same token. *)
Definition rfc_aad (alg : Z) (kid piv : bytes) : bytes :=
  cbor (rfc_enc_structure (cbor (rfc_external_aad alg kid piv))).
Definition authentic (cr : crypto) (c : ctx) (input : bytes) (k : cpkt) (pt : bytes) : Prop :=
  exists piv nonce rkid rpiv,
    packet input k piv /\
    cr_aead_dec cr (c_rkey c) nonce (rfc_aad (c_alg c) rkid rpiv) 8 (k_payload k) = Some pt /\
    if h_code (k_hdr k) <? 32 then
      rkid = c_rid c /\ rpiv = piv /\ nonce = rfc_nonce (c_rid c) piv (c_iv c)
    else
      (exists r, held (c_inter c) r /\ i_token r = k_token k /\ rkid = i_kid r /\ rpiv = i_piv r) /\
      (if lenN piv =? 0 then nonce = c_nonce c else exists kid, nonce = rfc_nonce kid piv (c_iv c)).

(** A message sent without a Partial IV of its own: a response that is not a
    notification (RFC 8613 section 8.3), outside the Echo exchange. *)
Definition plain_response (c : ctx) (input : bytes) : Prop :=
  c_echo c <> ECHO_VERIFY /\
  exists k, coap_deserialize input = Ok k /\ 32 <= h_code (k_hdr k) /\ ~ (exists o, In o (k_opts k) /\ o_num o = 6).

(** A call of oscore2coap that succeeds and leaves context [c']. *)
Definition accepts (cr : crypto) (c : ctx) (input buf : bytes) (c' : ctx) : Prop :=
  exists buf' n, oscore2coap cr c input buf = (c', buf', Ok n).
(** [c'] is the context after some calls on context [c]. *)
Definition later (cr : crypto) (c c' : ctx) : Prop := exists calls, fst (run cr c calls) = c'.

(** ** Replying promptly *)
(** AEAD nonces used under the sender key by a call. *)
Definition nonce_of (o : obs) : list bytes :=
  match ob_enc o with Some (n, _, _) => [n] | None => [] end.
(** Executions in which a response without Partial IV is only sent directly after
    the request it answers was accepted: [prompt c ns c'] goes from [c] to [c'] and
    uses the nonces [ns]. The request must carry a one-byte Partial IV, or complete
    the Echo exchange (these are the requests that cannot be replayed, C04). *)
Inductive prompt (cr : crypto) : ctx -> list bytes -> ctx -> Prop :=
| prompt_end c : prompt cr c [] c
| prompt_recv c input buf c1 o ns c' :
    exec cr c (ARecv input buf) = (c1, o) -> prompt cr c1 ns c' -> prompt cr c ns c'
| prompt_send c nw input buf c1 o ns c' :
    exec cr c (ASend nw input buf) = (c1, o) -> ~ plain_response c input ->
    prompt cr c1 ns c' -> prompt cr c (nonce_of o ++ ns) c'
| prompt_reply c input buf piv c1 nw resp buf2 c2 o ns c' :
    is_bytes input -> lenN input < 2 ^ 32 -> request_packet input piv ->
    accepts cr c input buf c1 -> (lenN piv = 1 \/ c_echo c = ECHO_VERIFY) ->
    exec cr c1 (ASend nw resp buf2) = (c2, o) ->
    prompt cr c2 ns c' -> prompt cr c (nonce_of o ++ ns) c'.

(** ** Echo exchange after a reboot *)
(** The plaintext carries the Echo option (number 252) with value [v], the first one
    if there are several. *)
Definition echo_in (pt v : bytes) : Prop :=
  exists code body opts payload before o after,
    pt = code :: body /\ options_deserialize body 10 = Ok (opts, payload) /\
    opts = before ++ o :: after /\ o_num o = 252 /\ o_val o = v /\ Forall (fun x => o_num x <> 252) before.
(** Among [calls], starting in [c0], is one that handed coap2oscore a message with
    Echo value [v] while the endpoint was waiting to verify an Echo value. *)
Definition challenged (cr : crypto) (c0 : ctx) (calls : list api_call) (v : bytes) : Prop :=
  exists pre nw input buf post k o,
    calls = pre ++ ASend nw input buf :: post /\ c_echo (fst (run cr c0 pre)) = ECHO_VERIFY /\
    coap_deserialize input = Ok k /\ In o (k_opts k) /\ o_num o = 252 /\ o_val o = v.
(** The messages sent are byte strings. *)
Definition input_ok (a : api_call) : Prop :=
  match a with ASend _ input _ => is_bytes input /\ lenN input < 2 ^ 32 | ARecv _ _ => True end.
