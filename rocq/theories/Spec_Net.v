(** Traffic over a network that loses packets, with observations and packets of others:
    vocabulary for C63. *)
From Verif Require Import Base Model_Common Model_Crypto Model_Coap Spec_Coap Model_Interactions Spec_UriPath Spec_RoundTrip Spec_Protect
  Proof_RoundTrip Spec_Safe Spec_Traffic Model_Context Model_Net.

(** A resource as the endpoints tell them apart, and the one a request is for. *)
Notation resource := (msg_type * bytes)%type.
Definition resource_of (m : message) : resource := (request_kind m, path_string (message_path m)).

(** A packet made by somebody who does not have the key [key] of the receiver: the AEAD
    does not accept its payload, whatever nonce and AAD are used. What it announces lies
    inside of it (C57). *)
Definition foreign (cr : crypto) (key bs buf : bytes) : Prop :=
  exists opts payload, packet bs opts payload /\ 112 < lenN buf /\ lenN buf < 2 ^ 32 /\
    (forall v, In (9, v) opts -> osc_reserved v \/
       exists piv kid, osc_value v piv kid /\ (is_req bs \/ piv = [] \/ lenN kid <= 7)) /\
    (forall nonce a, cr_aead_dec cr key nonce a 8 payload = None).

(** The receiver has room for the response or notification. *)
Definition space (m : message) (v : transport) : Prop :=
  (forall o, rfc_message (received m) o -> lenN o <= lenN (v_out v)) /\ lenN (v_out v) < 2 ^ 32.

Section Plan.
(** The keys under which the first and the second endpoint receive, the resources used,
    and the one resource for which a token is used. *)
Variable cr : crypto.
Variables key1 key2 : bytes.
Variable resources : list resource.
Variable owner : bytes -> resource.

(** [plan live l outs]: the events [l] are within the limits, and [outs] are the messages
    that have to be delivered in each of them; [live] are the tokens of observations
    known to both sides. A new request for a resource ends the observation of that
    resource, whether it arrives or not. An observation (again) starts when the request
    arrives and is answered with a notification. *)
Inductive plan : (bytes -> Prop) -> list event -> list (list bytes) -> Prop :=
| plan_end live : plan live [] []
| plan_exchange live f q p m m' l out outs :
    good_message m (v_msg q) 8 (lenN (v_buf q)) -> 0 < m_code m < 32 -> lenN (v_msg q) <= lenN (v_out q) < 2 ^ 32 ->
    In (resource_of m) resources -> owner (m_token m) = resource_of m ->
    good_message m' (v_msg p) (if notifies m' then 8 else 0) (lenN (v_buf p)) -> 32 <= m_code m' -> space m' p ->
    m_token m' = m_token m ->
    (if v_lost q then out = []
     else if v_lost p then out = [v_msg q]
     else exists o, rfc_message (received m') o /\ out = [v_msg q; o]) ->
    plan (fun t => live t /\ owner t <> resource_of m \/ v_lost q = false /\ notifies m' = true /\ t = m_token m) l outs ->
    plan live (Exchange f q p :: l) (out :: outs)
| plan_notification (live : bytes -> Prop) f p m l out outs :
    good_message m (v_msg p) 8 (lenN (v_buf p)) -> 32 <= m_code m -> notifies m = true -> space m p ->
    live (m_token m) ->
    (if v_lost p then out = [] else exists o, rfc_message (received m) o /\ out = [o]) ->
    plan live l outs -> plan live (Notification f p :: l) (out :: outs)
| plan_injected live f bs buf l outs :
    foreign cr (if f : bool then key1 else key2) bs buf ->
    plan live l outs -> plan live (Injected f bs buf :: l) ([] :: outs).
End Plan.
