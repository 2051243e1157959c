(** Traffic between devices that restart: vocabulary for C66. *)
From Verif Require Import Base Model_Common Model_Crypto Model_Coap Spec_Coap Model_Interactions Spec_UriPath Spec_RoundTrip Spec_Protect
  Proof_RoundTrip Spec_Safe Spec_Traffic Model_Context Model_Net Spec_Net Model_Reboot.

(** What a device knows about the other one. [Booted]: nothing has been received since the
    start. [Asked v]: it has answered a request with the Echo value [v], to be repeated by
    the client (RFC 8613, B.1.2). [Synced]: requests are trusted. *)
Inductive stand := Booted | Asked (v : bytes) | Synced.

(** It sends a message. While it waits for an Echo value, the message must contain one,
    not longer than the last, and that is the one it waits for from then on. *)
Definition sends (s : stand) (m : message) (s' : stand) : Prop :=
  match s with
  | Asked w => exists v, echo_of m = Some v /\ lenN v <= lenN w /\ s' = Asked v
  | _ => s' = s
  end.

(** Whether a request is delivered. *)
Definition trusts (s : stand) (m : message) : bool :=
  match s with
  | Booted => false
  | Asked w => match echo_of m with Some v => beqb v w | None => false end
  | Synced => true
  end.
(** Room for the Echo value in the challenge sent otherwise. *)
Definition echo_room (s : stand) : N := match s with Asked w => lenN w | _ => 12 end.

(** The standing of one of the devices changes. *)
Definition upd (st : bool -> stand) (f : bool) (s : stand) : bool -> stand := fun b => if Bool.eqb b f then s else st b.

(** Sequence numbers used up at most by each device. *)
Definition price (e : occurrence) : N := match e with Restart _ _ _ _ => 20 | _ => 1 end.
Definition total_price (l : list occurrence) : N := fold_right (fun e n => price e + n) 0 l.

Section Course.
(** The keys under which the devices receive, which of them were initialised as fresh, the
    resources used, and the one resource for which a token is used. *)
Variable cr : crypto.
Variable key : bool -> bytes.
Variable is_fresh : bool -> bool.
Variable resources : list resource.
Variable owner : bytes -> resource.

(** The request [m] of the device [f] is within the limits. *)
Definition request_fits (q : transport) (m : message) : Prop :=
  good_message m (v_msg q) 8 (lenN (v_buf q)) /\ 0 < m_code m < 32 /\ lenN (v_msg q) <= lenN (v_out q) < 2 ^ 32 /\
  In (resource_of m) resources /\ owner (m_token m) = resource_of m /\ (forall x, v_nw q x = Ok tt).
(** The response, challenge or notification [m]. *)
Definition answer_fits (p : transport) (m : message) (olen : N) : Prop :=
  good_message m (v_msg p) olen (lenN (v_buf p)) /\ 32 <= m_code m /\ space m p /\ (forall x, v_nw p x = Ok tt).
(** What is delivered of it. *)
Definition arrives (p : transport) (m : message) (out : list bytes) : Prop :=
  if v_lost p then out = [] else exists o, rfc_message (received m) o /\ out = [o].

(** [course live st l outs]: the occurrences [l] are within the limits, and [outs] are the
    messages that have to be delivered in each of them; [live] are the tokens of
    observations known to both sides, [st true] and [st false] the standings of the two
    devices. A request that arrives is delivered when the server trusts it, and it is
    challenged otherwise. *)
Inductive course : (bytes -> Prop) -> (bool -> stand) -> list occurrence -> list (list bytes) -> Prop :=
| course_end live st : course live st [] []
| course_lost live st f q r h m s l outs :
    request_fits q m -> sends (st f) m s -> v_lost q = true ->
    course (fun t => live t /\ owner t <> resource_of m) (upd st f s) l outs ->
    course live st (Dialogue f q r h :: l) ([] :: outs)
| course_answered live st f q r h m m' s out l outs :
    request_fits q m -> sends (st f) m s -> v_lost q = false -> trusts (st (negb f)) m = true ->
    answer_fits r m' (if notifies m' then 8 else 0) -> m_token m' = m_token m -> arrives r m' out ->
    course (fun t => live t /\ owner t <> resource_of m \/ notifies m' = true /\ t = m_token m)
           (upd (upd st f s) (negb f) Synced) l outs ->
    course live st (Dialogue f q r h :: l) ((v_msg q :: out) :: outs)
| course_challenged live st f q r h m m' s v out l outs :
    request_fits q m -> sends (st f) m s -> v_lost q = false -> trusts (st (negb f)) m = false ->
    answer_fits h m' 8 -> m_token m' = m_token m -> notifies m' = false ->
    echo_of m' = Some v -> lenN v <= echo_room (st (negb f)) -> arrives h m' out ->
    course (fun t => live t /\ owner t <> resource_of m) (upd (upd st f s) (negb f) (Asked v)) l outs ->
    course live st (Dialogue f q r h :: l) (out :: outs)
| course_report (live : bytes -> Prop) st f p m s out l outs :
    answer_fits p m 8 -> notifies m = true -> live (m_token m) -> sends (st f) m s -> arrives p m out ->
    course live (upd st f s) l outs -> course live st (Report f p :: l) (out :: outs)
| course_intrusion live st f bs buf l outs :
    foreign cr (key f) bs buf -> course live st l outs -> course live st (Intrusion f bs buf :: l) ([] :: outs)
| course_restart live st f gn ge gf l outs :
    is_fresh f = false -> lenN ge = 12 -> course (fun _ => False) (upd st f Booted) l outs ->
    course live st (Restart f gn ge gf :: l) ([] :: outs).
End Course.
