(** When an endpoint is able to protect a message: vocabulary for C55. *)
From Verif Require Import Base Model_Common Model_OscorePrims Model_Coap Spec_Coap Model_Interactions Model_Context Spec_Options
  Spec_Interactions Spec_RoundTrip Spec_UriPath.

(** Bytes that extend the delta of an option (RFC 7252, 3.1). *)
Definition ext_bytes (d : N) : N := if d <? 13 then 0 else if d <? 269 then 1 else 2.

(** How many bytes longer the inner options get because the class-U options between
    them are taken out: [prev] is the number of the preceding option of the message,
    [prev_in] that of the preceding inner option. *)
Fixpoint grows (prev prev_in : N) (l : list (N * bytes)) : N :=
  match l with
  | [] => 0
  | (n, v) :: r =>
      if is_class_u n then grows n prev_in r
      else ext_bytes (n - prev_in) - ext_bytes (n - prev) + grows n n r
  end.
Definition growth (m : message) : N := grows 0 0 (m_opts m).
(** Space is reserved for the inner options as they were, and for a marker and the
    payload behind them. Grown by just the size of these, the options fill all of it. *)
Definition squeezed_out (m : message) : bool := negb (lenN (m_payload m) =? 0) && (growth m =? lenN (m_payload m) + 1).
(** What is left of the payload. *)
Definition arriving (m : message) : bytes := if growth m =? 0 then m_payload m else [].

(** Length of the Partial IV of a sequence number of an OSCORE context (at most 2^23). *)
Definition piv_len (n : N) : N := if n <? 256 then 1 else if n <? 65536 then 2 else 3.
(** Length of the OSCORE option value that announces Partial IV, kid and kid context. *)
Definition oscore_value_len (piv kid ctx : N) : N := 1 + piv + kid + (if ctx =? 0 then 0 else 1 + ctx).

(** Limits on a message that do not depend on the context: payload, path, room for the
    visible options and the OSCORE option ([olen] bytes), output buffer. *)
Definition fits (m : message) (olen cap : N) : Prop :=
  lenN (m_payload m) <= 922 /\ segs_size (message_path m) < 30 /\
  opts_size (outside_opts m) + 5 + olen <= 100 /\ lenN (m_payload m) + 223 <= cap.

(** The endpoint may take a new sequence number. *)
Definition may_number (nw : N -> res unit) (c : ctx) : Prop :=
  c_ssn c < OSCORE_SSN_OVERFLOW_VALUE /\ (c_fresh c = true \/ forall v, nw v = Ok tt) /\
  oscore_value_len (piv_len (c_ssn c)) (lenN (c_sid c)) (lenN (c_id_context c)) <= 23.

(** The value of the first Echo option of a message (RFC 9175, 2.2.1: option 252). *)
Definition echo_of (m : message) : option bytes := option_map snd (find (fun p => fst p =? 252) (m_opts m)).
(** The endpoint has sent an Echo value, or is about to, and waits for its return. *)
Definition verifying (c : ctx) : bool := match c_echo c with ECHO_VERIFY => true | _ => false end.
(** While it does, everything it sends has to carry an Echo option, not longer than the
    last one. *)
Definition echo_ready (c : ctx) (m : message) : Prop :=
  verifying c = true -> exists v, echo_of m = Some v /\ lenN v <= c_echo_len c /\ lenN v <= lenN (c_echo_buf c).

(** It may send this request. *)
Definition may_request (nw : N -> res unit) (c : ctx) (m : message) : Prop :=
  may_number nw c /\ echo_ready c m /\ lenN (c_sid c) + piv_len (c_ssn c) <= 7 /\ room (c_inter c) m.

(** It may answer the request with the token of this response. A notification takes a
    sequence number, and so does every response while an Echo value is awaited. *)
Definition notifies (m : message) : bool := existsb (fun p => fst p =? 6) (m_opts m).
Definition takes_number (c : ctx) (m : message) : bool := notifies m || verifying c.
Definition may_respond (nw : N -> res unit) (c : ctx) (m : message) : Prop :=
  c_ssn c < OSCORE_SSN_OVERFLOW_VALUE /\ echo_ready c m /\
  (if takes_number c m then may_number nw c /\ lenN (c_sid c) <= 7 else lenN (c_nonce c) = 13) /\
  exists x, held (c_inter c) x /\ i_token x = m_token m /\ lenN (i_kid x) + lenN (i_piv x) <= 7.

(** Length of the OSCORE option value in the next request, and in a response. *)
Definition request_olen (c : ctx) : N := oscore_value_len (piv_len (c_ssn c)) (lenN (c_sid c)) (lenN (c_id_context c)).
Definition response_olen (c : ctx) (m : message) : N := if takes_number c m then request_olen c else 0.
