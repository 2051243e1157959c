(** Ordinary CoAP exchanges: vocabulary for C54. *)
From Verif Require Import Base Model_Coap Spec_Coap Spec_Protect Proof_RoundTrip Model_App.

(** A message that can be protected with an OSCORE option of at most [olen] bytes: within
    the limits of C55 ([supported], [fits], [growth]). *)
Definition good_message (m : message) (bs : bytes) (olen cap : N) : Prop :=
  rfc_message m bs /\ supported m bs /\ is_bytes bs /\ growth m = 0 /\ fits m olen cap /\ cap < 2 ^ 16.

(** A request and a response to it (same token) that is not an Observe notification, and
    buffers large enough for both. *)
Definition good_exchange (x : exchange) : Prop :=
  exists m m', good_message m (x_request x) 8 (lenN (x_buf_c x)) /\ 0 < m_code m < 32 /\
    good_message m' (x_response x) 0 (lenN (x_buf_s' x)) /\ 32 <= m_code m' /\
    m_token m' = m_token m /\ notifies m' = false /\
    lenN (x_request x) <= lenN (x_buf_s x) < 2 ^ 32 /\ lenN (x_response x) <= lenN (x_buf_c' x) < 2 ^ 32.
