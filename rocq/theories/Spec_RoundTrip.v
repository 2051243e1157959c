(** Which CoAP messages are meant to survive protection and unprotection. *)
From Verif Require Import Base Spec_Coap Spec_Options Model_Coap Model_Interactions Spec_Interactions Spec_UriPath.

Definition is_class_u (n : N) : bool := existsb (N.eqb n) class_u_numbers.
(** Options that travel encrypted, options of class U, options visible outside. *)
Definition inside_opts (m : message) : list (N * bytes) := filter (fun p => negb (is_class_u (fst p))) (m_opts m).
Definition class_u_opts (m : message) : list (N * bytes) := filter (fun p => is_class_u (fst p)) (m_opts m).
Definition outside_opts (m : message) : list (N * bytes) :=
  filter (fun p => (fst p =? 6) || is_class_u (fst p)) (m_opts m).

(** Largest possible encoding of a list of options. *)
Definition opts_size (l : list (N * bytes)) : N := fold_right (fun p s => 5 + lenN (snd p) + s) 0 l.

(** What the receiver shall get: the message; in a response (code class not 0) the
    value of Observe is emptied (RFC 8613, 4.1.3.5.2). *)
Definition received (m : message) : message :=
  {| m_ver := m_ver m; m_type := m_type m; m_code := m_code m; m_mid := m_mid m; m_token := m_token m;
     m_opts := map (inner_value (m_code m <? 32)) (m_opts m); m_payload := m_payload m |}.
(** The message with another payload. *)
Definition with_payload (m : message) (q : bytes) : message :=
  {| m_ver := m_ver m; m_type := m_type m; m_code := m_code m; m_mid := m_mid m; m_token := m_token m;
     m_opts := m_opts m; m_payload := q |}.

(** ** Outstanding requests *)
Definition message_path (m : message) : list bytes := map snd (filter (fun p => fst p =? 11) (m_opts m)).
(** Requests of two kinds are kept apart: those that start or end an observation
    (Observe with value 0 or 1, RFC 7641, section 2) and all others. *)
Definition request_kind (m : message) : msg_type :=
  match find (fun p => fst p =? 6) (m_opts m) with
  | Some (_, []) => MREGISTRATION
  | Some (_, [v]) => if v <=? 1 then MREGISTRATION else MREQUEST
  | _ => MREQUEST
  end.
(** The record belongs to an earlier request of the same kind for the same path; the
    new request takes its place. *)
Definition concerns (x : inter) (m : message) : Prop :=
  i_type x = request_kind m /\ i_uri x = path_string (message_path m).
Definition record_for (m : message) (piv kid : bytes) : inter :=
  {| i_type := request_kind m; i_token := m_token m; i_uri := path_string (message_path m); i_piv := piv; i_kid := kid |}.
(** An endpoint can keep track of one more request: there is a free place, or one that
    this request takes over, and the token is not that of another outstanding request. *)
Definition room (t : itable) (m : message) : Prop :=
  (full t -> exists x, held t x /\ concerns x m) /\
  (forall x, held t x -> i_token x = m_token m -> concerns x m).
