(** Messages protected by an implementation of RFC 8613, whichever it is; written from
    the RFC. *)
From Verif Require Import Base Model_Crypto Spec_Coap Spec_Options Spec_OscoreOption Spec_RoundTrip Spec_Protect.

(** Section 5.3: code, options of class E, payload. *)
Definition rfc_plaintext (m : message) (pt : bytes) : Prop :=
  exists obs, rfc_options 0 (map (inner_value (m_code m <? 32)) (inside_opts m)) obs /\
    pt = m_code m :: obs ++ marked (m_payload m).

(** Section 4.2: POST or FETCH, 2.04 or 2.05. *)
Definition outer_code (m : message) : N :=
  if m_code m <? 32 then (if notifies m then 5 else 2) else (if notifies m then 69 else 68).

(** The options outside the ciphertext, apart from the OSCORE option: those of class U
    and, if the message has one, an Observe option with a value of its own (4.1.3.5). *)
Definition any_observe (p : N * bytes) : N * bytes := if fst p =? 6 then (6, []) else p.

(** [wire] is message [m], protected with this key, nonce and additional data, with the
    OSCORE option [o] (sections 4 to 6). *)
Definition rfc_protected (cr : crypto) (key nonce aad : bytes) (m : message) (o : oscore_opt) (wire : bytes) : Prop :=
  exists w pt osc before after,
    rfc_message w wire /\
    m_ver w = m_ver m /\ m_type w = m_type m /\ m_mid w = m_mid m /\ m_token w = m_token m /\ m_code w = outer_code m /\
    m_opts w = before ++ (9, osc) :: after /\
    map any_observe (before ++ after) = map any_observe (outside_opts m) /\
    (forall v, In (6, v) (before ++ after) -> lenN v <= 3) /\
    rfc_oscore_value o osc /\ lenN osc <= 255 /\
    rfc_plaintext m pt /\ cr_aead_enc cr key nonce aad 8 pt = Some (m_payload w).
