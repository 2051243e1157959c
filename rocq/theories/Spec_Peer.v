(** Messages of a peer that holds the keys but does not follow RFC 8613 in what it puts
    inside, and messages changed on their way in the parts that are not protected. *)
From Verif Require Import Base Model_Crypto Spec_Coap Spec_OscoreOption Spec_Safe Spec_Cut.

(** [wire] is a CoAP message [w] with one OSCORE option, of value [o], whose payload is
    [pt], whatever that is, encrypted under [key], [nonce] and [aad] (RFC 8613, section 5). *)
Definition rfc_sealed (cr : crypto) (key nonce aad pt : bytes) (o : oscore_opt) (w : message) (wire : bytes) : Prop :=
  rfc_message w wire /\
  (exists osc before after, m_opts w = before ++ (9, osc) :: after /\
     Forall (fun p : N * bytes => fst p <> 9) (before ++ after) /\ rfc_oscore_value o osc /\ lenN osc <= 255) /\
  cr_aead_enc cr key nonce aad 8 pt = Some (m_payload w).

(** [starts_with n d]: [d] starts with [n] complete options (RFC 7252, section 3.1). *)
Inductive starts_with : N -> bytes -> Prop :=
| starts_none r : starts_with 0 r
| starts_option n dn dx x ln lx v r : rfc_field dn dx x -> rfc_field ln lx (lenN v) -> plain_len (lenN v) -> starts_with n r ->
    starts_with (n + 1) ((dn * 16 + ln) :: dx ++ lx ++ v ++ r).

(** Plaintexts that are not a message, or not one that fits: empty, more than ten options,
    ending inside of an option, or with a path that, together with Uri-Path options of the
    packet [w] around it, has exactly 30 bytes. *)
Inductive bad_inside (w : message) : bytes -> ub -> Prop :=
| bad_empty : bad_inside w [] NullDeref
| bad_many code body : starts_with 11 body -> bad_inside w (code :: body) OobWrite
| bad_cut code body n : cut n body -> n < 10 -> bad_inside w (code :: body) OobRead
| bad_path code inner obs payload : rfc_options 0 inner obs ->
    Forall plain_delta (deltas 0 inner) -> Forall (fun p => plain_len (lenN (snd p)) /\ fst p < 2 ^ 16) inner ->
    lenN inner <= 10 -> lenN (m_opts w) + lenN inner <= 20 -> path_size (m_opts w ++ inner) = 30 ->
    bad_inside w (code :: obs ++ marked payload) OobWrite.
