(** Common vocabulary of the model: error codes, results with undefined
    behaviour, machine integers, byte strings. *)
From Coq Require Export NArith ZArith List Bool Lia.
From Coq Require Export ZifyBool ZifyNat ZifyN.
Export ListNotations.
#[global] Open Scope N_scope.
#[global] Open Scope list_scope.

Arguments N.add : simpl never.
Arguments N.sub : simpl never.
Arguments N.mul : simpl never.
Arguments N.div : simpl never.
Arguments N.modulo : simpl never.
Arguments N.pow : simpl never.
Arguments N.eqb : simpl never.
Arguments N.ltb : simpl never.
Arguments N.leb : simpl never.
Arguments N.lxor : simpl never.
Arguments N.of_nat : simpl never.
Arguments N.to_nat : simpl never.

(** inc/common/oscore_edhoc_error.h:17-82 [enum err], except [ok] which is the
    constructor [Ok] of [res] below. *)
Inductive err :=
| buffer_to_small | hkdf_failed | unexpected_result_from_ext_lib
| wrong_parameter | crypto_operation_not_implemented | not_supported_feature
| transport_deinitialized | not_implemented | vla_insufficient_size
| error_message_received | error_message_sent | sign_failed | sha_failed
| unsupported_cipher_suite | unsupported_ecdh_curve
| unsupported_signature_algorithm | signature_authentication_failed
| mac_authentication_failed | certificate_authentication_failed
| credential_not_found | no_such_ca | cbor_encoding_error
| cbor_decoding_error | suites_i_list_to_long | xor_error
| suites_i_list_empty
| not_oscore_pkt | first_request_after_reboot | echo_validation_failed
| oscore_unknown_hkdf | token_mismatch | oscore_invalid_algorithm_aead
| oscore_invalid_algorithm_hkdf | oscore_kid_recipient_id_mismatch
| too_many_options | oscore_valuelen_to_long_error
| oscore_inpkt_invalid_tkl | oscore_inpkt_invalid_option_delta
| oscore_inpkt_invalid_optionlen | oscore_inpkt_invalid_piv
| not_valid_input_packet | oscore_replay_window_protection_error
| oscore_replay_notification_protection_error | no_echo_option
| echo_val_mismatch | oscore_ssn_overflow | oscore_max_interactions
| oscore_interaction_duplicated_token | oscore_interaction_not_found
| oscore_wrong_uri_path.

(** Kinds of undefined behaviour the model distinguishes. *)
Inductive ub :=
| OobRead      (* a read, or a view used for reading, outside the object *)
| OobWrite     (* a write outside the object *)
| NullDeref    (* access through a null pointer *)
| Uninit       (* use of an object that was never written *).

(** Outcome of a C function returning [enum err]: [Ok] is [ok]. *)
Inductive res (A : Type) : Type :=
| Ok (a : A)
| Err (e : err)
| UB (u : ub).
Arguments Ok {A} a.
Arguments Err {A} e.
Arguments UB {A} u.

(** The [TRY] macro, inc/common/oscore_edhoc_error.h:86-93. *)
Definition bind {A B} (r : res A) (f : A -> res B) : res B :=
  match r with Ok a => f a | Err e => Err e | UB u => UB u end.
Notation "'let*' x ':=' r 'in' k" := (bind r (fun x => k))
  (at level 200, x pattern, right associativity).

Definition is_ok {A} (r : res A) : bool :=
  match r with Ok _ => true | _ => false end.
Definition is_ub {A} (r : res A) : bool :=
  match r with UB _ => true | _ => false end.

(** Machine integers. *)
Definition u8 (x : N) : N := x mod 2 ^ 8.
Definition u16 (x : N) : N := x mod 2 ^ 16.
Definition u32 (x : N) : N := x mod 2 ^ 32.
Definition u64 (x : N) : N := x mod 2 ^ 64.
(** [a - b] in [uint32_t], for [a b < 2^32]. *)
Definition sub32 (a b : N) : N := (a + 2 ^ 32 - b) mod 2 ^ 32.
(** [a - b] in [uint8_t], for [a b < 2^8]. *)
Definition sub8 (a b : N) : N := (a + 2 ^ 8 - b) mod 2 ^ 8.

(** Byte strings. *)
Notation bytes := (list N).
Definition lenN {A} (l : list A) : N := N.of_nat (length l).
Definition takeN {A} (n : N) (l : list A) : list A := firstn (N.to_nat n) l.
Definition dropN {A} (n : N) (l : list A) : list A := skipn (N.to_nat n) l.
Definition is_byte (b : N) : Prop := b < 256.
Definition is_bytes (l : bytes) : Prop := Forall is_byte l.

(** Read one byte of an object; outside is undefined behaviour. *)
Definition rd (l : bytes) (i : N) : res N :=
  match nth_error l (N.to_nat i) with Some b => Ok b | None => UB OobRead end.

(** View of [n] bytes starting at offset [i]; leaving the object is undefined
    behaviour. *)
Definition slice (l : bytes) (i n : N) : res bytes :=
  if i + n <=? lenN l then Ok (takeN n (dropN i l)) else UB OobRead.

(** Equality of byte strings, as decided by equal lengths and [memcmp] = 0. *)
Fixpoint beqb (a b : bytes) : bool :=
  match a, b with
  | [], [] => true
  | x :: a', y :: b' => (x =? y) && beqb a' b'
  | _, _ => false
  end.
