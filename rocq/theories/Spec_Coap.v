(** CoAP message format (RFC 7252, section 3), written from the RFC as a
    relation between messages and byte strings. Options are pairs
    (option number, value). *)
From Verif Require Import Base.

(** RFC 7252, 3.1: a 4-bit field with its extension bytes denotes a number. *)
Inductive rfc_field : N -> bytes -> N -> Prop :=
| field_short n : n < 13 -> rfc_field n [] n
| field_ext8 b : b < 256 -> rfc_field 13 [b] (b + 13)
| field_ext16 hi lo : hi < 256 -> lo < 256 -> rfc_field 14 [hi; lo] (hi * 256 + lo + 269).

(** Sequence of options after an option with number [prev]. *)
Inductive rfc_options : N -> list (N * bytes) -> bytes -> Prop :=
| rfc_nil prev : rfc_options prev [] []
| rfc_cons prev num v dn dx ln lx rest bs :
    prev <= num ->
    rfc_field dn dx (num - prev) ->
    rfc_field ln lx (lenN v) ->
    rfc_options num rest bs ->
    rfc_options prev ((num, v) :: rest) ((dn * 16 + ln) :: dx ++ lx ++ v ++ bs).

(** Options followed by marker and payload; an empty payload has no marker. *)
Definition marked (payload : bytes) : bytes :=
  match payload with [] => [] | _ => 255 :: payload end.

Definition rfc_body (opts : list (N * bytes)) (payload body : bytes) : Prop :=
  exists obs, rfc_options 0 opts obs /\ body = obs ++ marked payload.

(** A message: version, type, code, message id, token, options, payload. *)
Record message := { m_ver : N; m_type : N; m_code : N; m_mid : N;
                    m_token : bytes; m_opts : list (N * bytes); m_payload : bytes }.

Definition rfc_message (m : message) (bs : bytes) : Prop :=
  m_ver m < 4 /\ m_type m < 4 /\ m_code m < 256 /\ m_mid m < 2 ^ 16 /\ lenN (m_token m) <= 8 /\
  exists body, rfc_body (m_opts m) (m_payload m) body /\
    bs = [m_ver m * 64 + m_type m * 16 + lenN (m_token m); m_code m; m_mid m / 256; m_mid m mod 256]
         ++ m_token m ++ body.

(** Option numbers in ascending order, as CoAP requires, starting at [prev]. *)
Inductive ascending : N -> list (N * bytes) -> Prop :=
| asc_nil prev : ascending prev []
| asc_cons prev n v rest : prev <= n -> ascending n rest -> ascending prev ((n, v) :: rest).

(** Distances between neighbouring option numbers. *)
Fixpoint deltas (prev : N) (opts : list (N * bytes)) : list N :=
  match opts with
  | [] => []
  | (n, _) :: rest => (n - prev) :: deltas n rest
  end.
