(** The path of a CoAP request as one string: the Uri-Path values separated by
    '/', and "/" when there is none (RFC 7252, section 6.5, steps 6-7 without the
    leading slash). *)
From Verif Require Import Base Model_Coap.

Fixpoint join_path (segs : list bytes) : bytes :=
  match segs with
  | [] => []
  | v :: rest => match rest with [] => v | _ => v ++ 47 :: join_path rest end
  end.
Definition path_string (segs : list bytes) : bytes :=
  match segs with [] => [47] | _ => join_path segs end.

(** Values of the Uri-Path options (number 11), in order. *)
Definition path_segments (opts : list copt) : list bytes :=
  map o_val (filter (fun o => o_num o =? 11) opts).

(** Bytes used while building: every segment is followed by a '/'. *)
Fixpoint segs_size (segs : list bytes) : N :=
  match segs with [] => 0 | v :: rest => lenN v + 1 + segs_size rest end.
