(** Model of src/oscore/oscore_interactions.c. *)
From Verif Require Import Base Model_Common Model_OscorePrims Model_Coap.

(** inc/oscore/oscore_interactions.h:27-28 *)
Definition OSCORE_INTERACTIONS_COUNT : nat := 3.
Definition OSCORE_MAX_URI_PATH_LEN : N := 30.   (* inc/oscore/oscore_coap_defines.h:29 *)
Definition MAX_KID_LEN : N := 8.   (* inc/oscore/oscore_coap_defines.h:19 *)

(** inc/oscore/oscore_interactions.h:33-54 struct oscore_interaction_t; arrays
    with their length fields are byte strings. *)
Record inter := { i_type : msg_type; i_token : bytes; i_uri : bytes; i_piv : bytes; i_kid : bytes }.

(** The table: [None] is a record with is_occupied = false (its other fields are
    never used). *)
Notation itable := (list (option inter)).   (* inc/oscore/security_context.h:86 *)

(** enum comparison *)
(** inc/oscore/oscore_coap_defines.h:77 enum o_coap_msg *)
Definition msg_type_eqb (a b : msg_type) : bool :=
  match a, b with
  | MREQUEST, MREQUEST | MREGISTRATION, MREGISTRATION | MCANCELLATION, MCANCELLATION
  | MRESPONSE, MRESPONSE | MNOTIFICATION, MNOTIFICATION => true
  | _, _ => false
  end.

(** src/oscore/oscore_interactions.c:85-99 compare_memory is equality of the byte
    strings (a NULL pointer occurs only with length 0). *)
Definition compare_memory (a b : bytes) : bool := (lenN a =? lenN b) && beqb a b.

(** Index of the first element satisfying [f], or the length: the loops of
    src/oscore/oscore_interactions.c:106-115, 125-144 and 153-168. *)
Fixpoint find_index {A} (f : A -> bool) (l : list A) : nat :=
  match l with
  | [] => O
  | x :: t => if f x then O else S (find_index f t)
  end.

(** src/oscore/oscore_interactions.c:106-115 find_unoccupied_index *)
Definition find_unoccupied_index (t : itable) : nat :=
  find_index (fun x => match x with None => true | Some _ => false end) t.

(** src/oscore/oscore_interactions.c:125-144 find_record_index_by_resource *)
Definition find_by_resource (t : itable) (uri : bytes) (ty : msg_type) : nat :=
  find_index (fun x => match x with
    | Some r => msg_type_eqb (i_type r) ty && compare_memory uri (i_uri r)
    | None => false end) t.

(** src/oscore/oscore_interactions.c:153-168 find_record_index_by_token *)
Definition find_by_token (t : itable) (token : bytes) : nat :=
  find_index (fun x => match x with
    | Some r => compare_memory token (i_token r)
    | None => false end) t.

(** assignment to interactions[n], src/oscore/oscore_interactions.c *)
Fixpoint set_nth {A} (l : list A) (n : nat) (x : A) : list A :=
  match l, n with
  | [], _ => []
  | _ :: t, O => x :: t
  | y :: t, S n' => y :: set_nth t n' x
  end.

(** src/oscore/oscore_interactions.c:170-179 oscore_interactions_init *)
Definition interactions_init : itable := repeat None OSCORE_INTERACTIONS_COUNT.

(** src/oscore/oscore_interactions.c:181-221 oscore_interactions_set_record *)
Definition set_record (t : itable) (r : inter) : res itable :=
  if (MAX_TOKEN_LEN <? lenN (i_token r)) || (OSCORE_MAX_URI_PATH_LEN <? lenN (i_uri r)) ||
     (MAX_PIV_LEN <? lenN (i_piv r)) || (MAX_KID_LEN <? lenN (i_kid r))
  then Err wrong_parameter
  else
    let by_uri := find_by_resource t (i_uri r) (i_type r) in
    let* idx := if (by_uri <? OSCORE_INTERACTIONS_COUNT)%nat then Ok by_uri
                else
                  let free := find_unoccupied_index t in
                  if (free <? OSCORE_INTERACTIONS_COUNT)%nat then Ok free
                  else Err oscore_max_interactions in
    let by_token := find_by_token t (i_token r) in
    if (by_token <? OSCORE_INTERACTIONS_COUNT)%nat && negb (by_token =? idx)%nat
    then Err oscore_interaction_duplicated_token
    else Ok (set_nth t idx (Some r)).

(** src/oscore/oscore_interactions.c:223-247 oscore_interactions_get_record *)
Definition get_record (t : itable) (token : bytes) : res inter :=
  if MAX_TOKEN_LEN <? lenN token then Err wrong_parameter
  else
    match nth_error t (find_by_token t token) with
    | Some (Some r) => Ok r
    | _ => Err oscore_interaction_not_found
    end.

(** src/oscore/oscore_interactions.c:249-272 oscore_interactions_remove_record *)
Definition remove_record (t : itable) (token : bytes) : res itable :=
  if MAX_TOKEN_LEN <? lenN token then Err wrong_parameter
  else
    let idx := find_by_token t token in
    if (idx <? OSCORE_INTERACTIONS_COUNT)%nat then Ok (set_nth t idx None)
    else Err oscore_interaction_not_found.

(** src/oscore/oscore_interactions.c:274-298 oscore_interactions_read_wrapper.
    [cur] is (request_piv, request_kid) on entry, [None] when uninitialised. *)
Definition read_wrapper (ty : msg_type) (token : bytes) (t : itable)
    (cur : option (bytes * bytes)) : res (bytes * bytes) :=
  match ty with
  | MRESPONSE | MNOTIFICATION =>
      let* r := get_record t token in
      Ok (i_piv r, i_kid r)
  | _ => match cur with Some p => Ok p | None => UB Uninit end
  end.

(** src/oscore/oscore_interactions.c:300-343 oscore_interactions_update_wrapper.
    The four [_memcpy_s] into the record's arrays are their size checks. *)
Definition update_wrapper (ty : msg_type) (token uri : bytes) (t : itable) (piv kid : bytes)
    : res itable :=
  let ty := match ty with MCANCELLATION => MREGISTRATION | _ => ty end in
  match ty with
  | MREQUEST | MREGISTRATION =>
      let* _ := check_buffer_size MAX_PIV_LEN (lenN piv) in
      let* _ := check_buffer_size MAX_KID_LEN (lenN kid) in
      let* _ := check_buffer_size MAX_TOKEN_LEN (lenN token) in
      let* _ := check_buffer_size OSCORE_MAX_URI_PATH_LEN (lenN uri) in
      set_record t {| i_type := ty; i_token := token; i_uri := uri; i_piv := piv; i_kid := kid |}
  | MRESPONSE => remove_record t token
  | _ => Ok t
  end.
