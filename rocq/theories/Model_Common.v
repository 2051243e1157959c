(** Model of src/common/memcpy_s.c and src/common/byte_array.c. *)
From Verif Require Import Base.

(** A pointer argument: [None] is NULL, [Some m] points to an object whose
    remaining content (from the pointer to the end of the object) is [m]. *)
Notation ptr := (option bytes).   (* inc/common/byte_array.h:23-26, the member ptr *)

(** src/common/memcpy_s.c:18-25 check_buffer_size. *)
Definition check_buffer_size (is_size required_size : N) : res unit :=
  if is_size <? required_size then Err buffer_to_small else Ok tt.

(** src/common/memcpy_s.c:27-40 _memcpy_s. Returns the destination object after
    the call. *)
Definition memcpy_s (dest : ptr) (dest_len : N) (source : ptr) (source_len : N) : res ptr :=
  if source_len =? 0 then Ok dest
  else match dest, source with
  | Some d, Some s =>
      let* _ := check_buffer_size dest_len source_len in
      if lenN s <? source_len then UB OobRead
      else if lenN d <? source_len then UB OobWrite
      else Ok (Some (takeN source_len s ++ dropN source_len d))
  | _, _ => Err wrong_parameter
  end.

(** src/common/byte_array.c:27-37 byte_array_append. [dest] is the whole
    destination object, [dest_len] the length field of the destination. Result:
    the object and the new length field. [dest->ptr + dest->len] beyond the
    object is undefined behaviour. *)
Definition byte_array_append (dest : bytes) (dest_len : N) (source : ptr) (source_len capacity : N)
    : res (bytes * N) :=
  if capacity <? u32 (source_len + dest_len) then Err buffer_to_small
  else if lenN dest <? dest_len then UB OobWrite
  else
    let* d := memcpy_s (Some (dropN dest_len dest)) (sub32 capacity dest_len) source source_len in
    match d with
    | Some d' => Ok (takeN dest_len dest ++ d', u32 (dest_len + source_len))
    | None => UB NullDeref
    end.

(** src/common/byte_array.c:39-45 byte_array_cpy. *)
Definition byte_array_cpy (dest : ptr) (source : ptr) (source_len dest_max_len : N) : res (ptr * N) :=
  let* d := memcpy_s dest dest_max_len source source_len in
  Ok (d, source_len).

(** src/common/byte_array.c:47-58 array_equals, on in-bounds views. *)
Definition array_equals (a b : bytes) : bool :=
  if negb (lenN a =? lenN b) then false
  else forallb (fun p => fst p =? snd p) (combine a b).

(** inc/common/byte_array.h, BYTE_ARRAY_NEW without VLA: size check only (the
    contents are modelled by whatever is written later). *)
Definition byte_array_new (buf_size size : N) : res unit := check_buffer_size buf_size size.
