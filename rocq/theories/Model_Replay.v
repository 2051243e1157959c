(** Model of src/oscore/replay_protection.c. *)
From Verif Require Import Base.

(** inc/oscore/replay_protection.h: WINDOW_SIZE (32). *)
Definition WINDOW_SIZE : nat := 32.

(** inc/oscore/replay_protection.h: struct server_replay_window_t. The array
    [window] of [WINDOW_SIZE] 64-bit numbers is a list, index 0 first. *)
Record rwin := mk_rwin { rw_window : list N; rw_zero : bool }.

(** src/oscore/replay_protection.c:18-30 server_replay_window_insert.
    [memmove(window, window+1, position elements)] then [window[position] = n]. *)
Definition rw_insert (n : N) (w : list N) (position : nat) : list N :=
  firstn position (skipn 1 w) ++ n :: skipn (S position) w.

(** src/oscore/replay_protection.c:32-42 server_replay_window_init
    (null-pointer argument not modelled). *)
Definition rw_init : rwin := mk_rwin (repeat 0 WINDOW_SIZE) false.

(** src/oscore/replay_protection.c:52-58, the loop of
    server_replay_window_reinit: the values stored at indices
    WINDOW_SIZE-1, WINDOW_SIZE-2, ... in that order. *)
Fixpoint rw_reinit_vals (k : nat) (cur : N) : list N :=
  match k with
  | O => []
  | S k' => cur :: rw_reinit_vals k' (if 0 <? cur then cur - 1 else cur)
  end.

(** src/oscore/replay_protection.c:44-64 server_replay_window_reinit
    (null-pointer argument not modelled). *)
Definition rw_reinit (current : N) : rwin :=
  mk_rwin (rev (rw_reinit_vals WINDOW_SIZE current)) true.

(** src/oscore/replay_protection.c:66-97 server_is_sequence_number_valid. *)
Definition rw_valid (n : N) (w : rwin) : bool :=
  if 0 =? n then
    negb (rw_zero w) && (0 =? nth 0 (rw_window w) 0)
  else if nth (WINDOW_SIZE - 1) (rw_window w) 0 <? n then true
  else if n <? nth 0 (rw_window w) 0 then false
  else negb (existsb (fun x => n =? x) (rw_window w)).

(** src/oscore/replay_protection.c:114-121, the search loop of
    server_replay_window_update: first index with
    [window[index] < n && window[index+1] > n], else the last index. *)
Fixpoint rw_find_slot (n : N) (w : list N) : nat :=
  match w with
  | a :: t =>
      match t with
      | b :: _ => if (a <? n) && (n <? b) then O else S (rw_find_slot n t)
      | [] => O
      end
  | [] => O
  end.

(** src/oscore/replay_protection.c:99-124 server_replay_window_update. *)
Definition rw_update (n : N) (w : rwin) : bool * rwin :=
  if negb (rw_valid n w) then (false, w)
  else if n =? 0 then (true, mk_rwin (rw_window w) true)
  else (true, mk_rwin (rw_insert n (rw_window w) (rw_find_slot n (rw_window w)))
                      (rw_zero w)).

(** How a server uses the window (src/oscore/oscore2coap.c:384-393 and 417-423
    as intended): check the number, and when accepted update with it. *)
Definition rw_present (w : rwin) (n : N) : bool * rwin :=
  if rw_valid n w then (true, snd (rw_update n w)) else (false, w).

(** a history of calls; no counterpart in src/oscore/replay_protection.c *)
Fixpoint rw_run (w : rwin) (ns : list N) : list bool * rwin :=
  match ns with
  | [] => ([], w)
  | n :: t =>
      let (d, w1) := rw_present w n in
      let (ds, w2) := rw_run w1 t in
      (d :: ds, w2)
  end.
