(** Properties C01, C02, C03: the server replay window. *)
From Verif Require Import Base Model_Replay Spec_Replay Proof_Replay.

(** C01. Whatever numbers are presented to a fresh window, no number is
    accepted twice. *)
Theorem C01_replay_window_no_double_accept :
  forall ns : list N, NoDup (accepted ns (fst (rw_run rw_init ns))).
Proof. exact no_double_accept. Qed.
Print Assumptions C01_replay_window_no_double_accept.

(** Also after a re-initialisation. *)
Theorem C01_replay_window_no_double_accept_reinit :
  forall (c : N) (ns : list N), NoDup (accepted ns (fst (rw_run (rw_reinit c) ns))).
Proof. exact (fun c ns => proj1 (no_double_accept_reinit c ns)). Qed.
Print Assumptions C01_replay_window_no_double_accept_reinit.

(** non-vacuity: acceptances do happen, and the repeated ones are refused *)
Example C01_example :
  accepted [5; 3; 5; 0; 3; 40; 8; 9; 0; 7] (fst (rw_run rw_init [5; 3; 5; 0; 3; 40; 8; 9; 0; 7]))
  = [5; 3; 0; 40; 8; 9; 7].
Proof. vm_compute. reflexivity. Qed.

(** C02. The decisions are exactly those of the sliding-window specification
    over the complete history. *)
Theorem C02_replay_window_refines_spec :
  forall ns : list N, fst (rw_run rw_init ns) = spec_run 32 [] ns.
Proof. exact (fun ns => run_matches_spec ns [] rw_init init_inv). Qed.
Print Assumptions C02_replay_window_refines_spec.

(** non-vacuity: the specification accepts and rejects, also at the left edge *)
Example C02_example :
  spec_run 32 [] (map N.of_nat (seq 10 32) ++ [9; 10; 42; 11; 41; 100])
  = repeat true 32 ++ [false; false; true; false; false; true].
Proof. vm_compute. reflexivity. Qed.

(** C03. After re-initialisation with [c] the window behaves as one that has
    accepted exactly all numbers up to [c]: nothing up to [c] is ever accepted,
    whatever is accepted in between, and everything above is acceptable. *)
Theorem C03_reinit_behaves_as_all_received :
  forall (c : N) (ns : list N), fst (rw_run (rw_reinit c) ns) = spec_run 32 (upto c) ns.
Proof. exact (fun c ns => run_matches_spec ns (upto c) (rw_reinit c) (reinit_inv c)). Qed.
Print Assumptions C03_reinit_behaves_as_all_received.

Theorem C03_reinit_rejects_old_forever :
  forall (c : N) (ns : list N) (x : N),
    In x (accepted ns (fst (rw_run (rw_reinit c) ns))) -> c < x.
Proof. exact (fun c ns => proj2 (no_double_accept_reinit c ns)). Qed.
Print Assumptions C03_reinit_rejects_old_forever.

Theorem C03_reinit_accepts_newer :
  forall c n : N, c < n -> rw_valid n (rw_reinit c) = true.
Proof. exact reinit_accepts_newer. Qed.
Print Assumptions C03_reinit_accepts_newer.

Example C03_example :
  accepted [7; 8; 0; 3; 12; 9; 8] (fst (rw_run (rw_reinit 7) [7; 8; 0; 3; 12; 9; 8])) = [8; 12; 9].
Proof. vm_compute. reflexivity. Qed.
