(** Property C09: sender sequence numbers over reboots. *)
From Verif Require Import Base Proof_Base Model_Common Model_Crypto Model_OscorePrims Model_Coap Model_Context
  Model_Send Model_Recv Model_Run Model_Toy Proof_Toy Model_ToyRun Spec_Session Spec_Nvm Proof_Nvm Prop_Echo Prop_Nonce.

(** Full statement: whatever the crashes and the results of the writes to the memory, a
    sequence number is used once over all boots. It fails in the cases of Prop_NvmReuse.v, of which two
    examples follow. Proved:
    in all other lifetimes ([lives] of Spec_Nvm says which) the nonces made from sequence
    numbers are pairwise different. *)
Theorem C09_reboots_partial :
  forall (cr : crypto) (p : init_params) (v0 v : N) (c : option ctx) (w : bool) (f : N) (used : list bytes),
  (forall k m, lenN (cr_hmac cr k m) = 32) -> ip_fresh p = false -> v0 < 2 ^ 62 ->
  lives cr p v0 v c w f used -> NoDup used.
Proof. intros cr p v0 v c w f used HL HF HV H. apply (lives_inv cr p v0 v c w f used HL HF HV H). Qed.
Print Assumptions C09_reboots_partial.

(** Content of the memory after the calls: the last value written with success. *)
Fixpoint memory (v : N) (calls : list api_call) (os : list obs) : N :=
  match calls, os with
  | ASend nw _ _ :: calls', o :: os' =>
      memory (match ob_nvm o with Some x => if is_ok (nw x) then x else v | None => v end) calls' os'
  | ARecv _ _ :: calls', _ :: os' => memory v calls' os'
  | _, _ => v
  end.
(** Two boots use a nonce twice, for different plaintexts, with the same key. *)
Definition reuses (cr : crypto) (p : init_params) (v : N) (calls1 calls2 : list api_call) : Prop :=
  exists gn ge gf c1 c2 os1 os2 o1 o2 n a1 p1 a2 p2,
    oscore_context_init cr p (Ok v) gn ge gf = Ok c1 /\ snd (run cr c1 calls1) = os1 /\
    oscore_context_init cr p (Ok (memory v calls1 os1)) gn ge gf = Ok c2 /\ snd (run cr c2 calls2) = os2 /\
    In o1 os1 /\ In o2 os2 /\ is_ok (ob_res o1) = true /\ is_ok (ob_res o2) = true /\
    c_skey c1 = c_skey c2 /\ ob_enc o1 = Some (n, a1, p1) /\ ob_enc o2 = Some (n, a2, p2) /\ p1 <> p2.

(** The writes of 30 and 40 fail. The calls in question report the error, but the next
    ones succeed without a write, up to number 41. The memory holds 21, so the next boot
    starts with 41. *)
Definition toy_two_failures : list api_call :=
  [ARecv (snd (toy_send toy_client (toy_get 5))) toy_out;
   ASend toy_nw (toy_unauthorized 5 toy_echo) toy_out;
   ARecv (snd (toy_send toy_client (toy_get_echo 6 toy_echo))) toy_out] ++
  repeat (ASend (fun _ => Err unexpected_result_from_ext_lib) (toy_get 7) toy_out) 21.
Definition toy_next_boot : list api_call :=
  [ARecv (snd (toy_send toy_client (toy_get 5))) toy_out;
   ASend toy_nw (toy_unauthorized 5 toy_echo) toy_out].
Example C09_failed_writes_ex :
  reuses toy_crypto (toy_params [2] [1] false) 0 toy_two_failures toy_next_boot.
Proof.
  exists (repeat 0 13), (repeat 0 12), 0. do 4 eexists.
  exists (nth 23 (snd (run toy_crypto toy_rebooted toy_two_failures)) {| ob_enc := None; ob_nvm := None; ob_buf := []; ob_res := Ok 0 |}).
  exists (nth 1 (snd (run toy_crypto (toy_init [2] [1] false 21) toy_next_boot)) {| ob_enc := None; ob_nvm := None; ob_buf := []; ob_res := Ok 0 |}).
  do 5 eexists. split; [vm_compute; reflexivity|]. split; [reflexivity|]. split; [vm_compute; reflexivity|]. split; [reflexivity|].
  split. { vm_compute. do 23 right. left. reflexivity. }
  split. { vm_compute. right. left. reflexivity. }
  split; [vm_compute; reflexivity|]. split; [vm_compute; reflexivity|]. split; [vm_compute; reflexivity|].
  split; [vm_compute; reflexivity|]. split; [vm_compute; reflexivity|]. vm_compute. discriminate.
Qed.

(** All writes succeed, but the Echo exchange is completed with a value left in the
    context structure (C25_stale_refuted): no message was sent, hence no write made. The
    first number is used without a write in both boots. *)
Definition toy_stale_boot (t : N) : list api_call :=
  [ARecv toy_blind1 toy_out; ARecv toy_blind2 toy_out; ASend toy_nw (toy_get t) toy_out].
Example C09_stale_echo_ex :
  reuses toy_crypto (toy_params [2] [1] false) 0 (toy_stale_boot 7) [ASend toy_nw (toy_get_b 8) toy_out] /\
  (forall nw input buf, In (ASend nw input buf) (toy_stale_boot 7) -> forall x, nw x = Ok tt).
Proof.
  split.
  - exists (repeat 0 13), (repeat 0 12), 0. do 4 eexists.
    exists (nth 2 (snd (run toy_crypto toy_rebooted (toy_stale_boot 7))) {| ob_enc := None; ob_nvm := None; ob_buf := []; ob_res := Ok 0 |}).
    exists (nth 0 (snd (run toy_crypto toy_rebooted [ASend toy_nw (toy_get_b 8) toy_out])) {| ob_enc := None; ob_nvm := None; ob_buf := []; ob_res := Ok 0 |}).
    do 5 eexists. split; [vm_compute; reflexivity|]. split; [reflexivity|]. split; [vm_compute; reflexivity|]. split; [reflexivity|].
    split. { vm_compute. do 2 right. left. reflexivity. }
    split. { vm_compute. left. reflexivity. }
    split; [vm_compute; reflexivity|]. split; [vm_compute; reflexivity|]. split; [vm_compute; reflexivity|].
    split; [vm_compute; reflexivity|]. split; [vm_compute; reflexivity|]. vm_compute. discriminate.
  - intros nw input buf [I|[I|[I|[]]]]; try discriminate. injection I as <- <- <-. reflexivity.
Qed.

(** A lifetime with two boots: the regular Echo exchange and a request in the first one,
    a challenge in the second one. *)
Example C09_example : exists v c used,
  lives toy_crypto (toy_params [2] [1] false) 0 v (Some c) true 0 used /\ length used = 3%nat.
Proof.
  assert (N1 : forall c, c_echo c = ECHO_VERIFY -> forall i, ~ plain_response c i) by (intros c E i [F _]; contradiction).
  do 3 eexists. split.
  1: eapply lives_send_write with (nw := toy_nw) (input := toy_unauthorized 5 toy_echo) (buf := toy_out).
  1: eapply lives_recv with (input := snd (toy_send toy_client (toy_get 5))) (buf := toy_out).
  1: eapply lives_boot with (gn := repeat 0 13) (ge := repeat 0 12) (gf := 0).
  1: eapply lives_send with (nw := toy_nw) (input := toy_get 7) (buf := toy_out).
  1: eapply lives_recv with (input := snd (toy_send toy_client (toy_get_echo 6 toy_echo))) (buf := toy_out).
  1: eapply lives_send_write with (nw := toy_nw) (input := toy_unauthorized 5 toy_echo) (buf := toy_out).
  1: eapply lives_recv with (input := snd (toy_send toy_client (toy_get 5))) (buf := toy_out).
  1: eapply lives_boot with (gn := repeat 0 13) (ge := repeat 0 12) (gf := 0).
  1: apply lives_start.
  all: try (vm_compute; reflexivity).
  all: try (vm_compute; intros; discriminate).
  all: try (intros; reflexivity).
  - right. split; [apply N1; vm_compute; reflexivity|]. vm_compute. reflexivity.
  - right. split; [|vm_compute; reflexivity]. intros (_ & k & EK & L & _). vm_compute in EK. injection EK as <-. cbn in L. lia.
  - right. split; [apply N1; vm_compute; reflexivity|]. vm_compute. reflexivity.
  - reflexivity.
Qed.
