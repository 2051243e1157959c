(** External authorization data (EAD): who decides about it, and what an endpoint must
    have confused if EAD of an honest peer was accepted. *)
From Verif Require Import Base Model_Cbor Model_Crypto Model_EdhocCfg Model_EdhocCert Model_EdhocMsg Model_EdhocRun Model_EdhocMsg4
  Spec_CborTree Spec_Hkdf Spec_Edhoc Spec_EdhocRun Spec_EdhocView.

(** The same party with nothing to say in EAD_3, respectively EAD_2. *)
Definition quiet_i (i : initiator) : initiator := {|
  i_c_i := i_c_i i; i_method := i_method i; i_suites := i_suites i; i_ead_1 := i_ead_1 i; i_ead_3 := [];
  i_id_cred := i_id_cred i; i_cred := i_cred i; i_g_x := i_g_x i; i_x := i_x i; i_g_i := i_g_i i; i_i := i_i i;
  i_sk := i_sk i; i_pk := i_pk i |}.
Definition quiet_r (r : responder) : responder := {|
  r_c_r := r_c_r r; r_suites := r_suites r; r_g_y := r_g_y r; r_y := r_y r; r_g_r := r_g_r r; r_r := r_r r; r_ead_2 := [];
  r_id_cred := r_id_cred r; r_cred := r_cred r; r_sk := r_sk r; r_pk := r_pk r |}.

(** [e] is nothing, or the part of [ead] behind its first bytes. *)
Definition inner (ead e : bytes) : Prop := e = [] \/ exists head rest, head <> [] /\ ead = head ++ e ++ rest.

(** The Signature_or_MAC field that was made for [ead] is also right for [ead']: the
    MACs of two different texts are equal, or a signature is valid for a second text. *)
Definition confused (cr : crypto) (static_dh : bool) (st : suite) (sk pk prk c_r th id cred ead ead' : bytes) (label : N) : Prop :=
  ead' <> ead /\
  if static_dh then
    expected_mac cr prk c_r th id cred ead label true st = expected_mac cr prk c_r th id cred ead' label true st
  else
    to_sign cr prk c_r th id cred ead label <> to_sign cr prk c_r th id cred ead' label /\
    exists sg, cr_sign cr (sign_sel (edhoc_sign st)) sk pk (to_sign cr prk c_r th id cred ead label) = Some sg /\
               cr_verify cr (sign_sel (edhoc_sign st)) pk (to_sign cr prk c_r th id cred ead' label) sg = Some true.

(** What the application was asked: [stages] are the messages whose EAD is handed
    over, with the number of messages that were sent before. If the application refuses
    one, the run ends with its error, nothing more is sent and nothing more is handed
    over; ok means that all were handed over and accepted. *)
Fixpoint decided (stages : list (N * nat)) (e : env) (eads sent : list bytes) (ret : res unit) : Prop :=
  match stages, eads with
  | [], [] => True
  | [], _ :: _ => False
  | (k, n) :: _, [] => (length sent <= n)%nat /\ ret <> Ok tt
  | (k, n) :: stages, d :: eads =>
      (n <= length sent)%nat /\
      match e_ead e k d with
      | Ok _ => decided stages e eads sent ret
      | r => eads = [] /\ length sent = n /\ ret = r
      end
  end.

(** The runs of the builds with and without message_4. *)
Definition run_i (m4 : bool) := if m4 then initiator_run4_extended else initiator_run_extended.
Definition run_r (m4 : bool) cr cf pf r ead_4 :=
  if m4 then responder_run4_extended cr cf pf r ead_4 else responder_run_extended cr cf pf r.
