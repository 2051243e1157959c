(** Concrete EDHOC parties over the toy cryptography, used only for the examples
    beside the theorems. They model no code of /repo. *)
From Verif Require Import Base Model_Cbor Model_Crypto Model_EdhocCfg Model_EdhocCert Model_EdhocMsg Model_EdhocRun Model_Toy.

Definition toy_pf : platform := {| pf_mbedtls := false; pf_x509_parse := fun _ => None |}.
(** {4: 5} and {4: -3} *)
Definition toy_id_i : bytes := [0xA1; 4; 5].
Definition toy_id_r : bytes := [0xA1; 4; 0x22].
(** {2: "I"} and {2: "R"} *)
Definition toy_cred_i : bytes := [0xA1; 2; 0x61; 0x49].
Definition toy_cred_r : bytes := [0xA1; 2; 0x61; 0x52].
Definition toy_initiator (method : N) (suites c_i ead_1 : bytes) : initiator := {|
  i_c_i := c_i; i_method := method; i_suites := suites; i_ead_1 := ead_1; i_ead_3 := [];
  i_id_cred := toy_id_i; i_cred := toy_cred_i;
  i_g_x := repeat 11 32; i_x := repeat 11 32; i_g_i := repeat 12 32; i_i := repeat 12 32;
  i_sk := repeat 13 32; i_pk := repeat 13 32 |}.
Definition toy_responder (suites c_r : bytes) : responder := {|
  r_c_r := c_r; r_suites := suites; r_g_y := repeat 21 32; r_y := repeat 21 32;
  r_g_r := repeat 22 32; r_r := repeat 22 32; r_ead_2 := [];
  r_id_cred := toy_id_r; r_cred := toy_cred_r; r_sk := repeat 23 32; r_pk := repeat 23 32 |}.
(** what the responder knows about the initiator and vice versa *)
Definition toy_creds_i : list other_party_cred := [
  {| oc_id_cred := toy_id_i; oc_cred := toy_cred_i; oc_pk := repeat 13 32; oc_g := repeat 12 32;
     oc_ca := []; oc_ca_pk := [] |}].
Definition toy_creds_r : list other_party_cred := [
  {| oc_id_cred := [0xA1; 4; 7]; oc_cred := [0xA0]; oc_pk := repeat 1 32; oc_g := repeat 2 32;
     oc_ca := []; oc_ca_pk := [] |};
  {| oc_id_cred := toy_id_r; oc_cred := toy_cred_r; oc_pk := repeat 23 32; oc_g := repeat 22 32;
     oc_ca := []; oc_ca_pk := [] |}].
(** callbacks that succeed, receiving the given messages *)
Definition toy_env (a b : res bytes) : env := {|
  e_tx := fun _ _ => Ok tt;
  e_rx := fun n _ => if n =? 1 then a else if n =? 2 then a else b;
  e_ead := fun _ _ => Ok tt |}.
(** the messages of a run of both parties *)
Definition toy_m1 cf (i : initiator) : res bytes :=
  let* (m, _, _) := msg1_gen toy_crypto cf i in Ok m.
Definition toy_m2 cf i r : res bytes :=
  let* m := toy_m1 cf i in
  match o_sent (responder_run toy_crypto cf toy_pf r toy_creds_i 32 (toy_env (Ok m) (Err not_implemented))) with
  | m2 :: _ => Ok m2 | [] => Err not_implemented end.
Definition toy_oi cf i r : outcome :=
  initiator_run toy_crypto cf toy_pf i toy_creds_r 32 (toy_env (toy_m2 cf i r) (Err not_implemented)).
Definition toy_m3 cf i r : res bytes :=
  match o_sent (toy_oi cf i r) with _ :: m3 :: _ => Ok m3 | _ => Err not_implemented end.
Definition toy_or cf i r : outcome :=
  responder_run toy_crypto cf toy_pf r toy_creds_i 32 (toy_env (toy_m1 cf i) (toy_m3 cf i r)).
