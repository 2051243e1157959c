(** Parties within the default sizes of the buffers. *)
From Verif Require Import Base Model_Common Model_Cbor Model_Crypto Spec_CborTree Spec_Edhoc Model_EdhocCfg Model_EdhocCert
  Model_EdhocRun Spec_EdhocRun.

(** Two parties that know each other and the keys that belong to their method, whose
    identifiers, credentials and connection identifiers are not longer than the
    default configuration allows (inc/edhoc/buffer_sizes.h). *)
Record default_parties (cr : crypto) (pf : platform) (i : initiator) (r : responder) (creds_i creds_r : list other_party_cred)
    (st : suite) (si sr : bool) (id_i id_r : cred_id) (key_i key_r g_xy g_rx g_iy : bytes) : Prop := {
  dp_method : method_static (i_method i) si sr;
  dp_suites : is_bytes (i_suites i) /\ 1 <= lenN (i_suites i) <= 6;
  dp_suite : get_suite (last (i_suites i) 0) = Ok st;
  dp_suites_r : r_suites r <> [];
  dp_g_x : lenN (i_g_x i) = 32;
  dp_g_y : lenN (r_g_y r) = 32;
  dp_xy : dh_secret cr (edhoc_ecdh st) (i_x i) (r_g_y r) g_xy /\ dh_secret cr (edhoc_ecdh st) (r_y r) (i_g_x i) g_xy;
  dp_key_r : if sr then dh_secret cr (edhoc_ecdh st) (r_r r) (i_g_x i) g_rx /\
                        dh_secret cr (edhoc_ecdh st) (i_x i) key_r g_rx
             else key_r = r_pk r /\ sign_pair cr (sign_sel (edhoc_sign st)) (r_sk r) (r_pk r) /\
                  forall m, cr_sign cr (sign_sel (edhoc_sign st)) (r_sk r) (r_pk r) m <> None;
  dp_key_i : if si then dh_secret cr (edhoc_ecdh st) (i_i i) (r_g_y r) g_iy /\
                        dh_secret cr (edhoc_ecdh st) (r_y r) key_i g_iy
             else key_i = i_pk i /\ sign_pair cr (sign_sel (edhoc_sign st)) (i_sk i) (i_pk i) /\
                  forall m, cr_sign cr (sign_sel (edhoc_sign st)) (i_sk i) (i_pk i) m <> None;
  dp_id_r : r_id_cred r = rfc_id_cred id_r /\ id_range id_r /\ lenN (r_id_cred r) <= 400;
  dp_id_i : i_id_cred i = rfc_id_cred id_i /\ id_range id_i /\ lenN (i_id_cred i) <= 400;
  dp_id_i_bytes : is_bytes (i_id_cred i);
  dp_found_r : resolves cr pf sr creds_r id_r 400 (r_cred r) key_r;
  dp_found_i : resolves cr pf si creds_i id_i 400 (i_cred i) key_i;
  dp_creds : 1 <= lenN (r_cred r) <= 400 /\ 1 <= lenN (i_cred i) <= 400;
  dp_c_i : lenN (i_c_i i) <= 10 /\ (forall b, i_c_i i = [b] -> ~ (0x20 <= b <= 0x37));
  dp_c_r : lenN (r_c_r r) <= 10 /\ (forall b, r_c_r r = [b] -> 23 < b);
  dp_eads : i_ead_1 i = [] /\ r_ead_2 r = [] /\ i_ead_3 i = []
}.
