(** Property C74: the algorithms behind the interface are what the other properties assume of
    them, and with them the model computes the published test vectors. *)
From Verif Require Import Base Proof_Base Model_Common Model_Cbor Model_Crypto Spec_EdhocRun Model_OscorePrims Model_Context
  Model_Send Model_Recv Model_ToyRun Model_Toy Proof_Toy Spec_Standard Proof_Standard.

(** Whatever the curves and signatures are: with AES-CCM, SHA-256 and HMAC-SHA-256 every
    assumption on symmetric cryptography ([crypto_ok], [aead_total]) holds, for all keys,
    nonces, associated data, tags and texts. *)
Theorem C74_assumptions : forall cr, asymmetric_ok cr -> crypto_ok (standard cr) /\ aead_total (standard cr).
Proof. intros cr A. split; [apply standard_ok, A|apply standard_total]. Qed.
Print Assumptions C74_assumptions.

(** AES-CCM accepts exactly what it makes: a ciphertext is opened if and only if it is the
    encryption of the result with the same key, nonce, associated data and tag length. So
    for each text there is one accepted ciphertext. *)
Theorem C74_exact : forall k n a t c p, ccm_decrypt k n a t c = Some p <-> ccm_encrypt k n a t p = Some c.
Proof. intros k n a t c p. split; [apply ccm_only|apply ccm_inverse]. Qed.
Print Assumptions C74_exact.

(** ** Examples: FIPS 180-4 "abc", RFC 4231 test case 2, FIPS 197 appendix C.1 *)
Example C74_sha256_example : sha256 [97; 98; 99] =
  [186; 120; 22; 191; 143; 1; 207; 234; 65; 65; 64; 222; 93; 174; 34; 35; 176; 3; 97; 163; 150; 23; 122; 156; 180; 16;
   255; 97; 242; 0; 21; 173].
Proof. vm_compute. reflexivity. Qed.
Example C74_hmac_example : hmac_sha256 [74; 101; 102; 101]
  [119; 104; 97; 116; 32; 100; 111; 32; 121; 97; 32; 119; 97; 110; 116; 32; 102; 111; 114; 32; 110; 111; 116; 104; 105; 110; 103; 63] =
  [91; 220; 193; 70; 191; 96; 117; 78; 106; 4; 36; 38; 8; 149; 117; 199; 90; 0; 63; 8; 157; 39; 57; 131; 157; 236; 88; 185;
   100; 236; 56; 67].
Proof. vm_compute. reflexivity. Qed.
Example C74_aes_example : aes128 [0; 1; 2; 3; 4; 5; 6; 7; 8; 9; 10; 11; 12; 13; 14; 15]
  [0; 17; 34; 51; 68; 85; 102; 119; 136; 153; 170; 187; 204; 221; 238; 255] =
  [105; 196; 224; 216; 106; 123; 4; 48; 216; 205; 183; 128; 112; 180; 197; 90].
Proof. vm_compute. reflexivity. Qed.
(** RFC 3610, section 8, packet vector 1 *)
Example C74_ccm_example :
  let k := map (N.add 192) [0; 1; 2; 3; 4; 5; 6; 7; 8; 9; 10; 11; 12; 13; 14; 15] in
  let n := [0; 0; 0; 3; 2; 1; 0; 160; 161; 162; 163; 164; 165] in
  let p := map (N.add 8) [0; 1; 2; 3; 4; 5; 6; 7; 8; 9; 10; 11; 12; 13; 14; 15; 16; 17; 18; 19; 20; 21; 22] in
  ccm_encrypt k n [0; 1; 2; 3; 4; 5; 6; 7] 8 p =
  Some [88; 140; 151; 154; 97; 198; 99; 210; 240; 102; 208; 194; 192; 249; 137; 128; 109; 95; 107; 97; 218; 195; 132; 23;
        232; 209; 44; 253; 249; 38; 224].
Proof. vm_compute. reflexivity. Qed.

(** ** Examples: RFC 8613, appendix C (test_vectors/oscore_test_vectors.c), as the tests of
    test/oscore_integration_tests/oscore_integration_tests.c use them *)
Definition real : crypto := standard toy_crypto.
Lemma real_ok : crypto_ok real /\ aead_total real.
Proof. apply C74_assumptions. destruct toy_ok. constructor; eauto. Qed.
Definition rfc_secret : bytes := [1; 2; 3; 4; 5; 6; 7; 8; 9; 10; 11; 12; 13; 14; 15; 16].
Definition rfc_salt : bytes :=
  [158; 124; 169; 34; 35; 120; 99; 64].
Definition rfc_id_context : bytes :=
  [55; 203; 243; 33; 0; 23; 162; 211].
Definition rfc_params (sid rid idc salt : bytes) (fresh : bool) : init_params :=
  {| ip_secret := rfc_secret; ip_sender_id := sid; ip_recipient_id := rid; ip_id_context := idc;
     ip_salt := salt; ip_aead := 10; ip_hkdf := 0; ip_fresh := fresh |}.
Definition rfc_init (p : init_params) : ctx :=
  match oscore_context_init real p (Ok 0) (repeat 0 13) (repeat 0 12) 0 with Ok c => c | _ => toy_ctx0 end.
Definition real_send (c : ctx) (m : bytes) : ctx * bytes :=
  let '(s, b, r) := coap2oscore real toy_nw c m toy_out in
  (s_ctx s, match r with Ok n => takeN n b | _ => [] end).
Definition real_recv (c : ctx) (m : bytes) : ctx * res bytes :=
  let '(c', b, r) := oscore2coap real c m toy_out in
  (c', let* n := r in Ok (takeN n b)).
Definition c4_coap : bytes :=
  [68; 1; 93; 31; 0; 0; 57; 116; 57; 108; 111; 99; 97; 108; 104; 111; 115; 116; 131; 116; 118; 49].
Definition c4_oscore : bytes :=
  [68; 2; 93; 31; 0; 0; 57; 116; 57; 108; 111; 99; 97; 108; 104; 111; 115; 116; 98; 9; 20; 255; 97; 47; 16;
   146; 241; 119; 111; 28; 22; 104; 179; 130; 94].
Definition c7_oscore : bytes :=
  [100; 68; 93; 31; 0; 0; 57; 116; 144; 255; 219; 170; 209; 233; 167; 231; 178; 168; 19; 211; 195; 21; 36;
   55; 131; 3; 205; 175; 174; 17; 145; 6].
Definition c7_coap : bytes :=
  [100; 69; 93; 31; 0; 0; 57; 116; 255; 72; 101; 108; 108; 111; 32; 87; 111; 114; 108; 100; 33].
Definition c5_coap : bytes :=
  [68; 1; 113; 195; 0; 0; 185; 50; 57; 108; 111; 99; 97; 108; 104; 111; 115; 116; 131; 116; 118; 49].
Definition c5_oscore : bytes :=
  [68; 2; 113; 195; 0; 0; 185; 50; 57; 108; 111; 99; 97; 108; 104; 111; 115; 116; 99; 9; 20; 0; 255; 78; 211;
   57; 165; 163; 121; 176; 184; 188; 115; 31; 255; 176].
Definition c6_coap : bytes :=
  [68; 1; 47; 142; 239; 155; 191; 122; 57; 108; 111; 99; 97; 108; 104; 111; 115; 116; 131; 116; 118; 49].
Definition c6_oscore : bytes :=
  [68; 2; 47; 142; 239; 155; 191; 122; 57; 108; 111; 99; 97; 108; 104; 111; 115; 116; 107; 25; 20; 8; 55;
   203; 243; 33; 0; 23; 162; 211; 255; 114; 205; 114; 115; 253; 51; 26; 196; 92; 255; 190; 85; 195].
Definition c8_oscore : bytes :=
  [100; 68; 93; 31; 0; 0; 57; 116; 146; 1; 0; 255; 77; 76; 19; 102; 147; 132; 182; 115; 84; 178; 182; 23; 95;
   244; 184; 101; 140; 102; 106; 108; 248; 142].
Definition ack : bytes :=
  [96; 0; 69; 105].

(** C.1.1, C.2.2, C.3.2: key derivation (tests 1, 4, 6) *)
Definition keys_of (c : ctx) : bytes * bytes * bytes := (c_skey c, c_rkey c, c_iv c).
Example C74_keys_example :
  keys_of (rfc_init (rfc_params [] [1] [] rfc_salt true)) =
  ([240; 145; 14; 215; 41; 94; 106; 212; 181; 79; 199; 147; 21; 67; 2; 255],
   [255; 177; 78; 9; 60; 148; 201; 202; 201; 71; 22; 72; 180; 249; 135; 16],
   [70; 34; 212; 221; 109; 148; 65; 104; 238; 251; 84; 152; 124]) /\
  keys_of (rfc_init (rfc_params [1] [0] [] [] true)) =
  ([229; 123; 86; 53; 129; 81; 119; 205; 103; 154; 180; 188; 236; 157; 125; 218],
   [50; 27; 38; 148; 50; 83; 199; 255; 182; 0; 59; 11; 100; 215; 64; 65],
   [190; 53; 174; 41; 125; 45; 172; 233; 16; 197; 46; 153; 249]) /\
  keys_of (rfc_init (rfc_params [1] [] rfc_id_context rfc_salt true)) =
  ([227; 154; 12; 124; 119; 180; 63; 3; 180; 179; 154; 185; 162; 104; 105; 159],
   [175; 42; 19; 0; 165; 233; 87; 136; 179; 86; 51; 110; 238; 205; 43; 146],
   [44; 165; 143; 184; 95; 241; 184; 28; 11; 113; 129; 184; 94]).
Proof. vm_compute. repeat split; reflexivity. Qed.

(** C.4 and C.7 for the client (test 1): the stored number 0 gives 20 after a restart. *)
Example C74_client_example :
  let (c, w) := real_send (rfc_init (rfc_params [] [1] [] rfc_salt false)) c4_coap in
  w = c4_oscore /\ snd (real_recv c c7_oscore) = Ok c7_coap.
Proof. vm_compute. split; reflexivity. Qed.
(** C.4 and C.7 for the server (test 2) *)
Example C74_server_example :
  let (c, r) := real_recv (rfc_init (rfc_params [1] [] [] rfc_salt true)) c4_oscore in
  r = Ok c4_coap /\ snd (real_send c c7_coap) = c7_oscore.
Proof. vm_compute. split; reflexivity. Qed.
(** C.5 and C.6 (tests 3 and 5) *)
Example C74_request_example :
  snd (real_send (set_ssn (rfc_init (rfc_params [0] [1] [] [] true)) 20) c5_coap) = c5_oscore /\
  snd (real_send (set_ssn (rfc_init (rfc_params [] [1] rfc_id_context rfc_salt true)) 20) c6_coap) = c6_oscore.
Proof. vm_compute. split; reflexivity. Qed.
(** An empty acknowledgement stays as it is (test 8). *)
Example C74_ack_example : snd (real_send (rfc_init (rfc_params [1] [] [] rfc_salt true)) ack) = ack.
Proof. vm_compute. reflexivity. Qed.
(** C.8, a response with Partial IV, is refused by the client: C72_no_kid_refuted with the
    real algorithms. The repository holds this vector (T7__OSCORE_RES), but no test uses it. *)
Example C72_appendix_example :
  let (c, w) := real_send (rfc_init (rfc_params [] [1] [] rfc_salt false)) c4_coap in
  w = c4_oscore /\ is_ok (snd (real_recv c c8_oscore)) = false /\ is_ub (snd (real_recv c c8_oscore)) = false.
Proof. vm_compute. repeat split; reflexivity. Qed.
