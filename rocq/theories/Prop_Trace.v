(** Property C74 for EDHOC: trace 1 of RFC 9529 (test_vectors/edhoc_test_vectors_rfc9529.c; method 0,
    suite 0, x5t), as test/edhoc_integration_tests/edhoc_tests_rfc9529.c runs it. SHA-256, HMAC and
    AES-CCM are those of Spec_Standard.v. X25519 and Ed25519 are known only at the points of the
    trace: the shared secret, and the signatures of M_2 and M_3. M_2 and M_3 (RFC 9528, sections
    4.3.2 and 4.4.2) are written out, so the model must arrive at exactly these texts. *)
From Verif Require Import Base Model_Crypto Model_EdhocCfg Model_EdhocCert Model_EdhocMsg Model_EdhocKeys Model_EdhocRun Model_EdhocMsg4
  Model_ToyEdhoc Spec_Standard.

Definition t_x : bytes :=
  [137; 46; 194; 142; 92; 182; 102; 145; 8; 71; 5; 57; 80; 11; 112; 94; 96; 208; 8; 211; 71; 197; 129; 126;
   233; 243; 50; 124; 138; 135; 187; 3].
Definition t_g_x : bytes :=
  [49; 248; 44; 123; 91; 156; 187; 240; 241; 148; 217; 19; 204; 18; 239; 21; 50; 211; 40; 239; 50; 99; 42;
   72; 129; 161; 192; 112; 30; 35; 127; 4].
Definition t_y : bytes :=
  [230; 156; 35; 251; 248; 27; 196; 53; 148; 36; 70; 131; 127; 232; 39; 191; 32; 108; 143; 161; 10; 57; 219;
   71; 68; 158; 90; 129; 52; 33; 225; 232].
Definition t_g_y : bytes :=
  [220; 136; 210; 213; 29; 165; 237; 103; 252; 70; 22; 53; 107; 200; 202; 116; 239; 158; 190; 139; 56; 126;
   98; 58; 54; 11; 164; 128; 185; 178; 157; 28].
Definition t_sk_i : bytes :=
  [76; 91; 37; 135; 143; 80; 124; 107; 157; 174; 104; 251; 212; 253; 63; 249; 151; 83; 61; 176; 175; 0; 178;
   93; 50; 78; 162; 142; 108; 33; 59; 200].
Definition t_pk_i : bytes :=
  [237; 6; 168; 174; 97; 168; 41; 186; 95; 165; 69; 37; 201; 208; 127; 72; 221; 68; 163; 2; 244; 62; 15; 35;
   216; 204; 32; 183; 48; 133; 20; 30].
Definition t_sk_r : bytes :=
  [239; 20; 15; 249; 0; 176; 171; 3; 240; 192; 141; 135; 156; 187; 212; 179; 30; 167; 30; 110; 126; 231; 255;
   203; 126; 121; 85; 119; 122; 51; 39; 153].
Definition t_pk_r : bytes :=
  [161; 219; 71; 185; 81; 132; 133; 74; 209; 42; 12; 26; 53; 78; 65; 138; 172; 227; 58; 160; 242; 198; 98;
   192; 11; 58; 197; 93; 233; 47; 147; 89].
Definition t_id_cred_i : bytes :=
  [161; 24; 34; 130; 46; 72; 194; 74; 178; 253; 118; 67; 199; 159].
Definition t_id_cred_r : bytes :=
  [161; 24; 34; 130; 46; 72; 121; 242; 164; 27; 81; 12; 31; 155].
Definition t_cred_i : bytes :=
  [88; 241; 48; 129; 238; 48; 129; 161; 160; 3; 2; 1; 2; 2; 4; 98; 49; 158; 160; 48; 5; 6; 3; 43; 101; 112;
   48; 29; 49; 27; 48; 25; 6; 3; 85; 4; 3; 12; 18; 69; 68; 72; 79; 67; 32; 82; 111; 111; 116; 32; 69; 100;
   50; 53; 53; 49; 57; 48; 30; 23; 13; 50; 50; 48; 51; 49; 54; 48; 56; 50; 52; 48; 48; 90; 23; 13; 50; 57;
   49; 50; 51; 49; 50; 51; 48; 48; 48; 48; 90; 48; 34; 49; 32; 48; 30; 6; 3; 85; 4; 3; 12; 23; 69; 68; 72;
   79; 67; 32; 73; 110; 105; 116; 105; 97; 116; 111; 114; 32; 69; 100; 50; 53; 53; 49; 57; 48; 42; 48; 5; 6;
   3; 43; 101; 112; 3; 33; 0; 237; 6; 168; 174; 97; 168; 41; 186; 95; 165; 69; 37; 201; 208; 127; 72; 221;
   68; 163; 2; 244; 62; 15; 35; 216; 204; 32; 183; 48; 133; 20; 30; 48; 5; 6; 3; 43; 101; 112; 3; 65; 0; 82;
   18; 65; 216; 179; 167; 112; 153; 107; 207; 201; 185; 234; 212; 231; 224; 161; 192; 219; 53; 58; 59; 223;
   41; 16; 179; 146; 117; 174; 72; 183; 86; 1; 89; 129; 133; 13; 39; 219; 103; 52; 227; 127; 103; 33; 34;
   103; 221; 5; 238; 255; 39; 185; 231; 168; 19; 250; 87; 75; 114; 160; 11; 67; 11].
Definition t_cred_r : bytes :=
  [88; 241; 48; 129; 238; 48; 129; 161; 160; 3; 2; 1; 2; 2; 4; 98; 49; 158; 196; 48; 5; 6; 3; 43; 101; 112;
   48; 29; 49; 27; 48; 25; 6; 3; 85; 4; 3; 12; 18; 69; 68; 72; 79; 67; 32; 82; 111; 111; 116; 32; 69; 100;
   50; 53; 53; 49; 57; 48; 30; 23; 13; 50; 50; 48; 51; 49; 54; 48; 56; 50; 52; 51; 54; 90; 23; 13; 50; 57;
   49; 50; 51; 49; 50; 51; 48; 48; 48; 48; 90; 48; 34; 49; 32; 48; 30; 6; 3; 85; 4; 3; 12; 23; 69; 68; 72;
   79; 67; 32; 82; 101; 115; 112; 111; 110; 100; 101; 114; 32; 69; 100; 50; 53; 53; 49; 57; 48; 42; 48; 5; 6;
   3; 43; 101; 112; 3; 33; 0; 161; 219; 71; 185; 81; 132; 133; 74; 209; 42; 12; 26; 53; 78; 65; 138; 172;
   227; 58; 160; 242; 198; 98; 192; 11; 58; 197; 93; 233; 47; 147; 89; 48; 5; 6; 3; 43; 101; 112; 3; 65; 0;
   183; 35; 188; 1; 234; 176; 146; 142; 139; 43; 108; 152; 222; 25; 204; 56; 35; 212; 110; 125; 105; 135;
   176; 50; 71; 143; 236; 250; 241; 69; 55; 161; 175; 20; 204; 139; 232; 41; 198; 183; 48; 68; 16; 24; 55;
   235; 74; 188; 148; 149; 101; 216; 109; 206; 81; 207; 174; 82; 171; 130; 193; 82; 203; 2].
Definition t_message_1 : bytes :=
  [0; 0; 88; 32; 49; 248; 44; 123; 91; 156; 187; 240; 241; 148; 217; 19; 204; 18; 239; 21; 50; 211; 40; 239;
   50; 99; 42; 72; 129; 161; 192; 112; 30; 35; 127; 4; 45].
Definition t_message_2 : bytes :=
  [88; 114; 220; 136; 210; 213; 29; 165; 237; 103; 252; 70; 22; 53; 107; 200; 202; 116; 239; 158; 190; 139;
   56; 126; 98; 58; 54; 11; 164; 128; 185; 178; 157; 28; 188; 38; 221; 39; 15; 233; 192; 44; 68; 206; 57; 52;
   121; 75; 28; 198; 43; 162; 47; 5; 69; 159; 141; 53; 140; 141; 18; 39; 90; 196; 44; 95; 150; 222; 213; 241;
   60; 201; 8; 78; 91; 32; 24; 137; 164; 94; 90; 96; 165; 86; 45; 193; 24; 97; 156; 61; 170; 47; 217; 244;
   201; 244; 214; 237; 173; 16; 157; 212; 237; 249; 89; 98; 170; 251; 175; 154; 179; 244; 161; 246; 185; 143].
Definition t_message_3 : bytes :=
  [88; 88; 37; 195; 69; 136; 74; 170; 235; 34; 197; 39; 249; 177; 210; 182; 120; 114; 7; 224; 22; 60; 105;
   182; 42; 13; 67; 146; 129; 80; 66; 114; 3; 195; 22; 116; 228; 81; 78; 166; 227; 131; 181; 102; 235; 41;
   118; 62; 254; 176; 175; 165; 24; 119; 106; 225; 198; 95; 133; 109; 132; 191; 50; 175; 58; 120; 54; 151; 4;
   102; 220; 183; 31; 118; 116; 93; 57; 211; 2; 94; 119; 3; 224; 192; 50; 235; 173; 81; 148; 124].
Definition t_message_4 : bytes :=
  [72; 79; 14; 222; 227; 102; 229; 200; 131].
Definition t_prk_out : bytes :=
  [183; 68; 203; 125; 138; 135; 204; 4; 71; 195; 53; 14; 22; 91; 37; 13; 171; 18; 236; 69; 51; 37; 171; 185;
   34; 179; 3; 7; 229; 195; 104; 240].
(** G_XY, M_2, M_3 and their signatures *)
Definition t_g_xy : bytes :=
  [229; 205; 243; 169; 134; 205; 172; 91; 123; 240; 70; 145; 226; 176; 124; 8; 231; 31; 83; 153; 141; 143;
   132; 43; 124; 63; 180; 216; 57; 207; 123; 40].
Definition t_m_2 : bytes :=
  [132; 106; 83; 105; 103; 110; 97; 116; 117; 114; 101; 49; 78; 161; 24; 34; 130; 46; 72; 121; 242; 164; 27;
   81; 12; 31; 155; 89; 1; 21; 88; 32; 198; 64; 92; 21; 76; 86; 116; 102; 171; 29; 242; 3; 105; 80; 14; 84;
   14; 159; 20; 189; 58; 121; 106; 6; 82; 202; 230; 108; 144; 97; 104; 141; 88; 241; 48; 129; 238; 48; 129;
   161; 160; 3; 2; 1; 2; 2; 4; 98; 49; 158; 196; 48; 5; 6; 3; 43; 101; 112; 48; 29; 49; 27; 48; 25; 6; 3; 85;
   4; 3; 12; 18; 69; 68; 72; 79; 67; 32; 82; 111; 111; 116; 32; 69; 100; 50; 53; 53; 49; 57; 48; 30; 23; 13;
   50; 50; 48; 51; 49; 54; 48; 56; 50; 52; 51; 54; 90; 23; 13; 50; 57; 49; 50; 51; 49; 50; 51; 48; 48; 48;
   48; 90; 48; 34; 49; 32; 48; 30; 6; 3; 85; 4; 3; 12; 23; 69; 68; 72; 79; 67; 32; 82; 101; 115; 112; 111;
   110; 100; 101; 114; 32; 69; 100; 50; 53; 53; 49; 57; 48; 42; 48; 5; 6; 3; 43; 101; 112; 3; 33; 0; 161;
   219; 71; 185; 81; 132; 133; 74; 209; 42; 12; 26; 53; 78; 65; 138; 172; 227; 58; 160; 242; 198; 98; 192;
   11; 58; 197; 93; 233; 47; 147; 89; 48; 5; 6; 3; 43; 101; 112; 3; 65; 0; 183; 35; 188; 1; 234; 176; 146;
   142; 139; 43; 108; 152; 222; 25; 204; 56; 35; 212; 110; 125; 105; 135; 176; 50; 71; 143; 236; 250; 241;
   69; 55; 161; 175; 20; 204; 139; 232; 41; 198; 183; 48; 68; 16; 24; 55; 235; 74; 188; 148; 149; 101; 216;
   109; 206; 81; 207; 174; 82; 171; 130; 193; 82; 203; 2; 88; 32; 134; 42; 126; 94; 241; 71; 249; 165; 244;
   197; 18; 225; 182; 98; 60; 214; 108; 209; 122; 114; 114; 7; 43; 254; 91; 96; 47; 254; 48; 126; 224; 233].
Definition t_sig_2 : bytes :=
  [195; 181; 189; 68; 209; 228; 74; 8; 92; 3; 211; 174; 222; 78; 30; 108; 17; 197; 114; 161; 150; 140; 195;
   98; 155; 80; 95; 152; 198; 129; 96; 141; 61; 29; 231; 147; 209; 196; 14; 181; 221; 93; 137; 172; 241; 150;
   106; 234; 7; 2; 43; 72; 205; 201; 152; 112; 235; 196; 3; 116; 232; 250; 110; 9].
Definition t_m_3 : bytes :=
  [132; 106; 83; 105; 103; 110; 97; 116; 117; 114; 101; 49; 78; 161; 24; 34; 130; 46; 72; 194; 74; 178; 253;
   118; 67; 199; 159; 89; 1; 21; 88; 32; 91; 125; 249; 180; 245; 143; 36; 12; 224; 65; 142; 72; 25; 27; 95;
   255; 58; 34; 181; 202; 87; 246; 105; 177; 103; 119; 153; 101; 146; 233; 40; 188; 88; 241; 48; 129; 238;
   48; 129; 161; 160; 3; 2; 1; 2; 2; 4; 98; 49; 158; 160; 48; 5; 6; 3; 43; 101; 112; 48; 29; 49; 27; 48; 25;
   6; 3; 85; 4; 3; 12; 18; 69; 68; 72; 79; 67; 32; 82; 111; 111; 116; 32; 69; 100; 50; 53; 53; 49; 57; 48;
   30; 23; 13; 50; 50; 48; 51; 49; 54; 48; 56; 50; 52; 48; 48; 90; 23; 13; 50; 57; 49; 50; 51; 49; 50; 51;
   48; 48; 48; 48; 90; 48; 34; 49; 32; 48; 30; 6; 3; 85; 4; 3; 12; 23; 69; 68; 72; 79; 67; 32; 73; 110; 105;
   116; 105; 97; 116; 111; 114; 32; 69; 100; 50; 53; 53; 49; 57; 48; 42; 48; 5; 6; 3; 43; 101; 112; 3; 33; 0;
   237; 6; 168; 174; 97; 168; 41; 186; 95; 165; 69; 37; 201; 208; 127; 72; 221; 68; 163; 2; 244; 62; 15; 35;
   216; 204; 32; 183; 48; 133; 20; 30; 48; 5; 6; 3; 43; 101; 112; 3; 65; 0; 82; 18; 65; 216; 179; 167; 112;
   153; 107; 207; 201; 185; 234; 212; 231; 224; 161; 192; 219; 53; 58; 59; 223; 41; 16; 179; 146; 117; 174;
   72; 183; 86; 1; 89; 129; 133; 13; 39; 219; 103; 52; 227; 127; 103; 33; 34; 103; 221; 5; 238; 255; 39; 185;
   231; 168; 19; 250; 87; 75; 114; 160; 11; 67; 11; 88; 32; 57; 177; 39; 193; 48; 18; 154; 250; 48; 97; 140;
   117; 19; 41; 230; 55; 204; 55; 52; 39; 13; 75; 1; 37; 132; 69; 168; 238; 2; 218; 163; 189].
Definition t_sig_3 : bytes :=
  [150; 225; 205; 95; 206; 173; 250; 193; 181; 175; 129; 148; 67; 247; 9; 36; 245; 113; 153; 85; 149; 127;
   208; 38; 85; 190; 180; 119; 94; 26; 115; 24; 106; 13; 29; 62; 166; 131; 240; 143; 141; 3; 220; 236; 185;
   207; 21; 78; 28; 111; 85; 90; 30; 18; 202; 17; 140; 228; 43; 219; 166; 135; 137; 7].

Definition same (a b : bytes) : bool := if list_eq_dec N.eq_dec a b then true else false.
(** The curve and signature functions at the points of the trace *)
Definition trace_crypto : crypto := standard {|
  cr_hmac := fun _ _ => []; cr_hash := fun _ => []; cr_aead_enc := fun _ _ _ _ _ => None; cr_aead_dec := fun _ _ _ _ _ => None;
  cr_dh := fun _ sk pk => if (same sk t_x && same pk t_g_y) || (same sk t_y && same pk t_g_x) then Some t_g_xy else None;
  cr_pub := fun _ _ => [];
  cr_sign := fun _ sk pk m =>
    if same sk t_sk_r && same pk t_pk_r && same m t_m_2 then Some t_sig_2
    else if same sk t_sk_i && same pk t_pk_i && same m t_m_3 then Some t_sig_3 else None;
  cr_verify := fun _ pk m s => Some
    ((same pk t_pk_r && same m t_m_2 && same s t_sig_2) || (same pk t_pk_i && same m t_m_3 && same s t_sig_3)) |}.
Definition trace_initiator : initiator := {|
  i_c_i := [45]; i_method := 0; i_suites := [0]; i_ead_1 := []; i_ead_3 := []; i_id_cred := t_id_cred_i; i_cred := t_cred_i;
  i_g_x := t_g_x; i_x := t_x; i_g_i := []; i_i := []; i_sk := t_sk_i; i_pk := t_pk_i |}.
Definition trace_responder : responder := {|
  r_c_r := [24]; r_suites := [0]; r_g_y := t_g_y; r_y := t_y; r_g_r := []; r_r := []; r_ead_2 := [];
  r_id_cred := t_id_cred_r; r_cred := t_cred_r; r_sk := t_sk_r; r_pk := t_pk_r |}.
Definition trace_creds_i : list other_party_cred := [{|
  oc_id_cred := t_id_cred_i; oc_cred := t_cred_i; oc_pk := t_pk_i; oc_g := []; oc_ca := []; oc_ca_pk := [] |}].
Definition trace_creds_r : list other_party_cred := [{|
  oc_id_cred := t_id_cred_r; oc_cred := t_cred_r; oc_pk := t_pk_r; oc_g := []; oc_ca := []; oc_ca_pk := [] |}].
Definition trace_env : env := {|
  e_tx := fun _ _ => Ok tt;
  e_rx := fun n _ => Ok (if n =? 1 then t_message_1 else if n =? 2 then t_message_2 else if n =? 3 then t_message_3 else t_message_4);
  e_ead := fun _ _ => Ok tt |}.

(** test_edhoc_initiator_x509_x5t_rfc9529: message_1, message_3 and PRK_out are those of RFC 9529. *)
Example C74_initiator_example :
  let o := initiator_run4 trace_crypto default_cfg toy_pf trace_initiator trace_creds_r 32 trace_env in
  o_ret o = Ok tt /\ o_sent o = [t_message_1; t_message_3] /\ o_prk o = Some t_prk_out.
Proof. vm_compute. repeat split; reflexivity. Qed.
(** test_edhoc_responder_x509_x5t_rfc9529: message_2, message_4 and PRK_out are those of RFC 9529. *)
Example C74_responder_example :
  let o := responder_run4 trace_crypto default_cfg toy_pf trace_responder [] trace_creds_i 32 trace_env in
  o_ret o = Ok tt /\ o_sent o = [t_message_2; t_message_4] /\ o_prk o = Some t_prk_out.
Proof. vm_compute. repeat split; reflexivity. Qed.

(** test/edhoc_integration_tests/exporter_tests.c: key update and export of the OSCORE master secret and salt
    (test_vectors/edhoc_test_vectors_exporter_v15.h) *)
Definition exp_prk_out : bytes :=
  [45; 109; 183; 175; 162; 232; 114; 226; 49; 101; 25; 99; 3; 226; 244; 86; 113; 64; 129; 171; 144; 129; 30;
   41; 38; 215; 40; 58; 63; 73; 241; 172].
Definition exp_prk_exporter : bytes :=
  [234; 249; 18; 214; 154; 150; 104; 89; 240; 230; 155; 192; 253; 22; 164; 185; 91; 189; 155; 108; 190; 44;
   82; 91; 210; 63; 212; 127; 52; 5; 158; 16].
Example C74_exporter_example :
  prk_out_update trace_crypto default_cfg exp_prk_out
    [214; 190; 22; 150; 2; 184; 188; 234; 160; 17; 88; 253; 184; 32; 137; 12] 32 =
  Ok [111; 166; 238; 47; 251; 243; 128; 91; 209; 216; 171; 89; 11; 137; 50; 162; 5; 175; 246; 165; 250; 121;
      75; 29; 233; 60; 87; 175; 169; 99; 143; 179] /\
  prk_out2exporter trace_crypto default_cfg exp_prk_out 32 = Ok exp_prk_exporter /\
  edhoc_exporter trace_crypto default_cfg OSCORE_MASTER_SECRET exp_prk_exporter 16 =
  Ok [214; 221; 9; 177; 55; 53; 159; 10; 210; 21; 221; 2; 25; 98; 192; 92] /\
  edhoc_exporter trace_crypto default_cfg OSCORE_MASTER_SALT exp_prk_exporter 8 =
  Ok [135; 179; 235; 187; 225; 126; 180; 185].
Proof. vm_compute. repeat split; reflexivity. Qed.
