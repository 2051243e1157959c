(** Model of the build with MESSAGE_4 defined: message_4 in src/edhoc/initiator.c,
    src/edhoc/responder.c and src/edhoc/ciphertext.c. *)
From Verif Require Import Base Model_Common Model_Cbor Model_Crypto Model_EdhocCfg Model_EdhocCbor
  Model_EdhocKeys Model_EdhocCert Model_EdhocMsg Model_EdhocRun.

(** inc/edhoc/buffer_sizes.h:84 *)
Definition PLAINTEXT4_SIZE (cf : cfg) : N := EAD_SIZE cf + COSE_ENC0_STR_LEN.
(** inc/edhoc/buffer_sizes.h:85 *)
Definition CIPHERTEXT4_SIZE (cf : cfg) : N := PLAINTEXT4_SIZE cf.

Section Msg4.
Variable cr : crypto.
Variable cf : cfg.
Variable pf : platform.

(** src/edhoc/ciphertext.c:107-114 key_gen, CIPHERTEXT4 *)
Definition key_gen_4 (st : suite) (prk th : bytes) : res (bytes * bytes) :=
  let* k := edhoc_kdf cr cf prk K_4 th (get_aead_key_len (edhoc_aead st)) in
  let* iv := edhoc_kdf cr cf prk IV_4 th (get_aead_iv_len (edhoc_aead st)) in
  Ok (k, iv).

(** src/edhoc/ciphertext.c:184-271 ciphertext_gen for CIPHERTEXT4; [cap] and [bufsz]
    are the length of the plaintext array and the size of the ciphertext buffer.
    The AEAD (src/common/crypto_wrapper.c:207-237) writes the ciphertext and the tag
    without looking at the size of the buffer. *)
Definition ciphertext4_gen (st : suite) (ead prk th : bytes) (cap bufsz : N) : res bytes :=
  let* _ := byte_array_new (as_bstr_size SIG_OR_MAC_SIZE) (as_bstr_size 0) in
  let* _ := encode_bstr [] (as_bstr_size 0) in
  let* p := (if 0 <? lenN ead then append cap [] ead else Ok []) in
  let* _ := byte_array_new (CIPHERTEXT2_SIZE cf) (get_aead_key_len (edhoc_aead st)) in
  let* (key, iv) := key_gen_4 st prk th in
  let* aad := associated_data_encode th in
  let tag_len := get_aead_mac_len (edhoc_aead st) in
  if bufsz <? lenN p + tag_len then UB OobWrite
  else ext (cr_aead_enc cr key iv aad tag_len p).

(** src/edhoc/ciphertext.c:160-167 with src/edhoc/bstr_encode_decode.c:29-42: EAD_4
    goes to rc->ead, which is NULL iff EAD_SIZE is 0; its length field, [cap], still
    is the length of EAD_2. *)
Definition ead4_get (pt : bytes) (cap : N) : res bytes :=
  if lenN pt =? 0 then Ok []
  else
    let* (b, _) := ext (dec_bstr pt) in
    if lenN b =? 0 then Ok []
    else if EAD_SIZE cf =? 0 then Err wrong_parameter
    else let* _ := check_buffer_size cap (lenN b) in Ok b.
(** src/edhoc/ciphertext.c:119-182 ciphertext_decrypt_split for CIPHERTEXT4; the
    plaintext array has the length of the ciphertext when the function is called *)
Definition ciphertext4_decrypt (st : suite) (prk th ct : bytes) (ead_cap : N) : res bytes :=
  let* _ := byte_array_new (CIPHERTEXT2_SIZE cf) (get_aead_key_len (edhoc_aead st)) in
  let* (key, iv) := key_gen_4 st prk th in
  let* aad := associated_data_encode th in
  let tag_len := get_aead_mac_len (edhoc_aead st) in
  if lenN ct <? tag_len then Err error_message_received
  else
    let* pt := ext (cr_aead_dec cr key iv aad tag_len ct) in
    ead4_get pt ead_cap.

(** src/edhoc/responder.c:312-332 msg4_gen; [msg_cap] is the length of the message
    array, which is that of the received message_3 *)
Definition msg4_gen (st : suite) (ead_4 prk_4e3m th4 : bytes) (msg_cap : N) : res bytes :=
  let* ct := ciphertext4_gen st ead_4 prk_4e3m th4 (PLAINTEXT4_SIZE cf) (CIPHERTEXT4_SIZE cf) in
  encode_bstr ct msg_cap.
(** src/edhoc/initiator.c:258-275 msg4_process; result: EAD_4 *)
Definition msg4_process (st : suite) (ead_2 prk_4e3m th4 msg : bytes) : res bytes :=
  let* ct := decode_bstr msg (CIPHERTEXT4_SIZE cf) in
  let* _ := byte_array_new (PLAINTEXT4_SIZE cf + get_aead_mac_len (edhoc_aead st)) (lenN ct) in
  ciphertext4_decrypt st prk_4e3m th4 ct (lenN ead_2).

(** rc->th4 after src/edhoc/initiator.c:202-256: msg3_only_gen may have failed before
    it wrote TH_4; then it has the zeros of the initialisation
    (initiator.c:286). [msg] is the received message_2. *)
Definition rc_th4 (c : initiator) (st : suite) (a : after2) (msg : bytes) : bytes :=
  let '(static_i, _) := authentication_type_get (i_method c) (false, false) in
  let r := let* (pt, _) := msg3_message cr cf c st static_i a (lenN msg) in
           th34_calculate cr cf (a2_th3 a) pt (i_cred c) in
  match r with Ok t => t | _ => repeat 0 32 end.

(** src/edhoc/initiator.c:277-311 edhoc_initiator_run_extended with MESSAGE_4 *)
Definition initiator_run4_extended (c : initiator) (creds : list other_party_cred) (c_cap prk_len : N)
    (e : env) : outcome :=
  match msg1_gen cr cf c with
  | Ok (m1, st, h1) =>
      match e_tx e 1 m1 with
      | Ok _ =>
          match receive cf e 2 [m1] with
          | Ok m2 =>
              match msg3_gen cr cf pf c st h1 m2 creds c_cap prk_len with
              | Ok (a, m3, prk) =>
                  match e_ead e 2 (a2_ead a) with
                  | Ok _ =>
                      match e_tx e 3 m3 with
                      | Ok _ =>
                          match receive cf e 4 [m1; m3] with
                          | Ok m4 =>
                              match msg4_process st (a2_ead a) (a2_prk_4e3m a) (rc_th4 c st a m2) m4 with
                              | Ok ead4 => stop [m1; m3] [a2_ead a; ead4] prk (Some (a2_c_r a)) None
                                             (e_ead e 4 ead4)
                              | r => stop [m1; m3] [a2_ead a] prk (Some (a2_c_r a)) None r
                              end
                          | r => stop [m1; m3] [a2_ead a] prk (Some (a2_c_r a)) None r
                          end
                      | r => stop [m1; m3] [a2_ead a] prk (Some (a2_c_r a)) None r
                      end
                  | r => stop [m1] [a2_ead a] prk (Some (a2_c_r a)) None r
                  end
              | r => stop [m1] [] None None None r
              end
          | r => stop [m1] [] None None None r
          end
      | r => stop [m1] [] None None None r
      end
  | r => stop [] [] None None None r
  end.
(** src/edhoc/initiator.c:313-325 edhoc_initiator_run with MESSAGE_4 *)
Definition initiator_run4 (c : initiator) (creds : list other_party_cred) (prk_len : N) (e : env) : outcome :=
  initiator_run4_extended c creds (C_R_SIZE cf) prk_len e.

(** src/edhoc/responder.c:334-367 edhoc_responder_run_extended with MESSAGE_4;
    [ead_4] is the member of that name of struct edhoc_responder_context
    (inc/edhoc.h:54) *)
Definition responder_run4_extended (c : responder) (ead_4 : bytes) (creds : list other_party_cred)
    (ci_cap : N) (pk_cap : option N) (prk_len : N) (e : env) : outcome :=
  match receive cf e 1 [] with
  | Ok m1 =>
      match msg2_gen cr cf c m1 ci_cap with
      | Ok (c_i, rc) =>
          match e_ead e 1 (rr_ead rc) with
          | Ok _ =>
              match e_tx e 2 (rr_msg rc) with
              | Ok _ =>
                  match receive cf e 3 [rr_msg rc] with
                  | Ok m3 =>
                      match msg3_process_full cr cf pf c rc m3 creds prk_len with
                      | Ok (ead3, ipk, prk, (prk4, th4)) =>
                          let opk := match pk_cap with
                                     | Some n => if n <? lenN ipk then None else Some ipk
                                     | None => None
                                     end in
                          match e_ead e 3 ead3 with
                          | Ok _ =>
                              match msg4_gen (rr_suite rc) ead_4 prk4 th4 (lenN m3) with
                              | Ok m4 => stop [rr_msg rc; m4] [rr_ead rc; ead3] (Some prk) (Some c_i) opk
                                           (e_tx e 4 m4)
                              | r => stop [rr_msg rc] [rr_ead rc; ead3] (Some prk) (Some c_i) opk r
                              end
                          | r => stop [rr_msg rc] [rr_ead rc; ead3] (Some prk) (Some c_i) opk r
                          end
                      | r => stop [rr_msg rc] [rr_ead rc] None (Some c_i) None r
                      end
                  | r => stop [rr_msg rc] [rr_ead rc] None (Some c_i) None r
                  end
              | r => stop [rr_msg rc] [rr_ead rc] None (Some c_i) None r
              end
          | r => stop [] [rr_ead rc] None (Some c_i) None r
          end
      | r => stop [] [] None None None r
      end
  | r => stop [] [] None None None r
  end.
(** src/edhoc/responder.c:369-380 edhoc_responder_run with MESSAGE_4 *)
Definition responder_run4 (c : responder) (ead_4 : bytes) (creds : list other_party_cred) (prk_len : N)
    (e : env) : outcome :=
  responder_run4_extended c ead_4 creds (C_I_SIZE cf) None prk_len e.
End Msg4.
