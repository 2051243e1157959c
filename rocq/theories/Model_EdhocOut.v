(** Model of what the runs of src/edhoc/initiator.c and src/edhoc/responder.c write to
    the arrays of the caller (PRK_out, the identifier of the peer, the key of the
    initiator), also when they fail; build without MESSAGE_4. The steps between two
    writes are those of Model_EdhocRun.v. *)
From Verif Require Import Base Model_Common Model_Cbor Model_Crypto Model_EdhocCfg Model_EdhocCbor
  Model_EdhocKeys Model_EdhocCert Model_EdhocMsg Model_EdhocRun.

(** inc/common/byte_array.h:23-26 struct byte_array of the caller: the memory that ptr
    points to and the member len. ptr is NULL iff there is no memory. *)
Record array := { a_mem : bytes; a_len : N }.
(** inc/common/byte_array.h:94-118 BYTE_ARRAY_NEW with buffer and length of the same
    size; the content is arbitrary. *)
Definition new_array (mem : bytes) : array := {| a_mem := mem; a_len := lenN mem |}.
(** what a reader of the array sees: inc/common/byte_array.h:23-26 *)
Definition content (a : array) : bytes := takeN (a_len a) (a_mem a).

(** src/common/memcpy_s.c:27-40 _memcpy_s(a->ptr, a->len, b): the size that is checked
    is the member len, the memory may be smaller. *)
Definition memcpy_array (a : array) (b : bytes) : res array :=
  if lenN b =? 0 then Ok a
  else if lenN (a_mem a) =? 0 then Err wrong_parameter
  else
    let* _ := check_buffer_size (a_len a) (lenN b) in
    if lenN (a_mem a) <? lenN b then UB OobWrite
    else Ok {| a_mem := b ++ dropN (lenN b) (a_mem a); a_len := a_len a |}.
(** the assignment to len after the copy, e.g. src/edhoc/plaintext_decode.c:94-97 *)
Definition set_len (a : array) (n : N) : array := {| a_mem := a_mem a; a_len := n |}.

Section Out.
Variable cr : crypto.
Variable cf : cfg.
Variable pf : platform.

(** src/edhoc/initiator.c:129-171, message_2 up to PLAINTEXT_2 *)
Definition msg2_plaintext (c : initiator) (st : suite) (h1 msg : bytes) : res bytes :=
  let n := get_ecdh_pk_len (edhoc_ecdh st) in
  let* _ := byte_array_new G_Y_SIZE n in
  let clen := sub32 (lenN msg) n in
  let clen := sub32 clen (bstr_overhead clen) in
  let* _ := byte_array_new (CIPHERTEXT2_SIZE cf) clen in
  let* (g_y, ct) := msg2_parse cf msg n clen in
  let* g_xy := shared_secret_derive cr (edhoc_ecdh st) (i_x c) g_y in
  let* th2 := th2_calculate cr h1 g_y in
  let prk_2e := hkdf_extract cr th2 g_xy in
  let* _ := check_buffer_size (PLAINTEXT2_SIZE cf) (lenN ct) in
  let* _ := byte_array_new (CIPHERTEXT2_SIZE cf) (lenN ct) in
  let* key := key_gen_2 cr cf prk_2e th2 (lenN ct) in
  let* _ := associated_data_encode th2 in
  Ok (xor_bytes ct key).
(** src/edhoc/plaintext_decode.c:92-103: C_R goes to the array of the caller. *)
Definition write_c_r (pt : bytes) (a : array) : res array :=
  let* p := ext (cbor_decode_ptxt2 pt) in
  match pt_c_r p with
  | Some (UStr b) => let* a' := memcpy_array a b in Ok (set_len a' (lenN b))
  | Some (UInt z) =>
      let* b := encode_int z (a_len a) in
      let* a' := memcpy_array a b in Ok (set_len a' (lenN b))
  | None => UB Uninit
  end.
(** the array for C_R when src/edhoc/initiator.c:129-200 msg2_process is over *)
Definition c_r_after (c : initiator) (st : suite) (h1 msg : bytes) (a : array) : res array :=
  let* pt := msg2_plaintext c st h1 msg in write_c_r pt a.
(** An array after an attempt to write it, and the result [r] of the function that did
    this: undefined behaviour of the copy ends everything, an error of the copy is
    an error of the function (TRY, inc/common/oscore_edhoc_error.h:86-93). *)
Definition written (w : res array) (a : array) : array := match w with Ok a' => a' | _ => a end.
(** TRY, inc/common/oscore_edhoc_error.h:86-93 *)
Definition after_write {A} (w : res array) (r : res A) : res A := match w with UB u => UB u | _ => r end.

(** src/edhoc/responder.c:55-122 msg1_parse up to C_I, which goes to the array of the
    caller; msg2_gen does not use the array otherwise. *)
Definition write_c_i (msg : bytes) (a : array) : res array :=
  let* m := ext (cbor_decode_message_1 msg) in
  if ((3 <? m1_method m) || (m1_method m <? 0))%Z then Err wrong_parameter
  else
    let* _ := match m1_suites m with
              | SInt z => if SUITES_I_SIZE cf =? 0 then UB NullDeref else Ok tt
              | SList l => if SUITES_I_SIZE cf <? lenN l then Err suites_i_list_to_long else Ok tt
              end in
    let* _ := copy_null G_X_SIZE (m1_g_x m) in
    match m1_c_i m with
    | UInt z =>
        if lenN (a_mem a) =? 0 then UB NullDeref
        else Ok {| a_mem := z_u8 z :: dropN 1 (a_mem a); a_len := 1 |}
    | UStr b => let* a' := memcpy_array a b in Ok (set_len a' (lenN b))
    end.
(** src/edhoc/responder.c:246-284, message_3 up to the lookup of the credential *)
Definition msg3_credential (c : responder) (rc : responder_rc) (msg : bytes) (creds : list other_party_cred)
    : res found :=
  let st := rr_suite rc in
  let* _ := byte_array_new (CIPHERTEXT3_SIZE cf) (lenN msg) in
  let* ct := decode_bstr msg (lenN msg) in
  let* _ := byte_array_new (PLAINTEXT3_SIZE cf + get_aead_mac_len (edhoc_aead st)) (lenN ct) in
  let* (pt, s) := ciphertext3_decrypt_split cr cf st (rr_prk_3e2m rc) (rr_th3 rc) ct
                    (ID_CRED_I_SIZE cf) (if EAD_SIZE cf =? 0 then 0 else lenN (rr_ead rc)) in
  retrieve_cred cr pf (rr_static_i rc) creds (sp_id_cred s) (CRED_I_SIZE cf).
(** src/edhoc/responder.c:286-290: the result of the copy is ignored and the length is
    set in any case. *)
Definition export_pk (a : option array) (pk : bytes) : res (option array) :=
  match a with
  | Some a =>
      if lenN (a_mem a) =? 0 then Ok (Some a)
      else match memcpy_array a pk with
           | Ok a' => Ok (Some (set_len a' (lenN pk)))
           | Err _ => Ok (Some (set_len a (lenN pk)))
           | UB u => UB u
           end
  | None => Ok None
  end.

(** What a run did and what it left in the arrays of the caller. *)
(** the outputs of src/edhoc/initiator.c:313 and responder.c:369 *)
Record left := {
  l_sent : list bytes;
  l_eads : list bytes;
  l_prk : bytes;
  l_peer_c : array;
  l_peer_pk : option array;
  l_ret : res unit
}.
(** TRY, inc/common/oscore_edhoc_error.h:86-93 *)
Definition leave {A} (sent eads : list bytes) (prk : bytes) (pc : array) (pk : option array) (r : res A) : left := {|
  l_sent := sent; l_eads := eads; l_prk := prk; l_peer_c := pc; l_peer_pk := pk;
  l_ret := match r with Ok _ => Ok tt | Err e => Err e | UB u => UB u end |}.

(** src/edhoc/initiator.c:277-311 edhoc_initiator_run_extended; [c_r] and [prk] are the
    array for C_R and the memory for PRK_out. *)
Definition initiator_leaves (c : initiator) (creds : list other_party_cred) (c_r : array) (prk : bytes) (e : env) : left :=
  match msg1_gen cr cf c with
  | Ok (m1, st, h1) =>
      match e_tx e 1 m1 with
      | Ok _ =>
          match receive cf e 2 [m1] with
          | Ok m2 =>
              let w := c_r_after c st h1 m2 c_r in
              let c_r' := written w c_r in
              match after_write w (msg3_gen cr cf pf c st h1 m2 creds (a_len c_r) (lenN prk)) with
              | Ok (a, m3, out) =>
                  let prk' := match out with Some p => p | None => prk end in
                  match e_ead e 2 (a2_ead a) with
                  | Ok _ => leave [m1; m3] [a2_ead a] prk' c_r' None (e_tx e 3 m3)
                  | r => leave [m1] [a2_ead a] prk' c_r' None r
                  end
              | r => leave [m1] [] prk c_r' None r
              end
          | r => leave [m1] [] prk c_r None r
          end
      | r => leave [m1] [] prk c_r None r
      end
  | r => leave [] [] prk c_r None r
  end.

(** src/edhoc/responder.c:334-367 edhoc_responder_run_extended *)
Definition responder_leaves (c : responder) (creds : list other_party_cred) (c_i : array) (pk : option array)
    (prk : bytes) (e : env) : left :=
  match receive cf e 1 [] with
  | Ok m1 =>
      let w := write_c_i m1 c_i in
      let c_i' := written w c_i in
      match after_write w (msg2_gen cr cf c m1 (a_len c_i)) with
      | Ok (_, rc) =>
          match e_ead e 1 (rr_ead rc) with
          | Ok _ =>
              match e_tx e 2 (rr_msg rc) with
              | Ok _ =>
                  match receive cf e 3 [rr_msg rc] with
                  | Ok m3 =>
                      match (let* f := msg3_credential c rc m3 creds in export_pk pk (f_pk f)) with
                      | Ok pk' =>
                          match msg3_process cr cf pf c rc m3 creds (lenN prk) with
                          | Ok (ead3, _, out) =>
                              leave [rr_msg rc] [rr_ead rc; ead3] out c_i' pk' (e_ead e 3 ead3)
                          | r => leave [rr_msg rc] [rr_ead rc] prk c_i' pk' r
                          end
                      | r => leave [rr_msg rc] [rr_ead rc] prk c_i' pk r
                      end
                  | r => leave [rr_msg rc] [rr_ead rc] prk c_i' pk r
                  end
              | r => leave [rr_msg rc] [rr_ead rc] prk c_i' pk r
              end
          | r => leave [] [rr_ead rc] prk c_i' pk r
          end
      | r => leave [] [] prk c_i' pk r
      end
  | r => leave [] [] prk c_i pk r
  end.
End Out.
