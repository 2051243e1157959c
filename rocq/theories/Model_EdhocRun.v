(** Model of src/edhoc/initiator.c, src/edhoc/responder.c and
    src/edhoc/runtime_context.c (build without MESSAGE_4). *)
From Verif Require Import Base Model_Common Model_Cbor Model_Crypto Model_EdhocCfg Model_EdhocCbor
  Model_EdhocKeys Model_EdhocCert Model_EdhocMsg.

(** inc/edhoc.h:63-79 struct edhoc_initiator_context *)
Record initiator := {
  i_c_i : bytes;
  i_method : N;
  i_suites : bytes;
  i_ead_1 : bytes;
  i_ead_3 : bytes;
  i_id_cred : bytes;
  i_cred : bytes;
  i_g_x : bytes;
  i_x : bytes;
  i_g_i : bytes;
  i_i : bytes;
  i_sk : bytes;
  i_pk : bytes
}.
(** inc/edhoc.h:46-61 struct edhoc_responder_context *)
Record responder := {
  r_c_r : bytes;
  r_suites : bytes;
  r_g_y : bytes;
  r_y : bytes;
  r_g_r : bytes;
  r_r : bytes;
  r_ead_2 : bytes;
  r_id_cred : bytes;
  r_cred : bytes;
  r_sk : bytes;
  r_pk : bytes
}.

(** The callbacks tx, rx and ead_process of one run; [rx] sees what was sent so far.
    An error of a callback ends the run. *)
(** the function pointers of src/edhoc/initiator.c:277-311 and responder.c:334-367 *)
Record env := {
  e_tx : N -> bytes -> res unit;
  e_rx : N -> list bytes -> res bytes;
  e_ead : N -> bytes -> res unit
}.

Section Run.
Variable cr : crypto.
Variable cf : cfg.
Variable pf : platform.

(** rx into the message buffer of MSG_MAX_SIZE bytes *)
(** rx in src/edhoc/initiator.c:277-311 and responder.c:334-367 *)
Definition receive (e : env) (n : N) (sent : list bytes) : res bytes :=
  let* m := e_rx e n sent in
  if MSG_MAX_SIZE cf <? lenN m then UB OobWrite else Ok m.

(* ---------- initiator ---------- *)

(** src/edhoc/initiator.c:73-112, the message_1 structure *)
Definition msg1_struct (c : initiator) : res message_1 :=
  let* su := match i_suites c with
             | [] => UB Uninit
             | [s] => Ok (SInt (Z.of_N s))
             | l => if 10 <? lenN l then UB OobWrite else Ok (SList (map Z.of_N l))
             end in
  let* ci := (if c_x_is_encoded_int (i_c_i c)
              then let* z := decode_int (i_c_i c) in Ok (UInt z)
              else Ok (UStr (i_c_i c))) in
  Ok {| m1_method := Z.of_N (i_method c); m1_suites := su; m1_g_x := i_g_x c; m1_c_i := ci;
        m1_ead_1 := match i_ead_1 c with [] => None | e => Some e end |}.
(** src/edhoc/initiator.c:68-127 msg1_gen: message_1, suite, H(message_1) *)
Definition msg1_gen (c : initiator) : res (bytes * suite * bytes) :=
  let* m1 := msg1_struct c in
  let* msg := cbor_encode_message_1 (MSG_MAX_SIZE cf) m1 in
  let* st := get_suite (last (i_suites c) 0) in
  Ok (msg, st, cr_hash cr msg).

(** src/edhoc/initiator.c:48-66 msg2_parse: G_Y and CIPHERTEXT_2; [cap] is the length
    of the ciphertext array. *)
Definition msg2_parse (msg : bytes) (g_y_len cap : N) : res (bytes * bytes) :=
  let* b := decode_bstr msg (G_Y_CIPHERTEXT_2 cf) in
  if lenN b <? g_y_len then (if cap =? 0 then Err wrong_parameter else Err buffer_to_small)
  else
    let* ct := copy_null cap (dropN g_y_len b) in
    Ok (takeN g_y_len b, ct).

(** What msg2_process leaves behind: C_R, EAD_2, TH_3, PRK_3e2m, PRK_4e3m. *)
(** the outputs of src/edhoc/initiator.c:129-200 in struct runtime_context *)
Record after2 := {
  a2_c_r : bytes;
  a2_ead : bytes;
  a2_th3 : bytes;
  a2_prk_3e2m : bytes;
  a2_prk_4e3m : bytes
}.
(** src/edhoc/initiator.c:129-200 msg2_process; [c_cap] is the length of the C_R array *)
Definition msg2_process (c : initiator) (st : suite) (h1 msg : bytes) (creds : list other_party_cred)
    (c_cap : N) (static_i static_r : bool) : res after2 :=
  let n := get_ecdh_pk_len (edhoc_ecdh st) in
  let* _ := byte_array_new G_Y_SIZE n in
  let clen := sub32 (lenN msg) n in
  let clen := sub32 clen (bstr_overhead clen) in
  let* _ := byte_array_new (CIPHERTEXT2_SIZE cf) clen in
  let* (g_y, ct) := msg2_parse msg n clen in
  let* g_xy := shared_secret_derive cr (edhoc_ecdh st) (i_x c) g_y in
  let* th2 := th2_calculate cr h1 g_y in
  let prk_2e := hkdf_extract cr th2 g_xy in
  let* _ := check_buffer_size (PLAINTEXT2_SIZE cf) (lenN ct) in
  let* (pt, s) := ciphertext2_decrypt_split cr cf st prk_2e th2 ct c_cap (ID_CRED_R_SIZE cf)
                    (EAD_SIZE cf) in
  let* f := retrieve_cred cr pf static_r creds (sp_id_cred s) (CRED_R_SIZE cf) in
  let id := match sp_id_cred s with Some b => b | None => [] end in
  let* prk_3e2m := prk_derive cr cf static_r st SALT_3e2m th2 prk_2e (f_g f) (i_x c) in
  let* _ := sig_or_mac_verify cr cf static_r st (f_pk f) prk_3e2m (sp_c_r s) th2 id (f_cred f)
              (sp_ead s) MAC_2 (sp_sig s) in
  let* th3 := th34_calculate cr cf th2 pt (f_cred f) in
  let* prk_4e3m := prk_derive cr cf static_i st SALT_4e3m th3 prk_3e2m g_y (i_i c) in
  Ok {| a2_c_r := sp_c_r s; a2_ead := sp_ead s; a2_th3 := th3; a2_prk_3e2m := prk_3e2m;
        a2_prk_4e3m := prk_4e3m |}.

(** src/edhoc/initiator.c:202-229 msg3_only_gen, up to the message: PLAINTEXT_3 and
    message_3. [cap] is the length of the message array. *)
Definition msg3_message (c : initiator) (st : suite) (static_i : bool) (a : after2) (cap : N)
    : res (bytes * bytes) :=
  let pcap := lenN (i_id_cred c) + as_bstr_size SIG_OR_MAC_SIZE + lenN (i_ead_3 c) in
  let* _ := byte_array_new (PLAINTEXT3_SIZE cf) pcap in
  let* _ := byte_array_new (CIPHERTEXT3_SIZE cf)
              (as_bstr_size pcap + get_aead_mac_len (edhoc_aead st)) in
  let* sg := sig_or_mac_generate cr cf static_i st (i_sk c) (i_pk c) (a2_prk_4e3m a) [] (a2_th3 a)
               (i_id_cred c) (i_cred c) (i_ead_3 c) MAC_3 in
  let* (pt, ct) := ciphertext3_gen cr cf st (i_id_cred c) sg (i_ead_3 c) (a2_prk_3e2m a) (a2_th3 a)
                     pcap (CIPHERTEXT3_SIZE cf) in
  let* m3 := encode_bstr ct cap in
  Ok (pt, m3).
(** src/edhoc/initiator.c:202-238 msg3_only_gen. [msg] is the received message_2: its
    length is the capacity for message_3. Result: the message array afterwards and
    the outcome with PRK_out. *)
Definition msg3_only_gen (c : initiator) (st : suite) (static_i : bool) (a : after2) (msg : bytes)
    (prk_len : N) : bytes * res bytes :=
  match msg3_message c st static_i a (lenN msg) with
  | Ok (pt, m3) =>
      (m3, let* th4 := th34_calculate cr cf (a2_th3 a) pt (i_cred c) in
           edhoc_kdf cr cf (a2_prk_4e3m a) PRK_out th4 prk_len)
  | Err e => (msg, Err e)
  | UB u => (msg, UB u)
  end.

(** src/edhoc/initiator.c:240-256 msg3_gen: the result of msg3_only_gen is ignored, so
    [None] for PRK_out means that the caller's array was not written. *)
Definition msg3_gen (c : initiator) (st : suite) (h1 msg : bytes) (creds : list other_party_cred)
    (c_cap prk_len : N) : res (after2 * bytes * option bytes) :=
  let '(static_i, static_r) := authentication_type_get (i_method c) (false, false) in
  let* a := msg2_process c st h1 msg creds c_cap static_i static_r in
  match msg3_only_gen c st static_i a msg prk_len with
  | (m, Ok prk) => Ok (a, m, Some prk)
  | (m, Err _) => Ok (a, m, None)
  | (_, UB u) => UB u
  end.

(** What a run did: messages passed to tx, EADs passed to ead_process, the output
    arrays (None if not written) and the return value. *)
(** the outputs of src/edhoc/initiator.c:313 and responder.c:369 *)
Record outcome := {
  o_sent : list bytes;
  o_eads : list bytes;
  o_prk : option bytes;
  o_peer_c : option bytes;
  o_peer_pk : option bytes;
  o_ret : res unit
}.
(** TRY, inc/common/oscore_edhoc_error.h:86-93 *)
Definition stop {A} (sent eads : list bytes) (prk pc pk : option bytes) (r : res A) : outcome := {|
  o_sent := sent; o_eads := eads; o_prk := prk; o_peer_c := pc; o_peer_pk := pk;
  o_ret := match r with Ok _ => Ok tt | Err e => Err e | UB u => UB u end |}.

(** src/edhoc/initiator.c:277-311 edhoc_initiator_run_extended; [c_cap] and [prk_len]
    are the lengths of the arrays for C_R and PRK_out. C_R is also written when a
    later step of message_2 processing fails; see Model_EdhocOut.v for that. *)
Definition initiator_run_extended (c : initiator) (creds : list other_party_cred) (c_cap prk_len : N)
    (e : env) : outcome :=
  match msg1_gen c with
  | Ok (m1, st, h1) =>
      match e_tx e 1 m1 with
      | Ok _ =>
          match receive e 2 [m1] with
          | Ok m2 =>
              match msg3_gen c st h1 m2 creds c_cap prk_len with
              | Ok (a, m3, prk) =>
                  match e_ead e 2 (a2_ead a) with
                  | Ok _ => stop [m1; m3] [a2_ead a] prk (Some (a2_c_r a)) None (e_tx e 3 m3)
                  | r => stop [m1] [a2_ead a] prk (Some (a2_c_r a)) None r
                  end
              | r => stop [m1] [] None None None r
              end
          | r => stop [m1] [] None None None r
          end
      | r => stop [m1] [] None None None r
      end
  | r => stop [] [] None None None r
  end.
(** src/edhoc/initiator.c:313-325 edhoc_initiator_run *)
Definition initiator_run (c : initiator) (creds : list other_party_cred) (prk_len : N) (e : env)
    : outcome :=
  initiator_run_extended c creds (C_R_SIZE cf) prk_len e.

(* ---------- responder ---------- *)

(** (uint8_t) of a decoded integer *)
Definition z_u8 (z : Z) : N := Z.to_N (z mod 256).   (* src/edhoc/responder.c:55-130, conversions of decoded integers *)

(** src/edhoc/responder.c:55-122 msg1_parse: method, suites, G_X, C_I and what is in
    rc->ead afterwards ([None]: not written). [ci_cap] is the length of the C_I
    array. *)
Definition msg1_parse (msg : bytes) (ci_cap : N) : res (N * bytes * bytes * bytes * option bytes) :=
  let* m := ext (cbor_decode_message_1 msg) in
  if ((3 <? m1_method m) || (m1_method m <? 0))%Z then Err wrong_parameter
  else
    let* su := match m1_suites m with
               | SInt z => if SUITES_I_SIZE cf =? 0 then UB NullDeref else Ok [z_u8 z]
               | SList l =>
                   if SUITES_I_SIZE cf <? lenN l then Err suites_i_list_to_long
                   else Ok (map z_u8 l)
               end in
    let* g_x := copy_null G_X_SIZE (m1_g_x m) in
    let* c_i := match m1_c_i m with
                | UInt z => if ci_cap =? 0 then UB NullDeref else Ok [z_u8 z]
                | UStr b => copy_null ci_cap b
                end in
    let* ead := match m1_ead_1 m with
                | Some e => let* b := copy_null (EAD_SIZE cf) e in Ok (Some b)
                | None => Ok None
                end in
    Ok (Z.to_N (m1_method m), su, g_x, c_i, ead).

(** src/edhoc/responder.c:132-142 selected_suite_is_supported: the [return true] is
    not part of the [if]. *)
Definition selected_suite_is_supported (selected : N) (suites_r : bytes) : bool :=
  match suites_r with [] => false | _ :: _ => true end.

(** src/edhoc/responder.c:152-168 msg2_encode *)
Definition msg2_encode (g_y ct : bytes) (cap : N) : res bytes :=
  let* _ := byte_array_new (G_Y_CIPHERTEXT_2 cf) (lenN g_y + lenN ct) in
  encode_bstr (g_y ++ ct) cap.

(** The part of the runtime context that message_3 processing uses. The ead member
    is the array content; its length is the capacity for EAD_3. *)
(** inc/edhoc/runtime_context.h struct runtime_context *)
Record responder_rc := {
  rr_suite : suite;
  rr_static_i : bool;
  rr_th3 : bytes;
  rr_prk_3e2m : bytes;
  rr_ead : bytes;
  rr_msg : bytes
}.
(** src/edhoc/responder.c:170-244 msg2_gen: C_I and the context with message_2.
    When EAD_1 is absent rc->ead keeps the EAD_SIZE zero bytes of the
    initialisation (src/edhoc/runtime_context.c:23-29, responder.c:342). *)
Definition msg2_gen (c : responder) (msg : bytes) (ci_cap : N) : res (bytes * responder_rc) :=
  let* (me, su, g_x, c_i, ead) := msg1_parse msg ci_cap in
  if negb (selected_suite_is_supported (last su 0) (r_suites c)) then Err error_message_sent
  else
    let* st := get_suite (last su 0) in
    let '(static_i, static_r) := authentication_type_get me (false, false) in
    let* th2 := th2_calculate cr (cr_hash cr msg) (r_g_y c) in
    let* g_xy := shared_secret_derive cr (edhoc_ecdh st) (r_y c) g_x in
    let prk_2e := hkdf_extract cr th2 g_xy in
    let* prk_3e2m := prk_derive cr cf static_r st SALT_3e2m th2 prk_2e g_x (r_r c) in
    let* sg := sig_or_mac_generate cr cf static_r st (r_sk c) (r_pk c) prk_3e2m (r_c_r c) th2
                 (r_id_cred c) (r_cred c) (r_ead_2 c) MAC_2 in
    let pcap := as_bstr_size (lenN (r_c_r c)) + lenN (r_id_cred c) + as_bstr_size (lenN sg)
                + lenN (r_ead_2 c) in
    let* _ := byte_array_new (PLAINTEXT2_SIZE cf) pcap in
    let* (pt, ct) := ciphertext2_gen cr cf (r_c_r c) (r_id_cred c) sg (r_ead_2 c) prk_2e th2
                       pcap (CIPHERTEXT2_SIZE cf) in
    let* m2 := msg2_encode (r_g_y c) ct (MSG_MAX_SIZE cf) in
    let* th3 := th34_calculate cr cf th2 pt (r_cred c) in
    Ok (c_i, {| rr_suite := st; rr_static_i := static_i; rr_th3 := th3; rr_prk_3e2m := prk_3e2m;
                rr_ead := match ead with Some b => b | None => repeat 0 (N.to_nat (EAD_SIZE cf)) end;
                rr_msg := m2 |}).

(** src/edhoc/responder.c:246-310 msg3_process: EAD_3, the initiator's key and
    PRK_out, and PRK_4e3m and TH_4 that stay in the runtime context. *)
Definition msg3_process_full (c : responder) (rc : responder_rc) (msg : bytes)
    (creds : list other_party_cred) (prk_len : N) : res (bytes * bytes * bytes * (bytes * bytes)) :=
  let st := rr_suite rc in
  let* _ := byte_array_new (CIPHERTEXT3_SIZE cf) (lenN msg) in
  let* ct := decode_bstr msg (lenN msg) in
  let* _ := byte_array_new (PLAINTEXT3_SIZE cf + get_aead_mac_len (edhoc_aead st)) (lenN ct) in
  let* (pt, s) := ciphertext3_decrypt_split cr cf st (rr_prk_3e2m rc) (rr_th3 rc) ct
                    (ID_CRED_I_SIZE cf) (if EAD_SIZE cf =? 0 then 0 else lenN (rr_ead rc)) in
  let* f := retrieve_cred cr pf (rr_static_i rc) creds (sp_id_cred s) (CRED_I_SIZE cf) in
  let id := match sp_id_cred s with Some b => b | None => [] end in
  let* prk_4e3m := prk_derive cr cf (rr_static_i rc) st SALT_4e3m (rr_th3 rc) (rr_prk_3e2m rc)
                     (f_g f) (r_y c) in
  let* _ := sig_or_mac_verify cr cf (rr_static_i rc) st (f_pk f) prk_4e3m [] (rr_th3 rc) id (f_cred f)
              (sp_ead s) MAC_3 (sp_sig s) in
  let* th4 := th34_calculate cr cf (rr_th3 rc) pt (f_cred f) in
  let* prk := edhoc_kdf cr cf prk_4e3m PRK_out th4 prk_len in
  Ok (sp_ead s, f_pk f, prk, (prk_4e3m, th4)).
(** src/edhoc/responder.c:246-310 msg3_process, its outputs in the build without
    MESSAGE_4 *)
Definition msg3_process (c : responder) (rc : responder_rc) (msg : bytes)
    (creds : list other_party_cred) (prk_len : N) : res (bytes * bytes * bytes) :=
  let* (ead, pk, prk, _) := msg3_process_full c rc msg creds prk_len in
  Ok (ead, pk, prk).

(** src/edhoc/responder.c:334-367 edhoc_responder_run_extended. [pk_cap]: length of
    the array for the initiator's public key, [None] if there is none. *)
Definition responder_run_extended (c : responder) (creds : list other_party_cred)
    (ci_cap : N) (pk_cap : option N) (prk_len : N) (e : env) : outcome :=
  match receive e 1 [] with
  | Ok m1 =>
      match msg2_gen c m1 ci_cap with
      | Ok (c_i, rc) =>
          match e_ead e 1 (rr_ead rc) with
          | Ok _ =>
              match e_tx e 2 (rr_msg rc) with
              | Ok _ =>
                  match receive e 3 [rr_msg rc] with
                  | Ok m3 =>
                      match msg3_process c rc m3 creds prk_len with
                      | Ok (ead3, ipk, prk) =>
                          stop [rr_msg rc] [rr_ead rc; ead3] (Some prk) (Some c_i)
                            (match pk_cap with
                             | Some n => if n <? lenN ipk then None else Some ipk
                             | None => None
                             end) (e_ead e 3 ead3)
                      | r => stop [rr_msg rc] [rr_ead rc] None (Some c_i) None r
                      end
                  | r => stop [rr_msg rc] [rr_ead rc] None (Some c_i) None r
                  end
              | r => stop [rr_msg rc] [rr_ead rc] None (Some c_i) None r
              end
          | r => stop [] [rr_ead rc] None (Some c_i) None r
          end
      | r => stop [] [] None None None r
      end
  | r => stop [] [] None None None r
  end.
(** src/edhoc/responder.c:369-380 edhoc_responder_run *)
Definition responder_run (c : responder) (creds : list other_party_cred) (prk_len : N) (e : env)
    : outcome :=
  responder_run_extended c creds (C_I_SIZE cf) None prk_len e.
End Run.
