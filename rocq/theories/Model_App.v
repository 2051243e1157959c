(** Model of the application that uses EDHOC to set up OSCORE:
    samples/linux_edhoc_oscore/initiator_client/src/main.cpp (initiator, CoAP client) and
    samples/linux_edhoc_oscore/responder_server/src/main.cpp (responder, CoAP server),
    and inc/edhoc/edhoc_exporter.h. Printing, sockets and the CoAP library are left out. *)
From Verif Require Import Base Model_Common Model_Crypto Model_OscorePrims Model_Context Model_EdhocCfg Model_EdhocKeys
  Model_Send Model_Recv Model_EdhocRun.

(** initiator_client/src/main.cpp:216-227, responder_server/src/main.cpp:286-297: PRK_exporter,
    OSCORE Master Secret (16 bytes) and Master Salt (8 bytes) from PRK_out. *)
Definition app_master (cr : crypto) (cf : cfg) (prk_out : bytes) : res (bytes * bytes) :=
  let* e := prk_out2exporter cr cf prk_out 32 in
  let* secret := edhoc_exporter cr cf OSCORE_MASTER_SECRET e 16 in
  let* salt := edhoc_exporter cr cf OSCORE_MASTER_SALT e 8 in
  Ok (secret, salt).

(** initiator_client/src/main.cpp:245-268, responder_server/src/main.cpp:315-337: the
    argument of oscore_context_init. The sender ID is the connection identifier chosen
    by the peer, the recipient ID the own one. The samples take both from the test
    vector; here the peer's one is what EDHOC reported. *)
Definition app_params (secret salt own peer : bytes) : init_params :=
  {| ip_secret := secret; ip_sender_id := peer; ip_recipient_id := own; ip_id_context := [];
     ip_salt := salt; ip_aead := OSCORE_AES_CCM_16_64_128; ip_hkdf := OSCORE_SHA_256; ip_fresh := true |}.

(** The same lines up to and including oscore_context_init
    (initiator_client/src/main.cpp:216-269, responder_server/src/main.cpp:286-338).
    [gn], [ge], [gf] are the previous contents of the context (see oscore_context_init). *)
Definition app_context (cr : crypto) (cf : cfg) (prk_out own peer : bytes) (gn ge : bytes) (gf : N) : res ctx :=
  let* (secret, salt) := app_master cr cf prk_out in
  oscore_context_init cr (app_params secret salt own peer) (Err not_implemented) gn ge gf.

(** initiator_client/src/main.cpp:210-269, responder_server/src/main.cpp:283-338: from the
    outcome of EDHOC to the OSCORE context. PRK_out and the peer's identifier are read
    after edhoc_*_run returned ok, whether they were written or not. *)
Definition app_oscore (cr : crypto) (cf : cfg) (o : outcome) (own gn ge : bytes) (gf : N) : res ctx :=
  let* _ := o_ret o in
  match o_prk o, o_peer_c o with
  | Some prk, Some peer => app_context cr cf prk own peer gn ge gf
  | _, _ => UB Uninit
  end.

(** One exchange of CoAP messages: request, its buffers at the client (protected message)
    and the server (message for the application), response and its buffers, the
    functions that store sequence numbers of the two sides. *)
(** the variables of the loops initiator_client/src/main.cpp:278-354 and
    responder_server/src/main.cpp:340-416 *)
Record exchange := {
  x_request : bytes; x_buf_c : bytes; x_buf_s : bytes;
  x_response : bytes; x_buf_s' : bytes; x_buf_c' : bytes;
  x_nw_c : N -> res unit; x_nw_s : N -> res unit }.

(** initiator_client/src/main.cpp:303-320 and responder_server/src/main.cpp:352-386: the client
    protects a request, the server unprotects it, protects the response, the client
    unprotects it. The network delivers. Result: the contexts and what the
    applications get; [None] when a call fails. *)
Definition app_exchange (cr : crypto) (c d : ctx) (x : exchange) : option (ctx * ctx * (bytes * bytes)) :=
  match coap2oscore cr (x_nw_c x) c (x_request x) (x_buf_c x) with
  | (s, wire, Ok n) =>
      match oscore2coap cr d (takeN n wire) (x_buf_s x) with
      | (d1, b, Ok k) =>
          match coap2oscore cr (x_nw_s x) d1 (x_response x) (x_buf_s' x) with
          | (s', wire', Ok n') =>
              match oscore2coap cr (s_ctx s) (takeN n' wire') (x_buf_c' x) with
              | (c', b', Ok k') => Some (c', s_ctx s', (takeN k b, takeN k' b'))
              | _ => None
              end
          | _ => None
          end
      | _ => None
      end
  | _ => None
  end.

(** The loop of the samples. Either side may be the CoAP client of an exchange: [true]
    means the first one. *)
(** initiator_client/src/main.cpp:278-354 and responder_server/src/main.cpp:340-416 *)
Fixpoint app_traffic (cr : crypto) (c d : ctx) (l : list (bool * exchange)) : option (ctx * ctx * list (bytes * bytes)) :=
  match l with
  | [] => Some (c, d, [])
  | (fwd, x) :: r =>
      match (if fwd then app_exchange cr c d x
             else option_map (fun p => let '(d', c', o) := p in (c', d', o)) (app_exchange cr d c x)) with
      | Some (c', d', o) =>
          option_map (fun p => let '(c2, d2, os) := p in (c2, d2, o :: os)) (app_traffic cr c' d' r)
      | None => None
      end
  end.
