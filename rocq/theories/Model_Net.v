(** Two endpoints and the network between them: exchanges in which either message may get
    lost, Observe notifications, and packets injected by others. The applications are
    those of the samples (see Model_App.v):
    samples/linux_edhoc_oscore/initiator_client/src/main.cpp and
    samples/linux_edhoc_oscore/responder_server/src/main.cpp; a notification is a
    response with an Observe option (src/oscore/oscore_coap.c:349-386). *)
From Verif Require Import Base Model_Common Model_Crypto Model_Context Model_Send Model_Recv.

(** A message on its way: the CoAP message of the application, the buffers of sender and
    receiver, the function that stores sequence numbers, and whether the network loses
    the protected packet. *)
(** the variables of initiator_client/src/main.cpp:278-320 and responder_server/src/main.cpp:340-386 *)
Record transport := { v_msg : bytes; v_buf : bytes; v_out : bytes; v_nw : N -> res unit; v_lost : bool }.

(** initiator_client/src/main.cpp:303-311 with responder_server/src/main.cpp:352-362 (and the
    other way round for responses): protect, send, receive, unprotect. [None] when a
    call fails; otherwise the contexts of sender and receiver and what is delivered. *)
Definition transfer (cr : crypto) (c d : ctx) (v : transport) : option (ctx * ctx * option bytes) :=
  match coap2oscore cr (v_nw v) c (v_msg v) (v_buf v) with
  | (s, wire, Ok n) =>
      if v_lost v then Some (s_ctx s, d, None)
      else match oscore2coap cr d (takeN n wire) (v_out v) with
           | (d', b, Ok k) => Some (s_ctx s, d', Some (takeN k b))
           | _ => None
           end
  | _ => None
  end.

(** What happens next. [bool]: the acting endpoint is the first one. In an exchange it
    is the client; the server answers only when the request arrives. A packet of
    somebody else is received by the acting endpoint. *)
(** the loops initiator_client/src/main.cpp:278-354 and responder_server/src/main.cpp:340-416 *)
Inductive event :=
| Exchange (first : bool) (request response : transport)
| Notification (first : bool) (note : transport)
| Injected (first : bool) (packet buf : bytes).

(** The event with the first endpoint [c] acting; result: the contexts and the messages
    delivered to applications, in order. *)
(** initiator_client/src/main.cpp:303-320 and responder_server/src/main.cpp:352-386 *)
Definition act (cr : crypto) (c d : ctx) (e : event) : option (ctx * ctx * list bytes) :=
  match e with
  | Exchange _ q p =>
      match transfer cr c d q with
      | Some (c1, d1, None) => Some (c1, d1, [])
      | Some (c1, d1, Some o) =>
          match transfer cr d1 c1 p with
          | Some (d2, c2, None) => Some (c2, d2, [o])
          | Some (d2, c2, Some o') => Some (c2, d2, [o; o'])
          | None => None
          end
      | None => None
      end
  | Notification _ p =>
      match transfer cr c d p with
      | Some (c1, d1, None) => Some (c1, d1, [])
      | Some (c1, d1, Some o) => Some (c1, d1, [o])
      | None => None
      end
  | Injected _ bs buf =>
      match oscore2coap cr c bs buf with
      | (c1, b, Ok k) => Some (c1, d, [takeN k b])
      | (c1, _, Err _) => Some (c1, d, [])
      | (_, _, UB _) => None
      end
  end.
(** the acting endpoint of an event (see [event]; environment of main.cpp) *)
Definition by_first (e : event) : bool :=
  match e with Exchange f _ _ | Notification f _ | Injected f _ _ => f end.

(** All events one after the other (the loops initiator_client/src/main.cpp:278-354 and
    responder_server/src/main.cpp:340-416). *)
Fixpoint net (cr : crypto) (c d : ctx) (l : list event) : option (ctx * ctx * list (list bytes)) :=
  match l with
  | [] => Some (c, d, [])
  | e :: r =>
      match (if by_first e then act cr c d e
             else option_map (fun p => let '(d', c', o) := p in (c', d', o)) (act cr d c e)) with
      | Some (c', d', o) => option_map (fun p => let '(c2, d2, os) := p in (c2, d2, o :: os)) (net cr c' d' r)
      | None => None
      end
  end.
