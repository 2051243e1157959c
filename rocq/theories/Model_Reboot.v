(** Two devices that keep a security context over restarts: the network of Model_Net.v,
    the memory that nvm_write_ssn and nvm_read_ssn of the user (inc/oscore.h) work on,
    restarts, and servers that answer a request they cannot trust yet with an Echo value.
    Such servers are samples/linux_oscore/server/src/main.cpp:137-189,
    samples/linux_edhoc_oscore/responder_server/src/main.cpp:340-416, and the server of
    test/oscore_integration_tests/oscore_integration_tests.c:700-1010. *)
From Verif Require Import Base Model_Common Model_Crypto Model_Context Model_Send Model_Recv Model_Net.

(** struct context (inc/oscore/security_context.h:46-101) and the content of the
    non-volatile memory for it (inc/oscore.h, nvm_write_ssn and nvm_read_ssn) *)
Record device := { dv_ctx : ctx; dv_mem : N }.

(** The memory after coap2oscore: src/oscore/nvm.c:37-48, called at
    src/oscore/coap2oscore.c:453-474. A write that fails leaves it as it was. *)
Definition stored (v : transport) (mem : N) (s : sstate) : N :=
  match s_nvm s with
  | Some x => match v_nw v x with Ok _ => x | _ => mem end
  | None => mem
  end.

(** coap2oscore, samples/linux_oscore/server/src/main.cpp:176-186; result: the packet *)
Definition protect (cr : crypto) (c : device) (v : transport) : option (device * bytes) :=
  match coap2oscore cr (v_nw v) (dv_ctx c) (v_msg v) (v_buf v) with
  | (s, wire, Ok n) => Some ({| dv_ctx := s_ctx s; dv_mem := stored v (dv_mem c) s |}, takeN n wire)
  | _ => None
  end.

(** oscore2coap, samples/linux_oscore/server/src/main.cpp:144-174: a message for the
    application, or one of the two errors that call for an Echo value. With the second one
    the server of oscore_integration_tests.c:820-960 sends a new Echo value. *)
Inductive verdict := Delivered (o : bytes) | Unverified.
(** samples/linux_oscore/server/src/main.cpp:144-174, oscore_integration_tests.c:820-960 *)
Definition unprotect (cr : crypto) (d : device) (packet out : bytes) : option (device * verdict) :=
  let on d' := {| dv_ctx := d'; dv_mem := dv_mem d |} in
  match oscore2coap cr (dv_ctx d) packet out with
  | (d', b, Ok k) => Some (on d', Delivered (takeN k b))
  | (d', _, Err first_request_after_reboot) => Some (on d', Unverified)
  | (d', _, Err echo_validation_failed) => Some (on d', Unverified)
  | _ => None
  end.

(** What happens next. [bool]: the acting device is the first one. In a dialogue it is the
    client. The server has a response and an Echo challenge at hand and sends the one that
    is called for. A restarted device has lost everything but its memory; [gn], [ge], [gf]
    is what the new struct context happens to contain (see [oscore_context_init]). *)
(** samples/linux_oscore/server/src/main.cpp:116-189 *)
Inductive occurrence :=
| Dialogue (first : bool) (request response challenge : transport)
| Report (first : bool) (note : transport)
| Intrusion (first : bool) (packet buf : bytes)
| Restart (first : bool) (gn ge : bytes) (gf : N).

(** The occurrence with the device [c] acting, which is initialised with [p]; result: the
    devices and the messages delivered to applications, in order. *)
(** samples/linux_oscore/server/src/main.cpp:116-189 and, for the client,
    samples/linux_oscore/client/src/main.cpp *)
Definition happen (cr : crypto) (p : init_params) (c d : device) (e : occurrence) : option (device * device * list bytes) :=
  match e with
  | Dialogue _ q r h =>
      match protect cr c q with
      | Some (c1, w) =>
          if v_lost q then Some (c1, d, [])
          else
            match unprotect cr d w (v_out q) with
            | Some (d1, a) =>
                let (o, v) := match a with Delivered o => ([o], r) | Unverified => ([], h) end in
                match protect cr d1 v with
                | Some (d2, w') =>
                    if v_lost v then Some (c1, d2, o)
                    else
                      match unprotect cr c1 w' (v_out v) with
                      | Some (c2, Delivered o') => Some (c2, d2, o ++ [o'])
                      | _ => None
                      end
                | None => None
                end
            | None => None
            end
      | None => None
      end
  | Report _ v =>
      match protect cr c v with
      | Some (c1, w) =>
          if v_lost v then Some (c1, d, [])
          else match unprotect cr d w (v_out v) with
               | Some (d1, Delivered o) => Some (c1, d1, [o])
               | _ => None
               end
      | None => None
      end
  | Intrusion _ bs buf =>
      match oscore2coap cr (dv_ctx c) bs buf with
      | (c1, b, Ok k) => Some ({| dv_ctx := c1; dv_mem := dv_mem c |}, d, [takeN k b])
      | (c1, _, Err _) => Some ({| dv_ctx := c1; dv_mem := dv_mem c |}, d, [])
      | (_, _, UB _) => None
      end
  | Restart _ gn ge gf =>
      match oscore_context_init cr p (Ok (dv_mem c)) gn ge gf with
      | Ok c1 => Some ({| dv_ctx := c1; dv_mem := dv_mem c |}, d, [])
      | _ => None
      end
  end.
(** the acting device of an occurrence (environment of samples/linux_oscore/server/src/main.cpp) *)
Definition by_the_first (e : occurrence) : bool :=
  match e with Dialogue f _ _ _ | Report f _ | Intrusion f _ _ | Restart f _ _ _ => f end.

(** Everything that happens, one after the other; the devices are initialised with [p] and
    [q] (the loop samples/linux_oscore/server/src/main.cpp:137-209). *)
Fixpoint history (cr : crypto) (p q : init_params) (c d : device) (l : list occurrence) : option (device * device * list (list bytes)) :=
  match l with
  | [] => Some (c, d, [])
  | e :: r =>
      match (if by_the_first e then happen cr p c d e
             else option_map (fun x => let '(d', c', o) := x in (c', d', o)) (happen cr q d c e)) with
      | Some (c', d', o) => option_map (fun x => let '(c2, d2, os) := x in (c2, d2, o :: os)) (history cr p q c' d' r)
      | None => None
      end
  end.
