(** A device with several security contexts in its memory. The members of struct context
    that are byte arrays (struct byte_array, inc/common/byte_array.h) are pointers: some
    into buffers of the same structure, some into the arrays that the application gave to
    oscore_context_init (src/oscore/security_context.c:104-165). Here the pointers are
    explicit; what the calls compute is that of Model_Run.v on the bytes found through
    them. Simplification: the packets and output buffers given to calls lie in no array
    that a context points to, and a context whose initialisation failed is not used. *)
From Verif Require Import Base Model_Common Model_Crypto Model_Interactions Model_Replay Model_Context
  Model_Send Model_Recv Model_Run.

(** The buffers inside struct context: common_iv_buf, recipient_id_buf,
    recipient_key_buf, sender_key_buf, nonce_buf, echo_opt_val_buf
    (inc/oscore/security_context.h:46-101; sender_id_buf is never used). *)
Inductive member := MIv | MRid | MRkey | MSkey | MNonce | MEcho.
(** Where a pointer can point to: an array of the application, or a buffer in the
    structure number [k] (pointers in inc/oscore/security_context.h:46-101). *)
Inductive place := PArray (a : N) | PMember (k : N) (b : member).
(** inc/common/byte_array.h struct byte_array *)
Record view := { w_at : place; w_len : N }.
(** the contents of all objects (src/oscore/security_context.c:104-165) *)
Definition store := place -> bytes.
(** reading through a struct byte_array (inc/common/byte_array.h) *)
Definition look (m : store) (v : view) : bytes := takeN (w_len v) (m (w_at v)).

(** comparison of pointers (for the updates of the store below), e.g.
    src/oscore/security_context.c:127-157 *)
Definition member_eqb (a b : member) : bool :=
  match a, b with
  | MIv, MIv | MRid, MRid | MRkey, MRkey | MSkey, MSkey | MNonce, MNonce | MEcho, MEcho => true
  | _, _ => false
  end.
(** the same, e.g. src/oscore/security_context.c:127-157 *)
Definition place_eqb (p q : place) : bool :=
  match p, q with
  | PArray a, PArray b => a =? b
  | PMember k a, PMember j b => (k =? j) && member_eqb a b
  | _, _ => false
  end.
(** a write to one object, e.g. src/oscore/security_context.c:135-136 *)
Definition upd (m : store) (p : place) (b : bytes) : store := fun q => if place_eqb q p then b else m q.

(** inc/oscore/security_context.h:46-101 struct context (master_secret, master_salt and
    kdf are not used after the initialisation) *)
Record scontext := {
  sx_nonce : view; sx_inter : itable; sx_echo_val : view; sx_echo : echo_state;
  sx_alg : Z; sx_id_context : view; sx_iv : view; sx_fresh : bool;
  sx_sid : view; sx_skey : view; sx_ssn : N;
  sx_rid : view; sx_rkey : view; sx_win : rwin; sx_notif : N; sx_notif_init : bool
}.

(** The values that a call of coap2oscore (src/oscore/coap2oscore.c:590-669) or
    oscore2coap (src/oscore/oscore2coap.c:327-471) finds through the pointers. *)
Definition load (m : store) (x : scontext) : ctx :=
  {| c_nonce := look m (sx_nonce x); c_inter := sx_inter x; c_echo_buf := m (w_at (sx_echo_val x));
     c_echo_len := w_len (sx_echo_val x); c_echo := sx_echo x; c_alg := sx_alg x;
     c_id_context := look m (sx_id_context x); c_iv := look m (sx_iv x); c_fresh := sx_fresh x;
     c_sid := look m (sx_sid x); c_skey := look m (sx_skey x); c_ssn := sx_ssn x;
     c_rid := look m (sx_rid x); c_rkey := look m (sx_rkey x); c_win := sx_win x;
     c_notif := sx_notif x; c_notif_init := sx_notif_init x |}.

(** What a call leaves behind: the nonce (src/oscore/coap2oscore.c:560-563,
    oscore2coap.c:304-307) and the Echo value (src/oscore/option.c:81-94) are written
    through the pointers, the other members that change are in the structure. *)
Definition save (m : store) (x : scontext) (c : ctx) : store * scontext :=
  (upd (upd m (w_at (sx_nonce x)) (c_nonce c)) (w_at (sx_echo_val x)) (c_echo_buf c),
   {| sx_nonce := {| w_at := w_at (sx_nonce x); w_len := lenN (c_nonce c) |};
      sx_inter := c_inter c;
      sx_echo_val := {| w_at := w_at (sx_echo_val x); w_len := c_echo_len c |};
      sx_echo := c_echo c; sx_alg := sx_alg x; sx_id_context := sx_id_context x; sx_iv := sx_iv x;
      sx_fresh := sx_fresh x; sx_sid := sx_sid x; sx_skey := sx_skey x; sx_ssn := c_ssn c;
      sx_rid := sx_rid x; sx_rkey := sx_rkey x; sx_win := c_win c; sx_notif := c_notif c;
      sx_notif_init := c_notif_init c |}).

(** inc/oscore/nvm.h:23-27 struct nvm_key_t: Sender ID, Recipient ID, ID context *)
Definition nvm_key : Type := (bytes * bytes * bytes)%type.
(** inc/oscore/nvm.h:23-27: the user tells slots apart by the contents *)
Definition key_eqb (a b : nvm_key) : bool :=
  let '(x, y, z) := a in let '(u, v, w) := b in
  (if list_eq_dec N.eq_dec x u then true else false) &&
  (if list_eq_dec N.eq_dec y v then true else false) &&
  (if list_eq_dec N.eq_dec z w then true else false).
(** src/oscore/coap2oscore.c:462-464 and security_context.c:146-148 *)
Definition key_of (c : ctx) : nvm_key := (c_sid c, c_rid c, c_id_context c).

(** inc/oscore.h struct oscore_init_params, with its pointers *)
Record setup := {
  su_secret : view; su_sender_id : view; su_recipient_id : view; su_id_context : view;
  su_salt : view; su_aead : Z; su_hkdf : Z; su_fresh : bool
}.
(** the values of the parameters when oscore_context_init runs
    (src/oscore/security_context.c:104-165) *)
Definition given (m : store) (s : setup) : init_params :=
  {| ip_secret := look m (su_secret s); ip_sender_id := look m (su_sender_id s);
     ip_recipient_id := look m (su_recipient_id s); ip_id_context := look m (su_id_context s);
     ip_salt := look m (su_salt s); ip_aead := su_aead s; ip_hkdf := su_hkdf s; ip_fresh := su_fresh s |}.
(** src/oscore/security_context.c:146-148 *)
Definition key_given (p : init_params) : nvm_key := (ip_sender_id p, ip_recipient_id p, ip_id_context p).

(** The device: objects, structures, and what nvm_write_ssn has stored per key
    (inc/oscore/nvm.h:29-51). *)
Record machine := { mc_mem : store; mc_ctx : N -> option scontext; mc_nvm : nvm_key -> N }.

(** The members set by src/oscore/security_context.c:104-165: Sender ID and ID context
    point to the arrays of the caller (lines 125, 143), the others into the structure [k]. *)
Definition laid_out (m : store) (k : N) (s : setup) (c : ctx) : store * scontext :=
  let own b n := {| w_at := PMember k b; w_len := n |} in
  (upd (upd (upd (upd m (PMember k MIv) (c_iv c)) (PMember k MRid) (c_rid c)) (PMember k MRkey) (c_rkey c)) (PMember k MSkey) (c_skey c),
   {| sx_nonce := own MNonce 13; sx_inter := c_inter c; sx_echo_val := own MEcho (c_echo_len c);
      sx_echo := c_echo c; sx_alg := c_alg c; sx_id_context := su_id_context s; sx_iv := own MIv (lenN (c_iv c));
      sx_fresh := c_fresh c; sx_sid := su_sender_id s; sx_skey := own MSkey (lenN (c_skey c)); sx_ssn := c_ssn c;
      sx_rid := own MRid (lenN (c_rid c)); sx_rkey := own MRkey (lenN (c_rkey c)); sx_win := c_win c;
      sx_notif := c_notif c; sx_notif_init := c_notif_init c |}).

(** the structures, with one of them replaced (inc/oscore/security_context.h:96-101) *)
Definition put (f : N -> option scontext) (k : N) (x : option scontext) : N -> option scontext :=
  fun j => if j =? k then x else f j.

(** What the application does: initialise the structure [k] ([gf]: what its
    notification_num happens to be), call the API for it, write to one of its own arrays,
    assign the structure [k] to the structure [j]; or the device restarts ([m]: what the
    memory contains then). *)
(** the API of inc/oscore.h and its caller *)
Inductive action :=
| DInit (k : N) (s : setup) (gf : N)
| DCall (k : N) (a : api_call)
| DWrite (a : N) (b : bytes)
| DCopy (k j : N)
| DRestart (m : store).

(** src/oscore/nvm.c:37-48 with a memory that keeps what was written with success *)
Definition kept (nvm : nvm_key -> N) (key : nvm_key) (a : api_call) (o : obs) : nvm_key -> N :=
  match a, ob_nvm o with
  | ASend nw _ _, Some v =>
      match nw v with Ok _ => fun q => if key_eqb q key then v else nvm q | _ => nvm end
  | _, _ => nvm
  end.

(** One action; [None]: undefined behaviour, or a structure that is not initialised.
    src/oscore/security_context.c:104-165, coap2oscore.c:590-669, oscore2coap.c:327-471 *)
Definition act (cr : crypto) (d : machine) (e : action) : option (machine * option obs) :=
  match e with
  | DInit k s gf =>
      let p := given (mc_mem d) s in
      match oscore_context_init cr p (Ok (mc_nvm d (key_given p)))
              (takeN 13 (mc_mem d (PMember k MNonce))) (mc_mem d (PMember k MEcho)) gf with
      | Ok c =>
          let (m', x) := laid_out (mc_mem d) k s c in
          Some ({| mc_mem := m'; mc_ctx := put (mc_ctx d) k (Some x); mc_nvm := mc_nvm d |}, None)
      | _ => None
      end
  | DCall k a =>
      match mc_ctx d k with
      | Some x =>
          let c := load (mc_mem d) x in
          let (c', o) := exec cr c a in
          if is_ub (ob_res o) then None
          else
            let (m', x') := save (mc_mem d) x c' in
            Some ({| mc_mem := m'; mc_ctx := put (mc_ctx d) k (Some x'); mc_nvm := kept (mc_nvm d) (key_of c) a o |}, Some o)
      | None => None
      end
  | DWrite a b => Some ({| mc_mem := upd (mc_mem d) (PArray a) b; mc_ctx := mc_ctx d; mc_nvm := mc_nvm d |}, None)
  | DCopy k j =>
      match mc_ctx d k with
      | Some x =>
          let m := mc_mem d in
          let m' q := match q with PMember i b => if i =? j then m (PMember k b) else m q | _ => m q end in
          Some ({| mc_mem := m'; mc_ctx := put (mc_ctx d) j (Some x); mc_nvm := mc_nvm d |}, None)
      | None => None
      end
  | DRestart m => Some ({| mc_mem := m; mc_ctx := fun _ => None; mc_nvm := mc_nvm d |}, None)
  end.

(** Several actions; result: the device and, for each call, the structure it was made for
    and what was observed. A history of calls of the API of inc/oscore.h. *)
Fixpoint perform (cr : crypto) (d : machine) (l : list action) : option (machine * list (N * obs)) :=
  match l with
  | [] => Some (d, [])
  | e :: r =>
      match act cr d e with
      | Some (d', o) =>
          match perform cr d' r with
          | Some (d2, os) =>
              Some (d2, match e, o with DCall k _, Some ob => (k, ob) :: os | _, _ => os end)
          | None => None
          end
      | None => None
      end
  end.
