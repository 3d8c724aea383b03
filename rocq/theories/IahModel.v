(** * The IAM module answering authorization requests of the device (C97)

    A client opens a tunnel stream or asks for tunnel services; the tunnel
    module makes an authorization request (src/modules/tcp_tunnel/nm_tcp_tunnel.c,
    nm_tcp_tunnel_coap.c), the device keeps it (src/api/nabto_device_authorization.c,
    modelled in AuthModel.v), and the IAM module decides it
    (src/modules/iam/nm_iam_auth_handler.c, nm_iam_internal.c).  Every
    allocation on the way may fail. *)
From Coq Require Import String List Bool Arith.
From Verif Require Import IamPolicyModel IamStateModel.
From Verif Require ListenerModel AuthModel.
Import ListNotations.
Open Scope string_scope.

(** ** What is asked *)

(** The questions of the tunnel module: listing the services
    (nm_tcp_tunnel_coap.c:82), reading one (204-208), whether a connection may be made (210-214)
    and a stream to a service (nm_tcp_tunnel.c:168-171). *)
Inductive question := QList | QGet (id type : string) | QConnect (id type : string).
Definition action_of (q : question) : string :=
  match q with
  | QList => "TcpTunnel:ListServices" | QGet _ _ => "TcpTunnel:GetService" | QConnect _ _ => "TcpTunnel:Connect"
  end.
Definition adds_of (q : question) : attrs :=
  match q with
  | QList => []
  | QGet i t | QConnect i t => [("TcpTunnel:ServiceId", i); ("TcpTunnel:ServiceType", t)]
  end.

(** struct nabto_device_authorization_request, the part which AuthModel
    leaves out (nabto_device_authorization.h:32-62). *)
Record ask := { k_ref : nat; k_action : string; k_attrs : attrs }.

(** add_string_attribute, nabto_device_authorization.c:177-203: in front of
    the others, or out of memory. *)
Definition add_attribute (ok : bool) (kv : string * string) (k : ask) : option ask :=
  if ok then Some {| k_ref := k_ref k; k_action := k_action k; k_attrs := kv :: k_attrs k |} else None.

(** The allocations which succeed: the request, and each attribute. *)
Record amem := { am_req : bool; am_add : nat -> bool }.
Fixpoint add_all (ok : nat -> bool) (n : nat) (l : attrs) (k : ask) : option ask :=
  match l with
  | [] => Some k
  | kv :: l => match add_attribute (ok n) kv k with
               | Some k => add_all ok (S n) l k
               | None => None
               end
  end.

(** get_attribute 205-213, get_attributes_size 215-224. *)
Definition get_attribute (k : ask) (n : nat) : option (string * string) := nth_error (k_attrs k) n.
Definition attributes_size (k : ask) : nat := length (k_attrs k).

(** ** Deciding *)

(** The allocations of one decision which succeed: the fingerprint (toHex,
    nabto_device.c:520-533 gives NULL, which get_client_fingerprint 572-593
    returns with OK), the user name of a password login
    (nabto_device_password_authentication.c:90-93), and the insertions into
    the two maps. *)
Record mem := { m_fp : bool; m_name : bool; m_take : nat -> bool; m_copy : nat -> bool; m_local : bool; m_user : bool }.

(** nn_string_map_insert whose result is ignored: nothing happens when there
    is no memory. *)
Definition insert (ok : bool) (E : env) (k v : string) (m : attrs) : attrs :=
  if ok then map_insert E k v m else m.
Fixpoint inserts (E : env) (ok : nat -> bool) (n : nat) (l : attrs) (m : attrs) : attrs :=
  match l with
  | [] => m
  | (k, v) :: l => inserts E ok (S n) l (insert (ok n) E k v m)
  end.

(** What the device tells about a connection when memory is short. *)
Definition blur (x : mem) (c : conn) : conn :=
  {| cn_ref := cn_ref c; cn_virtual := cn_virtual c; cn_fp := if m_fp x then cn_fp c else None; cn_local := cn_local c;
     cn_pwauth := cn_pwauth c; cn_pwname := if m_name x then cn_pwname c else None |}.

(** nm_iam_internal_check_access, nm_iam_internal.c:13-95, with allocations.
    None: a freed user is dereferenced (C17). *)
Definition check_access_mem (E : env) (x : mem) (i : iam) (c : conn) (action : string) (m : attrs) : option bool :=
  match cn_fp c, cn_virtual c with
  | None, false => Some false
  | _, _ =>
      let m0 := inserts E (m_copy x) 0 m [] in
      let m1 := insert (m_local x) E "Connection:IsLocal" (if cn_local c then "true" else "false") m0 in
      match resolve_user i (blur x c) with
      | None => None
      | Some None => Some (decide (e_num E) (i_conf i) (conf_unpaired (i_conf i)) action m1)
      | Some (Some u) =>
          Some (decide (e_num E) (i_conf i) (u_role u) action (insert (m_user x) E "Connection:Username" (u_name u) m1))
      end
  end.

(** The loop of handle_request, nm_iam_auth_handler.c:64-71.  None: the
    getters (nabto_device_authorization.c:244-276) dereference NULL. *)
Fixpoint read_attrs (k : ask) (l : list nat) : option attrs :=
  match l with
  | [] => Some []
  | n :: l => match get_attribute k n, read_attrs k l with
              | Some kv, Some m => Some (kv :: m)
              | _, _ => None
              end
  end.

(** handle_request, nm_iam_auth_handler.c:60-78, up to the verdict.  [look]:
    what the device tells about the connection. *)
Definition verdict (E : env) (x : mem) (i : iam) (look : nat -> conn) (k : ask) : option bool :=
  match read_attrs k (seq 0 (attributes_size k)) with
  | None => None
  | Some l => check_access_mem E x i (look (k_ref k)) (k_action k) (inserts E (m_take x) 0 l [])
  end.

(** ** The handler and the device *)

(** Where the handler is: not initialised; waiting for its future; the future
    is resolved with a code; the verdict has been given; the request has been
    freed; it has returned for good. *)
Inductive phase := Off | Waiting | Resolved (ec : nat) | Answered | Released | Finished.

(** struct nm_iam_auth_handler (nm_iam_auth_handler.h), [h_slot]:
    handler->request; [next]: number of the next request; [asks]: the
    requests' contents. *)
Record st := { dev : AuthModel.st; iamst : iam; h_phase : phase; h_slot : option nat; next : nat; asks : nat -> option ask }.

Definition init (i : iam) : st :=
  {| dev := AuthModel.init; iamst := i; h_phase := Off; h_slot := None; next := 0; asks := fun _ => None |}.

Inductive op :=
| OIam (xo : ext * IamStateModel.op)               (* anything which changes users, roles, policies *)
| OAsk (ref : nat) (q : question) (x : amem)       (* the tunnel module asks *)
| ORun (r : nat)                                   (* the core runs the verdict event *)
| OInit (ok : bool)                                (* nm_iam_auth_handler_init; false: out of memory *)
| OCallback (x : mem) (look : nat -> conn)         (* request_callback is called, up to the verdict *)
| OFree                                            (* it frees the request *)
| OListen                                          (* it listens again *)
| OStop.                                           (* nm_iam_auth_handler_stop *)

Inductive out :=
| Asked (r : nat)                                  (* the question has been passed on *)
| Unasked                                          (* out of memory: stream destroyed, or 5.00 *)
| Told (r : nat) (v : bool).                       (* the tunnel module's callback *)

(** What the listener does to the handler: the request is written to
    handler->request, the future resolved. *)
Definition react (s : st) (o : AuthModel.out) : st :=
  match o with
  | AuthModel.L (ListenerModel.Write _ r) =>
      {| dev := dev s; iamst := iamst s; h_phase := h_phase s; h_slot := Some r; next := next s; asks := asks s |}
  | AuthModel.L (ListenerModel.Resolved _ ec) =>
      {| dev := dev s; iamst := iamst s; h_phase := Resolved ec; h_slot := h_slot s; next := next s; asks := asks s |}
  | _ => s
  end.
Definition tells (o : AuthModel.out) : list out :=
  match o with AuthModel.Told r v => [Told r v] | _ => [] end.

Definition set_dev (s : st) (d : AuthModel.st) : st :=
  {| dev := d; iamst := iamst s; h_phase := h_phase s; h_slot := h_slot s; next := next s; asks := asks s |}.
Definition set_iam (s : st) (i : iam) : st :=
  {| dev := dev s; iamst := i; h_phase := h_phase s; h_slot := h_slot s; next := next s; asks := asks s |}.
Definition set_phase (s : st) (p : phase) : st :=
  {| dev := dev s; iamst := iamst s; h_phase := p; h_slot := h_slot s; next := next s; asks := asks s |}.
Definition set_ask (s : st) (k : ask) : st :=
  {| dev := dev s; iamst := iamst s; h_phase := h_phase s; h_slot := h_slot s; next := S (next s);
     asks := fun r => if Nat.eqb r (next s) then Some k else asks s r |}.

(** One call into the device. *)
Definition call (s : st) (o : AuthModel.op) : option (st * list out) :=
  match AuthModel.step (dev s) o with
  | None => None
  | Some (d, l) => Some (fold_left react l (set_dev s d), flat_map tells l)
  end.
Fixpoint calls (s : st) (l : list AuthModel.op) : option (st * list out) :=
  match l with
  | [] => Some (s, [])
  | o :: l => match call s o with
              | None => None
              | Some (s, a) => match calls s l with Some (s, b) => Some (s, (a ++ b)%list) | None => None end
              end
  end.

(** create_request 31-53, the attributes, and check_access or
    discard_request: nm_tcp_tunnel.c:168-180, nm_tcp_tunnel_coap.c:82-91 and 227-241. *)
Definition do_ask (s : st) (ref : nat) (q : question) (x : amem) : option (st * list out) :=
  if am_req x then
    let r := next s in
    match add_all (am_add x) 0 (adds_of q) {| k_ref := ref; k_action := action_of q; k_attrs := [] |} with
    | Some k => match calls (set_ask s k) [AuthModel.Create r; AuthModel.Check r] with
                | Some (s, l) => Some (s, Asked r :: l)
                | None => None
                end
    | None => match calls (set_ask s {| k_ref := ref; k_action := action_of q; k_attrs := [] |})
                          [AuthModel.Create r; AuthModel.Discard r] with
              | Some (s, l) => Some (s, Unasked :: l)
              | None => None
              end
    end
  else Some (s, [Unasked]).

(** start_listen, nm_iam_auth_handler.c:39-43.  The handler waits until the
    future is resolved, which may be at once. *)
Definition start_listen (s : st) : option (st * list out) := call (set_phase s Waiting) (AuthModel.Ask 0 0).

Definition step (E : env) (s : st) (o : op) : option (st * list out) :=
  match o with
  | OIam xo => match IamStateModel.step E (iamst s) xo with Some i => Some (set_iam s i, []) | None => None end
  | OAsk ref q x => do_ask s ref q x
  | ORun r => call s (AuthModel.RunVerdict r)
  | OInit ok =>                                                          (* 12-26 *)
      match h_phase s with
      | Off => if ok then match call s AuthModel.InitListener with
                          | Some (s, _) => start_listen s
                          | None => None
                          end
               else Some (set_phase s Finished, [])
      | _ => Some (s, [])
      end
  | OCallback x look =>                                                  (* request_callback 45-55 *)
      match h_phase s with
      | Resolved ec =>
          if Nat.eqb ec ListenerModel.ok then
            match h_slot s with
            | None => None
            | Some r => match asks s r with
                        | None => None
                        | Some k => match verdict E x (iamst s) look k with
                                    | None => None
                                    | Some v => call (set_phase s Answered) (AuthModel.Verdict r v)
                                    end
                        end
            end
          else Some (set_phase s Finished, [])
      | _ => Some (s, [])
      end
  | OFree =>                                                             (* 56 *)
      match h_phase s, h_slot s with
      | Answered, Some r => call (set_phase s Released) (AuthModel.FreeReq r)
      | _, _ => Some (s, [])
      end
  | OListen => match h_phase s with Released => start_listen s | _ => Some (s, []) end   (* 57 *)
  | OStop => match AuthModel.a_listener (dev s) with                     (* 28-31 *)
             | Some _ => call s AuthModel.StopListener
             | None => Some (s, [])
             end
  end.

Fixpoint runs (E : env) (s : st) (l : list op) : option (st * list out) :=
  match l with
  | [] => Some (s, [])
  | o :: l => match step E s o with
              | None => None
              | Some (s, a) => match runs E s l with Some (s, b) => Some (s, (a ++ b)%list) | None => None end
              end
  end.
