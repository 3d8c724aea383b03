(** * Requests to the basestation: notifications, service invocations, ICE servers (C94)

    Models one object of src/api/nabto_device_fcm.c,
    nabto_device_service_invocation.c or nabto_device_ice_servers.c with its
    part of src/core/nc_attacher_fcm.c, nc_attacher_service_invoke.c or
    nc_attacher_ice_servers.c.

    Oracles: the CoAP client library (not in the repository) calls the
    handler of a request which was sent, once, with a status and maybe a
    response ([Answer]); the state of the attacher changes with [Connecting],
    [Attached] and [Detached]; every allocation may fail.

    Simplified: a payload is given as its CBOR value, None when it does not
    begin with a well formed one; integers of CBOR are unbounded;
    cbor_value_get_int truncates to 32 bits, as its documentation says. *)
From Coq Require Import List ZArith NArith String Bool.
Import ListNotations.
Open Scope list_scope.

Inductive kind := Fcm | Svc | Ice.

Inductive ec := EOk | ENotAttached | EInProgress | EOom | EFailed | EStopped | ETimeout | EUnknown | EBadResponse.

Inductive cbor :=
  | CInt (z : Z)
  | CText (s : string)
  | CBytes (b : list nat)
  | CArr (l : list cbor)
  | CMap (m : list (cbor * cbor))
  | CInvalid.               (* also: any other type *)

(** cbor_value_map_find_value: the first key which is this text. *)
Fixpoint find (m : list (cbor * cbor)) (k : string) : cbor :=
  match m with
  | [] => CInvalid
  | (CText s, v) :: m' => if String.eqb s k then v else find m' k
  | _ :: m' => find m' k
  end.

(** cbor_value_get_int. *)
Definition to_int (z : Z) : Z := ((z + 2^31) mod 2^32 - 2^31)%Z.

Record server := mkserver { user : option string; cred : option string; urls : list string }.

(** The response as the functions of the API tell it. *)
Record view := mkview {
  status : Z; body : option string; message : list nat; format : Z; servers : list server }.

Definition no_view : view := mkview 0 None [] 0 [].

Inductive request := QFcm (project payload : string) | QSvc (service : string) (msg : list nat) | QIce (ident : string).

(** The CoAP request of the object: coapRequest, and what became of it. *)
Inductive creq :=
  | RNull
  | RNew (c : option nat)     (* created for this connection, not sent *)
  | RSent
  | RDone                     (* answered, not freed *)
  | RFreed.                   (* freed, still referenced *)

Inductive answer := AStopped | ATimeout | AOther | AResponse (code : nat) (fmt : option nat) (p : option (option cbor)).

Record st := mk {
  knd : kind;
  alive : bool;               (* not freed by the application *)
  dead : bool;                (* undefined behaviour happened *)
  dtls : option nat;          (* attacher->dtls *)
  att : bool;                 (* attacher->state is ATTACHED *)
  ident : option string;      (* projectId, serviceId *)
  payload : option string;
  msg : option (list nat);
  mlen : nat;
  slot : option nat;          (* future *)
  req : creq;
  resp : view }.

Definition set_alive s b := mk (knd s) b (dead s) (dtls s) (att s) (ident s) (payload s) (msg s) (mlen s) (slot s) (req s) (resp s).
Definition set_dead s := mk (knd s) (alive s) true (dtls s) (att s) (ident s) (payload s) (msg s) (mlen s) (slot s) (req s) (resp s).
Definition set_net s d a := mk (knd s) (alive s) (dead s) d a (ident s) (payload s) (msg s) (mlen s) (slot s) (req s) (resp s).
Definition set_ident s i := mk (knd s) (alive s) (dead s) (dtls s) (att s) i (payload s) (msg s) (mlen s) (slot s) (req s) (resp s).
Definition set_payload s p := mk (knd s) (alive s) (dead s) (dtls s) (att s) (ident s) p (msg s) (mlen s) (slot s) (req s) (resp s).
Definition set_msg s m n := mk (knd s) (alive s) (dead s) (dtls s) (att s) (ident s) (payload s) m n (slot s) (req s) (resp s).
Definition set_slot s f := mk (knd s) (alive s) (dead s) (dtls s) (att s) (ident s) (payload s) (msg s) (mlen s) f (req s) (resp s).
Definition set_req s r := mk (knd s) (alive s) (dead s) (dtls s) (att s) (ident s) (payload s) (msg s) (mlen s) (slot s) r (resp s).
Definition set_resp s v := mk (knd s) (alive s) (dead s) (dtls s) (att s) (ident s) (payload s) (msg s) (mlen s) (slot s) (req s) v.

Inductive out :=
  | Asked (f : nat)                     (* send or execute was called with this future *)
  | Returned (e : ec)                   (* what the call of an ICE request returns *)
  | SetTo (e : ec)                      (* what a setter returns *)
  | Created | Released                  (* a CoAP request *)
  | Posted (c : option nat) (q : request)  (* handed to the CoAP client for this connection *)
  | Given (a : answer)                  (* what the CoAP client answered *)
  | Resolved (f : nat) (e : ec)
  | UseAfterFree
  | NullRead.

(** nabto_device_fcm_notification_new, 19-27, nabto_device_service_invocation_new,
    26-34, nabto_device_ice_servers_request_new, 19-29, which creates the
    CoAP request for the connection there is, nc_attacher_ice_servers_ctx_init, 31-39. *)
Definition init (k : kind) (d : option nat) (a : bool) : st :=
  mk k true false d a None None None 0 None
     (match k with Ice => RNew d | _ => RNull end) no_view.
Definition init_out (k : kind) : list out := match k with Ice => [Created] | _ => [] end.

(** nabto_device_fcm_notification_set_project_id, 46-65,
    nabto_device_service_invocation_set_service_id, 53-72: the old value is
    freed before the new one is copied. *)
Definition do_set_ident (v : string) (al : bool) (s : st) : st * list out :=
  if al then (set_ident s (Some v), [SetTo EOk]) else (set_ident s None, [SetTo EOom]).

(** nabto_device_fcm_notification_set_payload, 68-87. *)
Definition do_set_payload (v : string) (al : bool) (s : st) : st * list out :=
  if al then (set_payload s (Some v), [SetTo EOk]) else (set_payload s None, [SetTo EOom]).

(** nabto_device_service_invocation_set_message, 75-96: the length is kept
    when the copy cannot be allocated. *)
Definition do_set_message (v : list nat) (al : bool) (s : st) : st * list out :=
  if al then (set_msg s (Some v) (List.length v), [SetTo EOk]) else (set_msg s None (mlen s), [SetTo EOom]).

(** encode_request in nc_attacher_fcm.c, 119-131, nc_attacher_service_invoke.c,
    129-138, nc_attacher_ice_servers.c, 96-104; None: a NULL pointer is read. *)
Definition encode (id : string) (s : st) : option request :=
  match knd s with
  | Fcm => match ident s, payload s with Some i, Some p => Some (QFcm i p) | _, _ => None end
  | Svc => match ident s, msg s with
           | Some i, Some m => Some (QSvc i m)
           | Some i, None => match mlen s with 0 => Some (QSvc i []) | _ => None end
           | None, _ => None
           end
  | Ice => Some (QIce id)
  end.

(** nc_attacher_fcm_send, 21-69, nc_attacher_service_invoke_execute, 21-69,
    nc_attacher_request_ice_servers, 50-94.  [a1]: the buffer is allocated,
    [a2]: the CoAP library takes the payload. *)
Definition core_send (id : string) (a1 a2 : bool) (s : st) : st * list out * ec :=
  if negb (att s) then (s, [], ENotAttached)
  else
    let '(s, o) := match knd s with
                   | Ice => (s, [])
                   | _ => (set_req s (RNew (dtls s)), [Created])
                   end in
    match encode id s with
    | None => (set_dead s, o ++ [NullRead], EOk)
    | Some q =>
        if negb a1 then (s, o, EOom)
        else if negb a2 then (s, o, EOom)
        else match req s with
             | RNew c => (set_req s RSent, o ++ [Posted c q], EOk)
             | _ => (s, o, EOk)
             end
    end.

(** nabto_device_fcm_send, 96-115, nabto_device_service_invocation_execute,
    105-124, nabto_device_ice_servers_request_send, 48-71. *)
Definition do_send (f : nat) (id : string) (a1 a2 : bool) (s : st) : st * list out :=
  let ret := match knd s with Ice => [Returned EOk] | _ => [] end in
  match slot s with
  | Some _ => (s, Asked f :: Resolved f EInProgress :: ret)
  | None =>
      let '(s, o, e) := core_send id a1 a2 (set_slot s (Some f)) in
      if dead s then (s, Asked f :: o)
      else (s, Asked f :: o ++ match e with EOk => [] | _ => [Resolved f e] end ++ ret)
  end.

(** nc_attacher_fcm_send_stop, 111-117, nc_attacher_service_invoke_stop,
    121-127: the request is cancelled, the library answers later.  ICE
    requests cannot be stopped. *)
Definition do_stop (s : st) : st * list out :=
  match knd s, req s with
  | Ice, _ => (s, [])
  | _, RFreed => (set_dead s, [UseAfterFree])
  | _, _ => (s, [])
  end.

(** nabto_device_fcm_notification_free, 30-43, nabto_device_service_invocation_free,
    37-50, nabto_device_ice_servers_request_free, 32-40.  The CoAP request is
    freed only with an ICE request. *)
Definition do_free (s : st) : st * list out :=
  match knd s with
  | Ice => (set_req (set_alive s false) RFreed, [Released])
  | _ => (set_alive s false, [])
  end.

(** nc_cbor_copy_text_string, nc_cbor.c:4-27, with one allocation. *)
Definition copy_text (v : cbor) (max : N) (al : bool) : option string :=
  match v with
  | CText s => if N.leb (N.of_nat (String.length s)) max && al then Some s else None
  | _ => None
  end.

(** nc_cbor_copy_byte_string, nc_cbor.c:29-54. *)
Definition copy_bytes (v : cbor) (max : N) (al : bool) : option (list nat) :=
  match v with
  | CBytes b => if N.leb (N.of_nat (List.length b)) max && al then Some b else None
  | _ => None
  end.

Definition u16 (z : Z) : bool := ((0 <=? z) && (z <=? 65535))%Z.

(** parse_response in nc_attacher_fcm.c, 133-169: the body is stored before
    the status code is looked at. *)
Definition parse_fcm (p : cbor) (al : bool) (v : view) : view * bool :=
  match p with
  | CMap m =>
      match copy_text (find m "Body") 4096 al with
      | None => (mkview (status v) None (message v) (format v) (servers v), false)
      | Some b =>
          let v := mkview (status v) (Some b) (message v) (format v) (servers v) in
          match find m "StatusCode" with
          | CInt z => if u16 (to_int z) then (mkview (to_int z) (Some b) (message v) (format v) (servers v), true)
                      else (v, false)
          | _ => (v, false)
          end
      end
  | _ => (v, false)
  end.

(** parse_response in nc_attacher_service_invoke.c, 140-204. *)
Definition parse_svc (p : cbor) (al : bool) (v : view) : view * bool :=
  match p with
  | CMap m =>
      match find m "StatusCode" with
      | CInt z =>
          if u16 (to_int z) then
            let v := mkview (to_int z) (body v) (message v) (format v) (servers v) in
            match find m "MessageFormat" with
            | CInt g =>
                let g := to_int g in
                if (g =? 0)%Z || (g =? 2)%Z then
                  match copy_bytes (find m "Message") 65536 al with
                  | Some b => (mkview (status v) (body v) b g (servers v), true)
                  | None => (mkview (status v) (body v) [] g (servers v), false)
                  end
                else if (g =? 1)%Z then (mkview (status v) (body v) (message v) g (servers v), true)
                else (v, false)
            | _ =>
                match copy_bytes (find m "Message") 65536 al with
                | Some b => (mkview (status v) (body v) b 0 (servers v), true)
                | None => (mkview (status v) (body v) [] (format v) (servers v), false)
                end
            end
          else (v, false)
      | _ => (v, false)
      end
  | _ => (v, false)
  end.

(** The next allocation; the oracle is a list, an empty one means success. *)
Definition take (al : list bool) : bool * list bool :=
  match al with [] => (true, []) | b :: al' => (b, al') end.

(** The loop over the URLs of a server, nc_attacher_ice_servers.c:219-231. *)
Fixpoint parse_urls (l : list cbor) (al : list bool) : option (list string) * list bool :=
  match l with
  | [] => (Some [], al)
  | u :: l' =>
      let (a1, al) := take al in
      match copy_text u 4096 a1 with
      | None => (None, al)
      | Some s =>
          let (a2, al) := take al in
          if a2 then
            let (r, al) := parse_urls l' al in
            (match r with Some x => Some (s :: x) | None => None end, al)
          else (None, al)
      end
  end.

(** The loop over the servers, nc_attacher_ice_servers.c:181-246.  The
    credential is copied only if the username was.  An element which is not
    a map is only logged: the search in it is undefined (None). *)
Fixpoint parse_servers (l : list cbor) (al : list bool) (acc : list server) : option (list server * bool) :=
  match l with
  | [] => Some (acc, true)
  | CMap m :: l' =>
      let (a1, al) := take al in
      let u := copy_text (find m "Username") 4096 a1 in
      let '(c, al) := match u with
                      | None => (None, al)
                      | Some _ => let (a2, al) := take al in (copy_text (find m "Credential") 4096 a2, al)
                      end in
      match find m "Urls" with
      | CArr us =>
          let (r, al) := parse_urls us al in
          match r with
          | None => Some (acc, false)
          | Some x =>
              let (a3, al) := take al in
              if a3 then parse_servers l' al (acc ++ [mkserver u c x]) else Some (acc, false)
          end
      | _ => Some (acc, false)
      end
  | _ :: _ => None
  end.

(** parse_response in nc_attacher_ice_servers.c, 166-249. *)
Definition parse_ice (p : cbor) (al : list bool) (v : view) : option (view * bool) :=
  match p with
  | CArr l => match parse_servers l al (servers v) with
              | Some (x, b) => Some (mkview (status v) (body v) (message v) (format v) x, b)
              | None => None
              end
  | _ => Some (v, false)
  end.

(** coap_handler in nc_attacher_fcm.c, 71-109, nc_attacher_service_invoke.c,
    71-119, nc_attacher_ice_servers.c, 106-164: the result and the response;
    None when the behaviour is undefined.  60 is CBOR. *)
Definition is_cbor (f : option nat) : bool := match f with Some g => Nat.eqb g 60 | None => false end.

Definition handle (k : kind) (a : answer) (al : list bool) (v : view) : option (ec * view) :=
  match a with
  | AStopped => Some (EStopped, v)
  | ATimeout => Some (ETimeout, v)
  | AOther => Some (EUnknown, v)
  | AResponse code fmt p =>
      if negb (Nat.eqb code 201) then
        Some (match k with Fcm => EBadResponse | _ => EFailed end, v)
      else if negb (is_cbor fmt) then Some (EBadResponse, v)
      else match p with
           | Some (Some c) =>
               match k with
               | Fcm => let (v, b) := parse_fcm c (fst (take al)) v in Some (if b then EOk else EBadResponse, v)
               | Svc => let (v, b) := parse_svc c (fst (take al)) v in Some (if b then EOk else EBadResponse, v)
               | Ice => match parse_ice c al v with
                        | Some (v, b) => Some (if b then EOk else EBadResponse, v)
                        | None => None
                        end
               end
           | _ => Some (EBadResponse, v)
           end
  end.

(** The CoAP client calls the handler of the request. *)
Definition do_answer (a : answer) (al : list bool) (s : st) : st * list out :=
  match req s with
  | RSent =>
      if negb (alive s) then (set_dead s, [Given a; UseAfterFree])
      else match handle (knd s) a al (resp s) with
           | None => (set_dead s, [Given a; UseAfterFree])
           | Some (e, v) =>
               let s := set_resp s v in
               let '(s, o) := match knd s with
                              | Ice => (set_req s RDone, [])
                              | _ => (set_req s RFreed, [Released])
                              end in
               (s, Given a :: o ++ match slot s with Some f => [Resolved f e] | None => [] end)
           end
  | _ => (s, [])
  end.

Inductive op :=
  | SetIdent (v : string) (al : bool)
  | SetPayload (v : string) (al : bool)
  | SetMessage (v : list nat) (al : bool)
  | Send (f : nat) (id : string) (a1 a2 : bool)
  | Stop
  | Free
  | Answer (a : answer) (al : list bool)
  | Connecting (c : nat)
  | Attached
  | Detached.

(** The attacher: setup_dtls, nc_attacher.c:442-451, the end of an attach,
    reset_dtls_connection, 554-561. *)
Definition step (s : st) (i : op) : st * list out :=
  if dead s then (s, [])
  else match i with
  | Connecting c => (set_net s (Some c) false, [])
  | Attached => match dtls s with Some _ => (set_net s (dtls s) true, []) | None => (s, []) end
  | Detached => (set_net s None false, [])
  | Answer a al => do_answer a al s
  | _ =>
    if negb (alive s) then (s, [])
    else match i with
    | SetIdent v al => do_set_ident v al s
    | SetPayload v al => do_set_payload v al s
    | SetMessage v al => do_set_message v al s
    | Send f id a1 a2 => do_send f id a1 a2 s
    | Stop => do_stop s
    | _ => do_free s
    end
  end.

Fixpoint runs (s : st) (l : list op) : st * list out :=
  match l with
  | [] => (s, [])
  | i :: l' => let (s1, o1) := step s i in let (s2, o2) := runs s1 l' in (s2, o1 ++ o2)
  end.

(** An object of this kind, made while the attacher has this connection. *)
Definition run (k : kind) (d : option nat) (a : bool) (l : list op) : st * list out :=
  let (s, o) := runs (init k d a) l in (s, init_out k ++ o).
