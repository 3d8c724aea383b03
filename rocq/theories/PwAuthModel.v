(** Password authentication: src/core/nc_spake2.c, src/core/nc_spake2_coap.c,
    the key agreement of src/modules/mbedtls/nm_mbedtls_spake2.c and the API in
    src/api/nabto_device_password_authentication.c with the part of
    src/api/nabto_device_listener.c it uses.

    Simplifications, valid for the whole file: allocations succeed; all code
    below runs under the device mutex on the core, so one operation is one
    step; the CBOR parse of a request payload (nc_spake2_coap.c 52-75, tinycbor is not in
    the repository) is an input of the operation; connections are identified
    by a reference that is not reused (nc_device.c nc_device_next_connection_ref). *)
From Coq Require Import String Ascii List Bool Arith NArith ZArith.
Import ListNotations.
Open Scope string_scope.

(** nc_spake2.h 22-23: NC_SPAKE2_MAX_TOKENS, NC_SPAKE2_TOKEN_INTERVAL. *)
Definition max_tokens : N := 10.
Definition token_interval : N := 1000.

(** The inputs of pl->spake2.calculate_key as called in nc_spake2.c 83-90:
    the request (username, T), the two fingerprints of the connection, the
    password (None is the NULL pointer), the bytes drawn from the random
    generator, and the bytes which were in the key buffer before. *)
Record exchange := {
  x_user : string; x_T : string; x_cfp : string; x_dfp : string;
  x_password : option string; x_rnd : nat; x_old : string }.

(** The platform functions of np_spake2_wrapper.h. [calculate_key] gives the bytes
    left in the key buffer and the returned status; [confirmation k] is
    sha256(sha256 k) as in nm_mbedtls_spake2.c 220-232. *)
Record crypto := {
  calculate_key : exchange -> string * bool;
  confirmation : string -> string }.

(** The fields of struct nc_connection used here (nc_connection.h 28-32) and
    its fingerprints. *)
Record pconn := {
  pc_cfp : string; pc_dfp : string;
  pc_has_key : bool; pc_key : string;
  pc_user : option string; pc_auth : bool }.

(** struct nc_spake2_password_request wrapped in struct
    nabto_device_password_authentication_request. [rq_id] names the CoAP request it
    has to answer. *)
Record request := { rq_id : nat; rq_conn : nat; rq_user : string; rq_T : string; rq_handled : bool }.

Record state := {
  st_now : N;                        (* np_timestamp_now_ms *)
  st_tokens : N;                     (* nc_spake2_module.tokens *)
  st_timer : option N;               (* tbEvent: time at which it is due *)
  st_listening : bool;               (* passwordRequestHandler != NULL *)
  st_waiting : bool;                 (* listener->fut != NULL *)
  st_queue : list request;           (* listener->events *)
  st_app : list request;             (* request objects owned by the application *)
  st_conns : nat -> option pconn;
  st_refs : nat;                     (* connection references given out *)
  st_next : nat }.                   (* number of CoAP requests received *)

(** nc_spake2.c 20-30. *)
Definition init : state :=
  {| st_now := 0; st_tokens := max_tokens; st_timer := None; st_listening := false;
     st_waiting := false; st_queue := []; st_app := []; st_conns := fun _ => None; st_refs := 0; st_next := 0 |}.

(** Result of parsing the payload of step 1. *)
Inductive body :=
| BWrongFormat | BNone | BMalformed | BRequest (user T : string).

Inductive op :=
| Tick (ms : N)                              (* time passes *)
| TokenTimer                                 (* the event queue runs newTokenEvent *)
| Connect (c : nat) (cfp dfp : string)
| Close (c : nat)
| Step1 (c : nat) (b : body)                 (* POST /p2p/pwd-auth/1 *)
| Step2 (c : nat) (payload : option string)  (* POST /p2p/pwd-auth/2 *)
| InitListener
| StopListener (rnd : nat -> nat)
| NextRequest                                (* nabto_device_listener_new_password_authentication_request *)
| SetPassword (r : nat) (pw : option string) (rnd : nat)
| FreeRequest (r : nat) (rnd : nat).

Inductive ec := EcOk | EcInUse | EcInvalidState | EcInProgress | EcStopped.

(** What can be observed of one step. *)
Inductive out :=
| Answer (r : nat) (code : nat)                  (* CoAP request r is answered *)
| Exchanged (c : nat) (x : exchange) (k : string) (ok : bool)
                                                 (* a key was computed for connection c *)
| Checked (c : nat) (payload : string) (ok : bool)
                                                 (* a proof was evaluated on connection c *)
| Returned (e : ec).

Definition set_conn (f : nat -> option pconn) (c : nat) (v : option pconn) : nat -> option pconn :=
  fun d => if Nat.eqb d c then v else f d.

Definition with_conns (s : state) f := {|
  st_now := st_now s; st_tokens := st_tokens s; st_timer := st_timer s; st_listening := st_listening s;
  st_waiting := st_waiting s; st_queue := st_queue s; st_app := st_app s; st_conns := f;
  st_refs := st_refs s; st_next := st_next s |}.
Definition with_ref (s : state) := {|
  st_now := st_now s; st_tokens := st_tokens s; st_timer := st_timer s; st_listening := st_listening s;
  st_waiting := st_waiting s; st_queue := st_queue s; st_app := st_app s; st_conns := st_conns s;
  st_refs := S (st_refs s); st_next := st_next s |}.
Definition with_bucket (s : state) t d := {|
  st_now := st_now s; st_tokens := t; st_timer := d; st_listening := st_listening s;
  st_waiting := st_waiting s; st_queue := st_queue s; st_app := st_app s; st_conns := st_conns s;
  st_refs := st_refs s; st_next := st_next s |}.
Definition with_now (s : state) n := {|
  st_now := n; st_tokens := st_tokens s; st_timer := st_timer s; st_listening := st_listening s;
  st_waiting := st_waiting s; st_queue := st_queue s; st_app := st_app s; st_conns := st_conns s;
  st_refs := st_refs s; st_next := st_next s |}.
Definition with_lists (s : state) l w q a := {|
  st_now := st_now s; st_tokens := st_tokens s; st_timer := st_timer s; st_listening := l;
  st_waiting := w; st_queue := q; st_app := a; st_conns := st_conns s;
  st_refs := st_refs s; st_next := st_next s |}.
Definition bump (s : state) := {|
  st_now := st_now s; st_tokens := st_tokens s; st_timer := st_timer s; st_listening := st_listening s;
  st_waiting := st_waiting s; st_queue := st_queue s; st_app := st_app s; st_conns := st_conns s;
  st_refs := st_refs s; st_next := S (st_next s) |}.

(** nc_spake2.c 124-130 nc_spake2_spend_token. *)
Definition spend_token (s : state) : state :=
  with_bucket s (st_tokens s - 1)
    (if N.eqb (st_tokens s) max_tokens then Some (st_now s + token_interval)%N else st_timer s).

(** nc_spake2.c 115-122 newTokenEvent; the event is not posted any more while
    its callback runs. *)
Definition new_token (s : state) : state :=
  with_bucket s (st_tokens s + 1)
    (if N.ltb (st_tokens s + 1) max_tokens then Some (st_now s + token_interval)%N else None).

(** nc_spake2.c 74-113 nc_spake2_password_ready. *)
Definition password_ready (C : crypto) (s : state) (r : request) (pw : option string) (rnd : nat)
  : state * list out :=
  match st_conns s (rq_conn r) with
  | None => (s, [Answer (rq_id r) 500])
  | Some p =>
      let x := {| x_user := rq_user r; x_T := rq_T r; x_cfp := pc_cfp p; x_dfp := pc_dfp p;
                  x_password := pw; x_rnd := rnd; x_old := pc_key p |} in
      let (k, ok) := calculate_key C x in
      let p' := {| pc_cfp := pc_cfp p; pc_dfp := pc_dfp p;
                   pc_has_key := if ok then true else pc_has_key p;
                   pc_key := k;
                   pc_user := if ok then Some (rq_user r) else pc_user p;
                   pc_auth := pc_auth p |} in
      (with_conns s (set_conn (st_conns s) (rq_conn r) (Some p')),
       [Exchanged (rq_conn r) x k ok; Answer (rq_id r) (if ok then 201 else 500)])
  end.

(** nabto_device_listener.c 55-66 add_event and 172-191 try_resolve for this listener: the new
    object goes to the application when a future is waiting, else it is queued. *)
Definition add_event (s : state) (r : request) : state :=
  if st_waiting s then with_lists s (st_listening s) false (st_queue s) (st_app s ++ [r])%list
  else with_lists s (st_listening s) false (st_queue s ++ [r])%list (st_app s).

(** nc_spake2_coap.c 77-120 nc_spake2_handle_coap_1. *)
Definition handle_1 (s : state) (c : nat) (b : body) : state * list out :=
  let r := st_next s in
  let s := bump s in
  if N.eqb (st_tokens s) 0 then (s, [Answer r 429]) else
  if negb (st_listening s) then (s, [Answer r 404]) else
  match b with
  | BWrongFormat => (s, [Answer r 415])
  | BNone => (s, [Answer r 400])
  | BMalformed => (s, [Answer r 400])
  | BRequest user T =>
      (add_event s {| rq_id := r; rq_conn := c; rq_user := user; rq_T := T; rq_handled := false |}, [])
  end.

Definition authenticate (p : pconn) : pconn :=
  {| pc_cfp := pc_cfp p; pc_dfp := pc_dfp p; pc_has_key := pc_has_key p; pc_key := pc_key p;
     pc_user := pc_user p; pc_auth := true |}.

(** nc_spake2_coap.c 123-163 nc_spake2_handle_coap_2. *)
Definition handle_2 (C : crypto) (s : state) (c : nat) (p : pconn) (payload : option string)
  : state * list out :=
  let r := st_next s in
  let s := bump s in
  if N.eqb (st_tokens s) 0 then (s, [Answer r 429]) else
  if negb (st_listening s) then (s, [Answer r 404]) else
  match payload with
  | None => (s, [Answer r 400])
  | Some d =>
      if negb (Nat.eqb (String.length d) 32) then (s, [Answer r 400]) else
      if negb (pc_has_key p) then (s, [Answer r 400]) else
      if String.eqb d (confirmation C (pc_key p))
      then (with_conns s (set_conn (st_conns s) c (Some (authenticate p))),
            [Checked c d true; Answer r 201])
      else (spend_token s, [Checked c d false; Answer r 401])
  end.

(** nabto_device_listener.c 193-220 resolve_error_state with
    nabto_device_password_authentication.c 43-60, 190-196: every queued request object is
    freed, which answers it with the dummy password. *)
Fixpoint free_all (C : crypto) (s : state) (l : list request) (rnd : nat -> nat) : state * list out :=
  match l with
  | [] => (s, [])
  | r :: l' =>
      let (s1, o1) := password_ready C s r None (rnd (rq_id r)) in
      let (s2, o2) := free_all C s1 l' rnd in
      (s2, (o1 ++ o2)%list)
  end.

Definition find_app (s : state) (r : nat) : option request :=
  find (fun q => Nat.eqb (rq_id q) r) (st_app s).

Definition mark_handled (l : list request) (r : nat) : list request :=
  map (fun q => if Nat.eqb (rq_id q) r
                then {| rq_id := rq_id q; rq_conn := rq_conn q; rq_user := rq_user q; rq_T := rq_T q;
                        rq_handled := true |} else q) l.

Definition remove_request (l : list request) (r : nat) : list request :=
  filter (fun q => negb (Nat.eqb (rq_id q) r)) l.

(** One operation. None: the operation cannot happen (request on a connection
    which does not exist, timer not due) or is a use of a freed object. *)
Definition step (C : crypto) (s : state) (o : op) : option (state * list out) :=
  match o with
  | Tick ms => Some (with_now s (st_now s + ms)%N, [])
  | TokenTimer =>
      match st_timer s with
      | Some d => if N.leb d (st_now s) then Some (new_token s, []) else None
      | None => None
      end
  | Connect c cfp dfp =>
      (* nc_connection.c 160-190: new connections have no key and no user *)
      if negb (Nat.eqb c (st_refs s)) then None else
      Some (with_ref (with_conns s (set_conn (st_conns s) c
              (Some {| pc_cfp := cfp; pc_dfp := dfp; pc_has_key := false; pc_key := "";
                       pc_user := None; pc_auth := false |}))), [])
  | Close c =>
      match st_conns s c with
      | Some _ => Some (with_conns s (set_conn (st_conns s) c None), [])
      | None => None
      end
  | Step1 c b =>
      match st_conns s c with
      | Some _ => Some (handle_1 s c b)
      | None => None
      end
  | Step2 c payload =>
      match st_conns s c with
      | Some p => Some (handle_2 C s c p payload)
      | None => None
      end
  | InitListener =>
      (* nabto_device_password_authentication.c 102-122 *)
      if st_listening s then Some (s, [Returned EcInUse])
      else Some (with_lists s true false [] (st_app s), [Returned EcOk])
  | StopListener rnd =>
      (* nabto_device_listener.c 159-170, 193-220; the aborted callback clears the handler *)
      if st_listening s then
        let (s1, o1) := free_all C s (st_queue s) rnd in
        Some (with_lists s1 false false [] (st_app s1), (o1 ++ [Returned EcOk])%list)
      else Some (s, [Returned EcStopped])
  | NextRequest =>
      if negb (st_listening s) then Some (s, [Returned EcStopped])
      else if st_waiting s then Some (s, [Returned EcInProgress])
      else match st_queue s with
           | [] => Some (with_lists s true true [] (st_app s), [])
           | r :: q => Some (with_lists s true false q (st_app s ++ [r])%list, [Returned EcOk])
           end
  | SetPassword r pw rnd =>
      (* nabto_device_password_authentication.c 159-174 *)
      match find_app s r with
      | None => None
      | Some q =>
          if rq_handled q then Some (s, [Returned EcInvalidState])
          else
            let (s1, o1) := password_ready C s q pw rnd in
            Some (with_lists s1 (st_listening s1) (st_waiting s1) (st_queue s1) (mark_handled (st_app s1) r),
                  (o1 ++ [Returned EcOk])%list)
      end
  | FreeRequest r rnd =>
      (* nabto_device_password_authentication.c 181-196 *)
      match find_app s r with
      | None => None
      | Some q =>
          if rq_handled q
          then Some (with_lists s (st_listening s) (st_waiting s) (st_queue s) (remove_request (st_app s) r), [])
          else
            let (s1, o1) := password_ready C s q None rnd in
            Some (with_lists s1 (st_listening s1) (st_waiting s1) (st_queue s1) (remove_request (st_app s1) r), o1)
      end
  end.

Fixpoint run (C : crypto) (s : state) (l : list op) : option (state * list out) :=
  match l with
  | [] => Some (s, [])
  | o :: l' =>
      match step C s o with
      | None => None
      | Some (s1, o1) =>
          match run C s1 l' with
          | None => None
          | Some (s2, o2) => Some (s2, (o1 ++ o2)%list)
          end
      end
  end.

(** nabto_device_password_authentication.c 62-75. *)
Definition is_password_authenticated (s : state) (c : nat) : bool :=
  match st_conns s c with Some p => pc_auth p | None => false end.

(** nabto_device_password_authentication.c 77-99. [UUndefined]: the NULL
    username of a connection on which no key was computed is dereferenced. *)
Inductive username_result := UInvalidConnection | UInvalidState | UOk (u : string) | UUndefined.
Definition get_username (s : state) (c : nat) : username_result :=
  match st_conns s c with
  | None => UInvalidConnection
  | Some p =>
      match pc_user p with
      | None => UUndefined
      | Some "" => UInvalidState
      | Some u => UOk u
      end
  end.
