(** Listeners of the device API: src/api/nabto_device_listener.c, with the functions which use it in
    nabto_device_connection_events.c, nabto_device_events.c, nabto_device_stream.c, nabto_device_coap.c,
    nabto_device_authorization_events.c and nabto_device_password_authentication.c.

    All of it runs with the device lock, so every function is one step. Events, futures and the places where the
    application wants the event written are numbers. The callback of the listener is modelled by what all
    six do: write the event to the place of the application (ec OK), release the event (other codes), give
    up the listener (ABORTED, no event). The list of all listeners of the device is not modelled. *)
From Coq Require Import List Bool Arith.
Import ListNotations.

(** np_error_code.h: the codes used; the numbers do not matter, OK is 0. *)
Definition ok : nat := 0.
Definition stopped : nat := 1.
Definition aborted : nat := 2.
Definition invalid_state : nat := 3.
Definition in_progress : nat := 4.
Definition unknown : nat := 5.
Definition invalid_argument : nat := 6.

(** nabto_device_listener.h 62-77 struct nabto_device_listener, with the place of its context (userRef,
    userEvent, stream, futureRequest, genericFutureResolverData). *)
Record lst := { l_init : bool; l_cb : bool; l_events : list nat; l_fut : option nat; l_place : option nat; l_ec : nat }.

(** nabto_device_listener_new 16-36: zeroed memory. *)
Definition fresh_listener : lst :=
  {| l_init := false; l_cb := false; l_events := []; l_fut := None; l_place := None; l_ec := ok |}.

Inductive out :=
| Accepted (e : nat)                (* nabto_device_listener_add_event returns OK *)
| Refused (e ec : nat)              (* it returns ec; the caller releases the event *)
| Write (p e : nat)                 (* the event is handed to the application at place p *)
| Resolved (f ec : nat)             (* the future is resolved *)
| Released (e ec : nat)             (* the callback releases an event which the application did not get *)
| Done.                             (* the callback gives up the listener *)

(** nabto_device_listener_init 38-53. A fresh context is made by the callers, its place is NULL. *)
Definition listener_init (l : lst) : lst :=
  {| l_init := true; l_cb := true; l_events := []; l_fut := l_fut l; l_place := None; l_ec := ok |}.

Definition set_events (l : lst) (q : list nat) : lst :=
  {| l_init := l_init l; l_cb := l_cb l; l_events := q; l_fut := l_fut l; l_place := l_place l; l_ec := l_ec l |}.
Definition set_fut (l : lst) (f : option nat) : lst :=
  {| l_init := l_init l; l_cb := l_cb l; l_events := l_events l; l_fut := f; l_place := l_place l; l_ec := l_ec l |}.
Definition set_place (l : lst) (p : option nat) : lst :=
  {| l_init := l_init l; l_cb := l_cb l; l_events := l_events l; l_fut := l_fut l; l_place := p; l_ec := l_ec l |}.
Definition set_ec (l : lst) (ec : nat) : lst :=
  {| l_init := l_init l; l_cb := l_cb l; l_events := l_events l; l_fut := l_fut l; l_place := l_place l; l_ec := ec |}.
Definition no_cb (l : lst) : lst :=
  {| l_init := l_init l; l_cb := false; l_events := l_events l; l_fut := l_fut l; l_place := l_place l; l_ec := l_ec l |}.

(** The callback with ec OK: nabto_device_connection_events.c 42-54, nabto_device_events.c 43-53,
    nabto_device_stream.c 339-349, nabto_device_coap.c 208-221. The callbacks of authorization and
    password authentication do not clear and check the place. *)
Definition deliver (l : lst) (e : nat) : lst * nat * list out :=
  match l_place l with
  | Some p => (set_place l None, ok, [Write p e])
  | None => (l, unknown, [Released e unknown])
  end.

(** nabto_device_listener_try_resolve 172-191. *)
Definition try_resolve (l : lst) : lst * list out :=
  match l_fut l, l_events l with
  | Some f, e :: q =>
    let l := set_events l q in
    let '(l, ec, o) := if l_cb l then deliver l e else (l, unknown, []) in
    (set_fut l None, o ++ [Resolved f ec])
  | _, _ => (l, [])
  end.

(** nabto_device_listener_add_event 55-67. *)
Definition add_event (l : lst) (e : nat) : lst * list out :=
  if negb (l_init l) then (l, [Refused e invalid_state])
  else if negb (Nat.eqb (l_ec l) ok) then (l, [Refused e (l_ec l)])
  else let (l, o) := try_resolve (set_events l (l_events l ++ [e])) in (l, Accepted e :: o).

(** nabto_device_listener_init_future 97-111. *)
Definition init_future (l : lst) (f : nat) : lst * nat :=
  if negb (l_init l) then (l, invalid_state)
  else if negb (Nat.eqb (l_ec l) ok) then (l, l_ec l)
  else match l_fut l with
       | Some _ => (l, in_progress)
       | None => (set_fut l (Some f), ok)
       end.

(** nabto_device_connection_events.c 104-136 nabto_device_listener_connection_event; the same in nabto_device_events.c 102-134,
    nabto_device_stream.c 76-108, nabto_device_coap.c 53-82, nabto_device_authorization_events.c 79-113 and
    nabto_device_password_authentication.c 199-230. A listener which is not initialised has type NONE; the check
    that a listener is of the right kind is modelled only for that case. *)
Definition new_future (l : lst) (f p : nat) : lst * list out :=
  if negb (l_init l) then (l, [Resolved f invalid_argument])
  else if negb (Nat.eqb (l_ec l) ok) then (l, [Resolved f (l_ec l)])
  else let (l, ec) := init_future l f in
       if negb (Nat.eqb ec ok) then (l, [Resolved f ec])
       else try_resolve (set_place l (Some p)).

(** nabto_device_listener_resolve_error_state 193-220. *)
Definition resolve_error_state (l : lst) : lst * list out :=
  let ec := if Nat.eqb (l_ec l) aborted then stopped else l_ec l in
  let o1 := if l_cb l then map (fun e => Released e ec) (l_events l) else [] in
  let l := set_events l [] in
  let o2 := match l_fut l with Some f => [Resolved f (l_ec l)] | None => [] end in
  let l := set_fut l None in
  let o3 := if l_cb l then [Done] else [] in
  (no_cb l, o1 ++ o2 ++ o3).

(** nabto_device_listener_set_error_code 125-133. *)
Definition set_error_code (l : lst) (ec : nat) : lst * list out :=
  if negb (l_init l) then (l, []) else resolve_error_state (set_ec l ec).

(** nabto_device_listener_stop_internal 159-169, called by nabto_device_listener_stop 113-122 and by nabto_device_listener_stop_all
    140-151 for every listener. *)
Definition stop (l : lst) : lst * list out :=
  if negb (l_init l) then (l, [])
  else if Nat.eqb (l_ec l) ok then set_error_code l stopped
  else (l, []).

Inductive op := Init | Event (e : nat) | NewFuture (f p : nat) | SetError (ec : nat) | Stop.

Definition step (l : lst) (o : op) : lst * list out :=
  match o with
  | Init => (listener_init l, [])
  | Event e => add_event l e
  | NewFuture f p => new_future l f p
  | SetError ec => set_error_code l ec
  | Stop => stop l
  end.

Fixpoint run (l : lst) (h : list op) : lst * list (op * list out) :=
  match h with
  | [] => (l, [])
  | o :: h => let (l1, a) := step l o in let (l2, t) := run l1 h in (l2, (o, a) :: t)
  end.
