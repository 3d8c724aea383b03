(** The operations of a stream which is not virtual: nc_stream.c 342-679. The stream protocol, nabto_stream of the empty submodule nabto-common, is an oracle:
    what its functions answer is an argument of the step ([env]). Bytes have no contents: it is recorded which part of a buffer is filled or taken.
    Completion events are numbers; resolving one is an output. *)
From Coq Require Import List Bool Arith.
Import ListNotations.

(** nabto_stream_status. *)
Inductive status := SOk | SClosed | SEof | SAborted | SOther.
Inductive code := Ok | ClosedEc | Eof | Aborted | Unknown | StoppedEc | InProgress.
(** nc_stream_status_to_ec 35-44. *)
Definition to_ec (s : status) : code :=
  match s with SOk => Ok | SClosed => ClosedEc | SEof => Eof | SAborted => Aborted | SOther => Unknown end.

(** A read: readAllEv or readSomeEv, the place of readBuffer in the buffer of the user, readBufferLength, *readLength. *)
Record reading := { r_all : bool; r_ev : nat; r_at : nat; r_left : nat; r_len : nat }.
(** A write: writeEv, the place of writeBuffer in the buffer of the user, writeBufferLength. *)
Record writing := { w_ev : nat; w_at : nat; w_left : nat }.
(** struct nc_stream_context. readAllEv and readSomeEv are never both set, they are one field. *)
Record stream := { c_stopped : bool; c_closed : bool; c_accept : option nat; c_read : option reading; c_write : option writing; c_close : option nat }.
Definition set_stopped (x : bool) (s : stream) : stream := {| c_stopped := x; c_closed := c_closed s; c_accept := c_accept s; c_read := c_read s; c_write := c_write s; c_close := c_close s |}.
Definition set_closed (x : bool) (s : stream) : stream := {| c_stopped := c_stopped s; c_closed := x; c_accept := c_accept s; c_read := c_read s; c_write := c_write s; c_close := c_close s |}.
Definition set_accept (x : option nat) (s : stream) : stream := {| c_stopped := c_stopped s; c_closed := c_closed s; c_accept := x; c_read := c_read s; c_write := c_write s; c_close := c_close s |}.
Definition set_read (x : option reading) (s : stream) : stream := {| c_stopped := c_stopped s; c_closed := c_closed s; c_accept := c_accept s; c_read := x; c_write := c_write s; c_close := c_close s |}.
Definition set_write (x : option writing) (s : stream) : stream := {| c_stopped := c_stopped s; c_closed := c_closed s; c_accept := c_accept s; c_read := c_read s; c_write := x; c_close := c_close s |}.
Definition set_close (x : option nat) (s : stream) : stream := {| c_stopped := c_stopped s; c_closed := c_closed s; c_accept := c_accept s; c_read := c_read s; c_write := c_write s; c_close := x |}.

(** nc_stream_init 52-94 on zeroed memory. *)
Definition init : stream := {| c_stopped := false; c_closed := false; c_accept := None; c_read := None; c_write := None; c_close := None |}.

(** The answers of nabto_stream_read_buffer, nabto_stream_write_buffer and nabto_stream_close: at most as many bytes as asked for are read or written, [Nat.min] below. *)
Record env := { n_read : status * nat; n_write : status * nat; n_close : status }.

(** nabto_stream_application_event_type. *)
Inductive event := Opened | DataReady | DataWrite | ReadClosed | WriteClosed | AllClosed.
Inductive op :=
| Accept (e : nat)               (* nc_stream_async_accept *)
| Read (all : bool) (e n : nat)  (* nc_stream_async_read_all, nc_stream_async_read_some *)
| Write (e n : nat)              (* nc_stream_async_write *)
| Close (e : nat)                (* nc_stream_async_close *)
| Event (v : event)              (* nc_stream_event dispatches an application event *)
| Stop                           (* nc_stream_stop, from an abort or from nc_stream_destroy *)
| Disconnect.                    (* nc_stream_handle_connection_closed *)

(** [Filled e at n]: n bytes are copied into the buffer of the read e at that place; [Length]: *readLength is written; [Taken e at n]: the protocol has taken n bytes
    of the buffer of the write e from that place. *)
Inductive out := Complete (e : nat) (c : code) | Filled (e at_ n : nat) | Length (e n : nat) | Taken (e at_ n : nat).

(** nc_stream_resolve_read 497-513. *)
Definition resolve_read (c : code) (s : stream) : stream * list out :=
  match c_read s with Some r => (set_read None s, [Complete (r_ev r) c]) | None => (s, []) end.

(** nc_stream_do_read 515-548. *)
Definition do_read (v : env) (s : stream) : stream * list out :=
  match c_read s with
  | None => (s, [])
  | Some r =>
    match n_read v with
    | (SOk, k) =>
      let k := Nat.min k (r_left r) in
      if k =? 0 then (s, [])
      else
        let o := [Filled (r_ev r) (r_at r) k; Length (r_ev r) (r_len r + k)] in
        let r := {| r_all := r_all r; r_ev := r_ev r; r_at := r_at r + k; r_left := r_left r - k; r_len := r_len r + k |} in
        let s := set_read (Some r) s in
        if r_all r && negb (r_left r =? 0) then (s, o)
        else let (s, l) := resolve_read Ok s in (s, o ++ l)
    | (st, _) => resolve_read (to_ec st) s
    end
  end.

(** nc_stream_do_write_all 549-571; its callers have checked that there is a write. *)
Definition do_write (v : env) (s : stream) : stream * list out :=
  match c_write s with
  | None => (s, [])
  | Some w =>
    match n_write v with
    | (SOk, k) =>
      let k := Nat.min k (w_left w) in
      if k =? 0 then (s, [])
      else if k =? w_left w then (set_write None s, [Taken (w_ev w) (w_at w) k; Complete (w_ev w) Ok])
      else (set_write (Some {| w_ev := w_ev w; w_at := w_at w + k; w_left := w_left w - k |}) s, [Taken (w_ev w) (w_at w) k])
    | (st, _) => (set_write None s, [Complete (w_ev w) (to_ec st)])
    end
  end.

(** nc_stream_handle_close 573-586. *)
Definition handle_close (v : env) (s : stream) : code :=
  match c_close s with None => Ok | Some _ => to_ec (n_close v) end.

(** np_completion_event_resolve and clearing the field. *)
Definition resolve (e : option nat) (c : code) : list out := match e with Some e => [Complete e c] | None => [] end.

(** nc_stream_application_event_callback 588-633. *)
Definition event_callback (v : env) (x : event) (s : stream) : stream * list out :=
  match x with
  | Opened => (set_accept None s, resolve (c_accept s) Ok)
  | DataReady | ReadClosed => do_read v s
  | DataWrite => do_write v s
  | WriteClosed => (set_close None s, resolve (c_close s) Ok)
  | AllClosed =>
    let (s, l1) := do_write v s in
    let (s, l2) := (set_accept None s, resolve (c_accept s) Aborted) in
    let (s, l3) := do_read v s in
    let (s, l4) := match handle_close v s with Ok => (s, []) | c => (set_close None s, resolve (c_close s) c) end in
    (s, l1 ++ l2 ++ l3 ++ l4)
  end.

(** nc_stream_stop 635-679; the RST packet and the timer are not modelled here. *)
Definition stop (s : stream) : stream * list out :=
  if c_stopped s then (s, [])
  else
    (set_close None (set_write None (set_read None (set_accept None (set_stopped true s)))),
     resolve (c_accept s) Aborted ++ resolve (option_map r_ev (c_read s)) Aborted ++ resolve (option_map w_ev (c_write s)) Aborted ++ resolve (c_close s) Aborted).

Definition step (v : env) (o : op) (s : stream) : stream * list out :=
  match o with
  | Accept e => (* 364-384 *)
    if c_stopped s then (s, [Complete e StoppedEc])
    else match c_accept s with
         | Some _ => (s, [Complete e InProgress])
         | None => (set_accept (Some e) s, [])
         end
  | Read all e n => (* 386-441 *)
    if c_stopped s then (s, [Complete e StoppedEc])
    else match c_read s with
         | Some _ => (s, [Complete e InProgress])
         | None => let (s, l) := do_read v (set_read (Some {| r_all := all; r_ev := e; r_at := 0; r_left := n; r_len := 0 |}) s) in (s, Length e 0 :: l)
         end
  | Write e n => (* 443-470 *)
    if c_stopped s then (s, [Complete e StoppedEc])
    else match c_write s with
         | Some _ => (s, [Complete e InProgress])
         | None =>
           if c_closed s then (s, [Complete e ClosedEc])
           else do_write v (set_write (Some {| w_ev := e; w_at := 0; w_left := n |}) s)
         end
  | Close e => (* 472-495 *)
    if c_stopped s then (s, [Complete e StoppedEc])
    else match c_close s with
         | Some _ => (s, [Complete e InProgress])
         | None =>
           let s := set_closed true (set_close (Some e) s) in
           match handle_close v s with
           | Ok => (s, [])
           | c => (set_close None s, [Complete e c])
           end
         end
  | Event x => (* nc_stream_event 117-163: nothing is dispatched once the stream is stopped *)
    if c_stopped s then (s, []) else event_callback v x s
  | Stop | Disconnect => (* 635-679, 212-225 *)
    stop s
  end.

Definition move : Type := op * env.
Fixpoint run (s : stream) (h : list move) : stream * list (move * list out) :=
  match h with
  | [] => (s, [])
  | m :: h => let (s, l) := step (snd m) (fst m) s in let (s, t) := run s h in (s, (m, l) :: t)
  end.
