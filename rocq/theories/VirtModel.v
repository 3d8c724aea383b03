(** A virtual stream, whose client is the application itself: nc_virtual_stream.c 12-311 and the functions of nc_stream.c for streams with isVirtual. Completion events
    are numbers; resolving one is an output. The contents of the buffers are modelled. Reference counts and the list of streams are not modelled here. *)
From Coq Require Import List Bool Arith.
Import ListNotations.

Inductive code := Ok | ClosedEc | Eof | Aborted | StoppedEc | InProgress.
(** readAllEv or readSomeEv, readBufferLength, *readLength. The two events are never both set, they are one field. *)
Record reading := { r_all : bool; r_ev : nat; r_left : nat; r_len : nat }.
(** writeEv, writeBuffer and writeBufferLength. *)
Record writing := { w_ev : nat; w_rest : list nat }.
(** One side: the fields of struct nc_stream_context for the server (the device), those of struct nc_virtual_stream_context for the client.
    d_open is acceptEv of the server and openedEv of the client. *)
Record side := { d_stopped : bool; d_closed : bool; d_open : option nat; d_read : option reading; d_write : option writing; d_close : option nat }.
Definition set_stopped (x : bool) (s : side) : side := {| d_stopped := x; d_closed := d_closed s; d_open := d_open s; d_read := d_read s; d_write := d_write s; d_close := d_close s |}.
Definition set_closed (x : bool) (s : side) : side := {| d_stopped := d_stopped s; d_closed := x; d_open := d_open s; d_read := d_read s; d_write := d_write s; d_close := d_close s |}.
Definition set_open (x : option nat) (s : side) : side := {| d_stopped := d_stopped s; d_closed := d_closed s; d_open := x; d_read := d_read s; d_write := d_write s; d_close := d_close s |}.
Definition set_read (x : option reading) (s : side) : side := {| d_stopped := d_stopped s; d_closed := d_closed s; d_open := d_open s; d_read := x; d_write := d_write s; d_close := d_close s |}.
Definition set_write (x : option writing) (s : side) : side := {| d_stopped := d_stopped s; d_closed := d_closed s; d_open := d_open s; d_read := d_read s; d_write := x; d_close := d_close s |}.
Definition set_close (x : option nat) (s : side) : side := {| d_stopped := d_stopped s; d_closed := d_closed s; d_open := d_open s; d_read := d_read s; d_write := d_write s; d_close := x |}.
Record vstream := { srv : side; cli : side }.
Definition on_srv (f : side -> side) (s : vstream) : vstream := {| srv := f (srv s); cli := cli s |}.
Definition on_cli (f : side -> side) (s : vstream) : vstream := {| srv := srv s; cli := f (cli s) |}.

Inductive op :=
| SAccept (e : nat) | SRead (all : bool) (e n : nat) | SWrite (e : nat) (b : list nat) | SClose (e : nat)
| SStop   (* nc_stream_stop, from an abort, nc_stream_destroy or nc_stream_handle_connection_closed *)
| CRead (all : bool) (e n : nat) | CWrite (e : nat) (b : list nat) | CClose (e : nat)
| CStop.  (* nc_virtual_stream_client_stop *)
(** [Copied side e b]: these bytes are copied behind those which are already in the buffer of the read e of this side; [Length]: *readLength is written. *)
Inductive who := Server | Client.
Inductive out := Complete (e : nat) (c : code) | Copied (w : who) (e : nat) (b : list nat) | Length (e n : nat).

(** nc_virtual_stream_init 12-31 on zeroed memory; e is openedEv. *)
Definition fresh : side := {| d_stopped := false; d_closed := false; d_open := None; d_read := None; d_write := None; d_close := None |}.
Definition init (e : nat) : vstream := {| srv := fresh; cli := set_open (Some e) fresh |}.

(** np_completion_event_resolve of an event which is set. *)
Definition resolve (e : option nat) (c : code) : list out := match e with Some e => [Complete e c] | None => [] end.

(** nc_virtual_stream_resolve_write 94-109, nc_stream_resolve_read of nc_stream.c. *)
Definition resolve_write (c : code) (s : vstream) : vstream * list out :=
  let l1 := resolve (option_map w_ev (d_write (cli s))) c in
  let s := on_cli (set_write None) s in
  if d_closed (cli s) then
    let (s, l2) := match d_read (srv s) with
                   | Some r => if r_all r then (on_srv (set_read None) s, [Complete (r_ev r) Ok]) else (s, [])
                   | None => (s, [])
                   end in
    (on_cli (set_close None) s, l1 ++ l2 ++ resolve (d_close (cli s)) Ok)
  else (s, l1).
(** nc_virtual_stream_do_write 112-146; its callers have checked that there is a write. *)
Definition do_write (s : vstream) : vstream * list out :=
  match d_read (srv s), d_write (cli s) with
  | Some r, Some w =>
    let n := if r_left r <? length (w_rest w) then r_left r else length (w_rest w) in
    let o := [Copied Server (r_ev r) (firstn n (w_rest w)); Length (r_ev r) (r_len r + n)] in
    if r_left r <? length (w_rest w) then
      (on_srv (set_read None) (on_cli (set_write (Some {| w_ev := w_ev w; w_rest := skipn n (w_rest w) |})) s), o ++ [Complete (r_ev r) Ok])
    else if (length (w_rest w) <? r_left r) && r_all r then
      let (s, l) := resolve_write Ok (on_srv (set_read (Some {| r_all := r_all r; r_ev := r_ev r; r_left := r_left r - n; r_len := r_len r + n |})) s) in (s, o ++ l)
    else
      let (s, l) := resolve_write Ok (on_srv (set_read None) s) in (s, o ++ Complete (r_ev r) Ok :: l)
  | _, _ => (s, [])
  end.
(** nc_virtual_stream_do_read 194-230, nc_virtual_stream_resolve_read 177-192. *)
Definition do_read (s : vstream) : vstream * list out :=
  match d_read (cli s), d_write (srv s) with
  | Some r, Some w =>
    let n := if length (w_rest w) <? r_left r then length (w_rest w) else r_left r in
    let o := [Copied Client (r_ev r) (firstn n (w_rest w)); Length (r_ev r) (r_len r + n)] in
    let (s, l1) :=
      if r_left r <? length (w_rest w) then
        (on_cli (set_read None) (on_srv (set_write (Some {| w_ev := w_ev w; w_rest := skipn n (w_rest w) |})) s), [Complete (r_ev r) Ok])
      else if (length (w_rest w) <? r_left r) && r_all r then
        (on_cli (set_read (Some {| r_all := r_all r; r_ev := r_ev r; r_left := r_left r - n; r_len := r_len r + n |})) (on_srv (set_write None) s), [Complete (w_ev w) Ok])
      else (on_cli (set_read None) (on_srv (set_write None) s), [Complete (w_ev w) Ok; Complete (r_ev r) Ok]) in
    match d_write (srv s) with
    | None => if d_closed (srv s) then (on_srv (set_close None) s, o ++ l1 ++ resolve (d_close (srv s)) Ok) else (s, o ++ l1)
    | Some _ => (s, o ++ l1)
    end
  | _, _ => (s, [])
  end.

Definition step (o : op) (s : vstream) : vstream * list out :=
  match o with
  | SAccept e => (* nc_stream_async_accept 364-384, nc_virtual_stream_server_accepted 75-86 *)
    if d_stopped (srv s) || d_stopped (cli s) then (s, [Complete e StoppedEc])
    else match d_open (srv s) with
         | Some _ => (s, [Complete e InProgress])
         | None => (on_srv (set_open None) (on_cli (set_open None) s), resolve (d_open (cli s)) Ok ++ [Complete e Ok])
         end
  | SRead all e n => (* nc_stream_async_read_all 386-411, nc_stream_async_read_some 413-441, nc_stream_do_read 515-548 *)
    if d_stopped (srv s) || d_stopped (cli s) then (s, [Complete e StoppedEc])
    else match d_read (srv s) with
         | Some _ => (s, [Complete e InProgress])
         | None =>
           if d_closed (cli s) && (all || match d_write (cli s) with None => true | Some _ => false end) then (s, [Complete e Eof])
           else let (s, l) := do_write (on_srv (set_read (Some {| r_all := all; r_ev := e; r_left := n; r_len := 0 |})) s) in (s, Length e 0 :: l)
         end
  | SWrite e b => (* nc_stream_async_write 443-470, nc_virtual_stream_server_write 232-237 *)
    if d_stopped (srv s) || d_stopped (cli s) then (s, [Complete e StoppedEc])
    else match d_write (srv s) with
         | Some _ => (s, [Complete e InProgress])
         | None =>
           if d_closed (srv s) then (s, [Complete e ClosedEc])
           else do_read (on_srv (set_write (Some {| w_ev := e; w_rest := b |})) s)
         end
  | SClose e => (* nc_stream_async_close 472-495, nc_virtual_stream_server_close 297-311 *)
    if d_stopped (srv s) || d_stopped (cli s) then (s, [Complete e StoppedEc])
    else match d_close (srv s) with
         | Some _ => (s, [Complete e InProgress])
         | None =>
           let s := on_srv (set_closed true) (on_srv (set_close (Some e)) s) in
           match d_write (srv s) with
           | Some _ => (s, [])
           | None => (on_srv (set_close None) (on_cli (set_read None) s), resolve (option_map r_ev (d_read (cli s))) Eof ++ [Complete e Ok])
           end
         end
  | SStop => (* nc_stream_stop 635-679 *)
    if d_stopped (srv s) then (s, [])
    else (on_srv (fun d => set_close None (set_write None (set_read None (set_open None (set_stopped true d))))) s,
          resolve (d_open (srv s)) Aborted ++ resolve (option_map r_ev (d_read (srv s))) Aborted ++ resolve (option_map w_ev (d_write (srv s))) Aborted ++ resolve (d_close (srv s)) Aborted)
  | CRead all e n => (* nc_virtual_stream_client_async_read_all 239-257, nc_virtual_stream_client_async_read_some 259-277 *)
    match d_read (cli s) with
    | Some _ => (s, [Complete e InProgress])
    | None =>
      if d_closed (srv s) then (s, [Complete e Eof])
      else let (s, l) := do_read (on_cli (set_read (Some {| r_all := all; r_ev := e; r_left := n; r_len := 0 |})) s) in (s, Length e 0 :: l)
    end
  | CWrite e b => (* nc_virtual_stream_client_async_write 156-175 *)
    if d_stopped (srv s) || d_stopped (cli s) then (s, [Complete e StoppedEc])
    else if d_closed (cli s) then (s, [Complete e ClosedEc])
    else match d_write (cli s) with
         | Some _ => (s, [Complete e InProgress])
         | None => do_write (on_cli (set_write (Some {| w_ev := e; w_rest := b |})) s)
         end
  | CClose e => (* nc_virtual_stream_client_async_close 279-294 *)
    let s := on_cli (set_closed true) s in
    match d_write (cli s) with
    | Some _ => (on_cli (set_close (Some e)) s, [])
    | None => (on_srv (set_read None) s, resolve (option_map r_ev (d_read (srv s))) Eof ++ [Complete e Ok])
    end
  | CStop => (* nc_virtual_stream_client_stop 33-72 *)
    if d_stopped (cli s) then (s, [])
    else (on_srv (fun d => set_write None (set_read None d)) (on_cli (fun d => set_close None (set_write None (set_read None (set_open None (set_stopped true d))))) s),
          resolve (d_open (cli s)) Aborted ++ resolve (option_map r_ev (d_read (cli s))) Aborted ++ resolve (option_map w_ev (d_write (cli s))) Aborted ++ resolve (d_close (cli s)) Aborted ++
          resolve (option_map r_ev (d_read (srv s))) Aborted ++ resolve (option_map w_ev (d_write (srv s))) Aborted)
  end.

Fixpoint run (s : vstream) (h : list op) : vstream * list (op * list out) :=
  match h with
  | [] => (s, [])
  | o :: h => let (s, l) := step o s in let (s, t) := run s h in (s, (o, l) :: t)
  end.
