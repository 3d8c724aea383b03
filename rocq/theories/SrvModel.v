(** A connection of the DTLS server, nm_mbedtls_srv.c, with its owner, nc_client_connection.c.
    What mbedtls answers is an argument of the step ([env]); the records which it wants to send go through [push]. Buffers have no contents: data is named by
    the token of the send. Time is not modelled, the timer may fire at any time. [Crash]: freed memory is used by the DTLS module; [Stale]: the owner is called
    after it has been freed. *)
From Coq Require Import List Bool.
Import ListNotations.

(** enum sslState. *)
Inductive phase := Connecting | Established | Closing.
(** struct np_dtls_srv_connection; [d_buf]: sslSendBuffer is not NULL; [d_posted]: startSendEvent is in the event queue. *)
Record conn := { d_phase : phase; d_buf : bool; d_queue : list nat; d_posted : bool; d_receiving : bool; d_destroyed : bool; d_close : option nat }.
Definition set_phase (x : phase) (c : conn) : conn := {| d_phase := x; d_buf := d_buf c; d_queue := d_queue c; d_posted := d_posted c; d_receiving := d_receiving c; d_destroyed := d_destroyed c; d_close := d_close c |}.
Definition set_buf (x : bool) (c : conn) : conn := {| d_phase := d_phase c; d_buf := x; d_queue := d_queue c; d_posted := d_posted c; d_receiving := d_receiving c; d_destroyed := d_destroyed c; d_close := d_close c |}.
Definition set_queue (x : list nat) (c : conn) : conn := {| d_phase := d_phase c; d_buf := d_buf c; d_queue := x; d_posted := d_posted c; d_receiving := d_receiving c; d_destroyed := d_destroyed c; d_close := d_close c |}.
Definition set_posted (x : bool) (c : conn) : conn := {| d_phase := d_phase c; d_buf := d_buf c; d_queue := d_queue c; d_posted := x; d_receiving := d_receiving c; d_destroyed := d_destroyed c; d_close := d_close c |}.
Definition set_receiving (x : bool) (c : conn) : conn := {| d_phase := d_phase c; d_buf := d_buf c; d_queue := d_queue c; d_posted := d_posted c; d_receiving := x; d_destroyed := d_destroyed c; d_close := d_close c |}.
Definition set_destroyed (x : bool) (c : conn) : conn := {| d_phase := d_phase c; d_buf := d_buf c; d_queue := d_queue c; d_posted := d_posted c; d_receiving := d_receiving c; d_destroyed := x; d_close := d_close c |}.
Definition set_close (x : option nat) (c : conn) : conn := {| d_phase := d_phase c; d_buf := d_buf c; d_queue := d_queue c; d_posted := d_posted c; d_receiving := d_receiving c; d_destroyed := d_destroyed c; d_close := x |}.

(** nm_mbedtls_srv_create_connection 207-287, when it succeeds. [None]: freed. *)
Definition state : Type := option conn.
Definition init : state := Some {| d_phase := Connecting; d_buf := false; d_queue := []; d_posted := false; d_receiving := false; d_destroyed := false; d_close := None |}.

(** What becomes of a record: the sender takes it, there is no buffer, the sender refuses. *)
Inductive push := Taken | NoBuffer | Refused.
Inductive handshake := HsAgain | HsTimeout | HsDone | HsFailed.
Inductive reading := RdEof | RdData (x : nat) | RdAgain | RdPeerClosed | RdError.
Inductive writing := WrOk | WrTooLarge | WrError.
(** [x_out]: records which mbedtls sends in the call, other than the one with the data of a write, which is [x_record] ([None]: it is
    not made). *)
Record env := { x_out : list push; x_record : option push; x_hs : handshake; x_rd : reading; x_wr : writing }.

Inductive op :=
| SendData (tok : nat)          (* nm_mbedtls_srv_async_send_data *)
| Handle                        (* nm_mbedtls_srv_handle_packet *)
| Timer                         (* nm_mbedtls_srv_timed_event_do_one *)
| Wake                          (* startSendEvent *)
| Sent                          (* senderEvent *)
| Close (tok : option nat)      (* nm_mbedtls_srv_async_close *)
| Destroy.                      (* nm_mbedtls_srv_destroy_connection *)

Inductive code := Ok | TooLarge | Unknown | ConnectionClosing | InProgress | Started.
Inductive out :=
| Wire (tok : option nat)               (* handed to the sender; the token when it is the record of a write *)
| Completed (tok : nat) (c : code)      (* completion event of a send *)
| CloseCompleted (tok : nat)
| Handshaken | Ended | Data (x : nat)   (* reported to the owner *)
| Freed | Crash | Stale
| Return (c : code).

(** nm_mbedtls_srv_mbedtls_send 576-600. *)
Definition push1 (tok : option nat) (p : push) (c : conn) : conn * list out :=
  if d_buf c then (c, [])
  else match p with Taken => (set_buf true c, [Wire tok]) | NoBuffer | Refused => (c, []) end.
Fixpoint pushes (l : list push) (c : conn) : conn * list out :=
  match l with
  | [] => (c, [])
  | p :: l => let (c, a) := push1 None p c in let (c, b) := pushes l c in (c, a ++ b)
  end.

(** nm_mbedtls_srv_do_free_connection 289-309. *)
Definition free (c : conn) : state * list out := (None, map (fun t => Completed t ConnectionClosing) (d_queue c) ++ [Freed]).
(** nm_mbedtls_srv_destroy_connection 311-320. *)
Definition destroy (c : conn) : state * list out :=
  let c := set_destroyed true c in
  if negb (d_buf c) && negb (d_receiving c) then free c else (Some c, []).
(** event_callback 407-413 with NP_DTLS_EVENT_CLOSED; nc_client_connection_handle_event 167-171 destroys the connection. *)
Definition ended (c : conn) : state * list out :=
  if d_destroyed c then (Some c, [Stale]) else let (s, l) := destroy c in (s, Ended :: l).
Definition told (x : out) (c : conn) : list out := [if d_destroyed c then Stale else x].

(** nm_mbedtls_srv_do_one 354-405. *)
Definition do_one (e : env) (c : conn) : state * list out :=
  match d_phase c with
  | Connecting =>
    let (c, l) := pushes (x_out e) c in
    match x_hs e with
    | HsAgain => (Some c, l)
    | HsTimeout | HsFailed => let (s, m) := ended c in (s, l ++ m)
    | HsDone => let c := set_phase Established c in (Some c, l ++ told Handshaken c)
    end
  | Established =>
    let (c, l) := pushes (x_out e) c in
    match x_rd e with
    | RdData x => (Some c, l ++ told (Data x) c)
    | RdAgain => (Some c, l)
    | RdEof | RdPeerClosed | RdError => let (s, m) := ended c in (s, l ++ m)
    end
  | Closing => (Some c, [])
  end.

(** nm_mbedtls_srv_is_closed 466-487. *)
Definition is_closed (c : conn) : state * list out :=
  match d_phase c, d_buf c, d_queue c with
  | Closing, false, [] =>
    let (s, l) := ended (set_close None c) in
    (s, match d_close c with Some t => [CloseCompleted t] | None => [] end ++ l)
  | _, _, _ => (Some c, [])
  end.

Definition wr_code (w : writing) : code := match w with WrOk => Ok | WrTooLarge => TooLarge | WrError => Unknown end.
(** nm_mbedtls_srv_start_send_deferred 420-452. *)
Definition start_send_deferred (e : env) (c : conn) : state * list out :=
  if d_buf c then (Some c, [])
  else match d_queue c with
       | [] => is_closed c
       | t :: q =>
         let (c, l) := pushes (x_out e) (set_queue q c) in
         let (c, m) := match x_record e with Some p => push1 (Some t) p c | None => (c, []) end in
         (Some c, l ++ m ++ [Completed t (wr_code (x_wr e))])
       end.

(** nm_mbedtls_srv_handle_packet 322-340. *)
Definition handle_packet (e : env) (c : conn) : state * list out :=
  match do_one e (set_receiving true c) with
  | (None, l) => (None, l ++ [Crash])
  | (Some c, l) =>
    let c := set_receiving false c in
    if d_destroyed c && negb (d_buf c) then let (s, m) := free c in (s, l ++ m) else (Some c, l)
  end.

(** nm_mbedtls_srv_connection_send_callback 602-619. *)
Definition send_callback (e : env) (c : conn) : state * list out :=
  let c := set_buf false c in
  match d_phase c, d_destroyed c with
  | Closing, true => free c
  | _, _ => match do_one e c with
            | (None, l) => (None, l ++ [Crash])
            | (Some c, l) => (Some (set_posted true c), l)
            end
  end.

(** nm_mbedtls_srv_async_close 489-505. *)
Definition async_close (e : env) (tok : option nat) (c : conn) : state * list out :=
  match d_close c with
  | Some _ => (Some c, [Return InProgress])
  | None =>
    match d_phase c with
    | Closing => (Some c, [Return Ok])
    | _ =>
      let (c, l) := pushes (x_out e) (set_phase Closing (set_close tok c)) in
      let (s, m) := is_closed c in (s, l ++ m ++ [Return Started])
    end
  end.
(** nm_mbedtls_srv_async_send_data 454-464. *)
Definition async_send (tok : nat) (c : conn) : state * list out :=
  match d_phase c with
  | Closing => (Some c, [Return ConnectionClosing])
  | _ => (Some (set_posted true (set_queue (d_queue c ++ [tok]) c)), [Return Ok])
  end.

(** The owner does nothing with a connection which it has destroyed. *)
Definition step (e : env) (o : op) (s : state) : state * list out :=
  match s with
  | None => (None, [])
  | Some c =>
    match o with
    | SendData t => if d_destroyed c then (s, []) else async_send t c
    | Handle => if d_destroyed c then (s, []) else handle_packet e c
    | Timer => do_one e c
    | Wake => if d_posted c then start_send_deferred e (set_posted false c) else (s, [])
    | Sent => if d_buf c then send_callback e c else (s, [])
    | Close t => if d_destroyed c then (s, []) else async_close e t c
    | Destroy => if d_destroyed c then (s, []) else destroy c
    end
  end.

Definition move : Type := op * env.
Fixpoint run (s : state) (h : list move) : state * list (move * list out) :=
  match h with
  | [] => (s, [])
  | m :: h => let (s1, l) := step (snd m) (fst m) s in let (s2, t) := run s1 h in (s2, (m, l) :: t)
  end.
