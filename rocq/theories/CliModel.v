(** A connection of the DTLS client, nm_mbedtls_cli.c, with its owner, nc_attacher.c.
    What mbedtls answers is an argument of the step ([env]); the records which it wants to send go through [push]. Buffers have no contents: data is named by
    the token of the send. Time is not modelled, the timer may fire at any time. [Crash]: freed memory is used by the DTLS module; [Stale]: the owner gets an event or
    data of a connection which it has destroyed. *)
From Coq Require Import List Bool.
Import ListNotations.

(** enum sslState. *)
Inductive phase := Connecting | Established | Closing.
(** struct np_dtls_cli_connection; [d_buf]: sslSendBuffer is not NULL; [d_posted]: startSendEvent is in the event queue. *)
Record conn := { d_phase : phase; d_buf : bool; d_queue : list nat; d_posted : bool; d_receiving : bool; d_destroyed : bool }.
Definition set_phase (x : phase) (c : conn) : conn := {| d_phase := x; d_buf := d_buf c; d_queue := d_queue c; d_posted := d_posted c; d_receiving := d_receiving c; d_destroyed := d_destroyed c |}.
Definition set_buf (x : bool) (c : conn) : conn := {| d_phase := d_phase c; d_buf := x; d_queue := d_queue c; d_posted := d_posted c; d_receiving := d_receiving c; d_destroyed := d_destroyed c |}.
Definition set_queue (x : list nat) (c : conn) : conn := {| d_phase := d_phase c; d_buf := d_buf c; d_queue := x; d_posted := d_posted c; d_receiving := d_receiving c; d_destroyed := d_destroyed c |}.
Definition set_posted (x : bool) (c : conn) : conn := {| d_phase := d_phase c; d_buf := d_buf c; d_queue := d_queue c; d_posted := x; d_receiving := d_receiving c; d_destroyed := d_destroyed c |}.
Definition set_receiving (x : bool) (c : conn) : conn := {| d_phase := d_phase c; d_buf := d_buf c; d_queue := d_queue c; d_posted := d_posted c; d_receiving := x; d_destroyed := d_destroyed c |}.
Definition set_destroyed (x : bool) (c : conn) : conn := {| d_phase := d_phase c; d_buf := d_buf c; d_queue := d_queue c; d_posted := d_posted c; d_receiving := d_receiving c; d_destroyed := x |}.

(** create_connection 260-312, when it succeeds. [None]: freed. *)
Definition state : Type := option conn.
Definition init : state := Some {| d_phase := Connecting; d_buf := false; d_queue := []; d_posted := false; d_receiving := false; d_destroyed := false |}.

(** What becomes of a record: the sender takes it, there is no buffer. The senders of nc_attacher.c (780-795) and of nc_client_connection.c take every
    packet when no other one is on its way. *)
Inductive push := Taken | NoBuffer.
(** [HsFailed]: also when there is no common application protocol. *)
Inductive handshake := HsAgain | HsDone | HsDenied | HsBadCert | HsFailed.
Inductive reading := RdEof | RdData (x : nat) | RdAgain | RdDenied | RdError.
Inductive writing := WrOk | WrTooLarge | WrError.
Record env := { x_out : list push; x_record : option push; x_hs : handshake; x_rd : reading; x_wr : writing }.

Inductive op :=
| Connect                       (* dtls_connect *)
| SendData (tok : nat)          (* async_send_data *)
| Handle                        (* handle_packet *)
| Timer                         (* nm_dtls_timed_event_do_one *)
| Wake                          (* startSendEvent *)
| Sent                          (* senderEvent *)
| Close                         (* async_close *)
| Destroy.                      (* destroy_connection *)

Inductive code := Ok | TooLarge | Unknown | ConnectionClosing | InvalidState.
(** enum np_dtls_event but for the end of the handshake. *)
Inductive reason := Closed | Denied | BadCert.
Inductive out :=
| Wire (tok : option nat)
| Completed (tok : nat) (c : code)
| Handshaken | Ended (r : reason) | Data (x : nat)
| Freed | Crash | Stale
| Return (c : code).

(** nm_dtls_mbedtls_send 759-798. *)
Definition push1 (tok : option nat) (p : push) (c : conn) : conn * list out :=
  if d_buf c then (c, [])
  else match p with Taken => (set_buf true c, [Wire tok]) | NoBuffer => (c, []) end.
Fixpoint pushes (l : list push) (c : conn) : conn * list out :=
  match l with
  | [] => (c, [])
  | p :: l => let (c, a) := push1 None p c in let (c, b) := pushes l c in (c, a ++ b)
  end.

(** do_free_connection 450-471. *)
Definition free (c : conn) : state * list out := (None, map (fun t => Completed t ConnectionClosing) (d_queue c) ++ [Freed]).
(** destroy_connection 438-448. *)
Definition destroy (c : conn) : state * list out :=
  let c := set_destroyed true (set_phase Closing c) in
  if negb (d_buf c) && negb (d_receiving c) then free c else (Some c, []).
(** The event handler; the attacher destroys the connection on every one of these events (reset_dtls_connection 554-572 of nc_attacher.c). *)
Definition ended (r : reason) (c : conn) : state * list out :=
  if d_destroyed c then (Some c, [Stale]) else let (s, l) := destroy c in (s, Ended r :: l).
Definition told (x : out) (c : conn) : list out := [if d_destroyed c then Stale else x].

(** event_do_one 571-610, event_handle_connecting_state 826-887, nm_dtls_do_close 612-618. *)
Definition do_one (e : env) (c : conn) : state * list out :=
  match d_phase c with
  | Connecting =>
    let (c, l) := pushes (x_out e) c in
    match x_hs e with
    | HsAgain => (Some c, l)
    | HsDone => let c := set_phase Established c in (Some c, l ++ told Handshaken c)
    | HsDenied => let (s, m) := ended Denied (set_phase Closing c) in (s, l ++ m)
    | HsBadCert => let (s, m) := ended BadCert (set_phase Closing c) in (s, l ++ m)
    | HsFailed => let (s, m) := ended Closed (set_phase Closing c) in (s, l ++ m)
    end
  | Established =>
    let (c, l) := pushes (x_out e) c in
    match x_rd e with
    | RdEof => (Some (set_phase Closing c), l)
    | RdData x => (Some c, l ++ told (Data x) c)
    | RdAgain => (Some c, l)
    | RdDenied => let (s, m) := ended Denied c in (s, l ++ m)
    | RdError => let (s, m) := ended Closed (set_phase Closing c) in (s, l ++ m)
    end
  | Closing => (Some c, [])
  end.

Definition wr_code (w : writing) : code := match w with WrOk => Ok | WrTooLarge => TooLarge | WrError => Unknown end.
(** start_send_deferred 625-664. *)
Definition start_send_deferred (e : env) (c : conn) : state * list out :=
  match d_phase c, d_buf c, d_queue c with
  | Closing, _, _ | _, true, _ | _, _, [] => (Some c, [])
  | _, _, t :: q =>
    let (c, l) := pushes (x_out e) (set_queue q c) in
    let (c, m) := match x_record e with Some p => push1 (Some t) p c | None => (c, []) end in
    (Some (set_posted true c), l ++ m ++ [Completed t (wr_code (x_wr e))])
  end.

(** handle_packet 702-718. *)
Definition handle_packet (e : env) (c : conn) : state * list out :=
  match do_one e (set_receiving true c) with
  | (None, l) => (None, l ++ [Crash])
  | (Some c, l) =>
    let c := set_receiving false c in
    if d_destroyed c && negb (d_buf c) then let (s, m) := free c in (s, l ++ m) else (Some c, l)
  end.

(** dtls_udp_send_callback 720-745. While the event is reported the buffer is still set. *)
Definition send_callback (e : env) (c : conn) : state * list out :=
  match d_phase c with
  | Closing =>
    match ended Closed c with
    | (None, l) => (None, l ++ [Crash])
    | (Some c, l) =>
      let c := set_buf false c in
      if d_destroyed c then let (s, m) := free c in (s, l ++ m) else (Some c, l)
    end
  | Established => do_one e (set_posted true (set_buf false c))
  | Connecting => do_one e (set_buf false c)
  end.

(** async_close 680-700. *)
Definition async_close (e : env) (c : conn) : state * list out :=
  match d_phase c with
  | Closing => (Some c, [Return Ok])
  | _ =>
    let (c, l) := pushes (x_out e) (set_phase Closing c) in
    let (s, m) := if d_buf c then (Some c, []) else ended Closed c in (s, l ++ m ++ [Return Ok])
  end.
(** async_send_data 666-678. *)
Definition async_send (tok : nat) (c : conn) : state * list out :=
  match d_phase c with
  | Closing => (Some c, [Return ConnectionClosing])
  | Connecting => (Some c, [Return InvalidState])
  | Established => (Some (set_posted true (set_queue (d_queue c ++ [tok]) c)), [Return Ok])
  end.

(** The owner does nothing with a connection which it has destroyed. *)
Definition step (e : env) (o : op) (s : state) : state * list out :=
  match s with
  | None => (None, [])
  | Some c =>
    match o with
    | Connect => if d_destroyed c then (s, []) else match d_phase c with Connecting => do_one e c | _ => (s, []) end   (* called once *)
    | SendData t => if d_destroyed c then (s, []) else async_send t c
    | Handle => if d_destroyed c then (s, []) else handle_packet e c
    | Timer => do_one e c
    | Wake => if d_posted c then start_send_deferred e (set_posted false c) else (s, [])
    | Sent => if d_buf c then send_callback e c else (s, [])
    | Close => if d_destroyed c then (s, []) else async_close e c
    | Destroy => if d_destroyed c then (s, []) else destroy c
    end
  end.

Definition move : Type := op * env.
Fixpoint run (s : state) (h : list move) : state * list (move * list out) :=
  match h with
  | [] => (s, [])
  | m :: h => let (s1, l) := step (snd m) (fst m) s in let (s2, t) := run s1 h in (s2, (m, l) :: t)
  end.
