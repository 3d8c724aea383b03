(** A TCP tunnel connection: modules/tcp_tunnel/nm_tcp_tunnel_connection.c, with its TCP socket (modules/libevent/nm_libevent_tcp.c or modules/select_unix/nm_select_unix_tcp.c)
    and what it uses of its stream (core/nc_stream.c). *)
From Coq Require Import List Bool Arith NArith.
Import ListNotations.

Definition bytes := list nat.
(** NM_TCP_TUNNEL_BUFFER_SIZE, nm_tcp_tunnel.h 20. *)
Definition bufsize : nat := N.to_nat 8192.
(** The two implementations of np_tcp. *)
Inductive impl := Libevent | SelectUnix.
(** Error codes of completions; Fail is any other code. *)
Inductive ec := Ok | Eof | Aborted | Stopped | Fail.
Definition is_ok (e : ec) : bool := match e with Ok => true | _ => false end.
Definition is_eof (e : ec) : bool := match e with Eof => true | _ => false end.
(** The six completion events of a connection, nm_tcp_tunnel.h 25-51. *)
Inductive opk := Connect | TcpRead | TcpWrite | StrRead | StrWrite | StrClose.
(** What is seen. *)
Inductive out :=
| GotTcp (b : bytes)  (* bytes arrive at the socket *)
| GotStr (b : bytes)  (* bytes are read from the stream *)
| ToTcp (b : bytes)   (* np_tcp_async_write *)
| ToStr (b : bytes)   (* nc_stream_async_write *)
| ShutTcp             (* np_tcp_shutdown: the service sees the end of the data *)
| CloseStr            (* nc_stream_async_close of a stream which is not stopped: the client sees the end of the data *)
| AbortTcp | StopStr  (* np_tcp_abort, nc_stream_stop, from abort_connection *)
| Released.           (* nm_tcp_tunnel_connection_free *)

(** struct nm_tcp_tunnel_connection (nm_tcp_tunnel.h 22-52); sk_: the operations of the socket which have not completed, and the bytes which can be read from it (the input of the
    bufferevent or of the kernel); st_: those of the stream; posted: completion events which have been resolved and have not run. crashed: an event was used after it was freed. *)
Record st := {
  im : impl; live : bool; crashed : bool;
  tre : bool; sre : bool;           (* tcpReadEnded, streamReadEnded *)
  rlen : nat; srs : nat;            (* readLength, streamReadSize *)
  tbuf : bytes; sbuf : bytes;       (* tcpRecvBuffer, streamRecvBuffer *)
  sk_conn : bool; sk_read : bool; sk_write : bool; aborted : bool; input : bytes; fin : bool; (* fin: the service has closed or the connection has failed: no more bytes arrive *)
  st_read : bool; st_write : bool; st_close : bool; stopped : bool; closed : bool;
  posted : list (opk * ec) }.

Definition upd_tre (b : bool) (s : st) : st := {| im := im s; live := live s; crashed := crashed s; tre := b; sre := sre s; rlen := rlen s; srs := srs s; tbuf := tbuf s; sbuf := sbuf s;
  sk_conn := sk_conn s; sk_read := sk_read s; sk_write := sk_write s; aborted := aborted s; input := input s; fin := fin s; st_read := st_read s; st_write := st_write s; st_close := st_close s; stopped := stopped s; closed := closed s; posted := posted s |}.
Definition upd_sre (b : bool) (s : st) : st := {| im := im s; live := live s; crashed := crashed s; tre := tre s; sre := b; rlen := rlen s; srs := srs s; tbuf := tbuf s; sbuf := sbuf s;
  sk_conn := sk_conn s; sk_read := sk_read s; sk_write := sk_write s; aborted := aborted s; input := input s; fin := fin s; st_read := st_read s; st_write := st_write s; st_close := st_close s; stopped := stopped s; closed := closed s; posted := posted s |}.
(** The socket: which operations it has, its flag, its input. *)
Definition upd_sock (c r w a : bool) (i : bytes) (s : st) : st := {| im := im s; live := live s; crashed := crashed s; tre := tre s; sre := sre s; rlen := rlen s; srs := srs s; tbuf := tbuf s; sbuf := sbuf s;
  sk_conn := c; sk_read := r; sk_write := w; aborted := a; input := i; fin := fin s; st_read := st_read s; st_write := st_write s; st_close := st_close s; stopped := stopped s; closed := closed s; posted := posted s |}.
Definition upd_str (r w c h x : bool) (s : st) : st := {| im := im s; live := live s; crashed := crashed s; tre := tre s; sre := sre s; rlen := rlen s; srs := srs s; tbuf := tbuf s; sbuf := sbuf s;
  sk_conn := sk_conn s; sk_read := sk_read s; sk_write := sk_write s; aborted := aborted s; input := input s; fin := fin s; st_read := r; st_write := w; st_close := c; stopped := h; closed := x; posted := posted s |}.
Definition upd_rbuf (n : nat) (b : bytes) (s : st) : st := {| im := im s; live := live s; crashed := crashed s; tre := tre s; sre := sre s; rlen := n; srs := srs s; tbuf := b; sbuf := sbuf s;
  sk_conn := sk_conn s; sk_read := sk_read s; sk_write := sk_write s; aborted := aborted s; input := input s; fin := fin s; st_read := st_read s; st_write := st_write s; st_close := st_close s; stopped := stopped s; closed := closed s; posted := posted s |}.
Definition upd_sbuf (n : nat) (b : bytes) (s : st) : st := {| im := im s; live := live s; crashed := crashed s; tre := tre s; sre := sre s; rlen := rlen s; srs := n; tbuf := tbuf s; sbuf := b;
  sk_conn := sk_conn s; sk_read := sk_read s; sk_write := sk_write s; aborted := aborted s; input := input s; fin := fin s; st_read := st_read s; st_write := st_write s; st_close := st_close s; stopped := stopped s; closed := closed s; posted := posted s |}.
Definition upd_posted (p : list (opk * ec)) (s : st) : st := {| im := im s; live := live s; crashed := crashed s; tre := tre s; sre := sre s; rlen := rlen s; srs := srs s; tbuf := tbuf s; sbuf := sbuf s;
  sk_conn := sk_conn s; sk_read := sk_read s; sk_write := sk_write s; aborted := aborted s; input := input s; fin := fin s; st_read := st_read s; st_write := st_write s; st_close := st_close s; stopped := stopped s; closed := closed s; posted := p |}.
Definition upd_end (c : bool) (s : st) : st := {| im := im s; live := false; crashed := c; tre := tre s; sre := sre s; rlen := rlen s; srs := srs s; tbuf := tbuf s; sbuf := sbuf s;
  sk_conn := false; sk_read := false; sk_write := false; aborted := true; input := []; fin := fin s; st_read := false; st_write := false; st_close := false; stopped := true; closed := closed s; posted := [] |}.
Definition upd_fin (s : st) : st := {| im := im s; live := live s; crashed := crashed s; tre := tre s; sre := sre s; rlen := rlen s; srs := srs s; tbuf := tbuf s; sbuf := sbuf s;
  sk_conn := sk_conn s; sk_read := sk_read s; sk_write := sk_write s; aborted := aborted s; input := input s; fin := true; st_read := st_read s; st_write := st_write s; st_close := st_close s; stopped := stopped s; closed := closed s; posted := posted s |}.
(** np_completion_event_resolve, platform/np_completion_event.c 49-53. *)
Definition resolve (o : opk) (e : ec) (s : st) : st := upd_posted (posted s ++ [(o, e)]) s.
Definition resolve_if (b : bool) (o : opk) (e : ec) (s : st) : st := if b then resolve o e s else s.

(** * The socket *)
(** resolve_tcp_connect, resolve_tcp_read, resolve_tcp_write, nm_libevent_tcp.c 166-194; nm_select_unix_tcp.c tcp_abort. *)
Definition fail_conn (e : ec) (s : st) : st := resolve_if (sk_conn s) Connect e (upd_sock false (sk_read s) (sk_write s) (aborted s) (input s) s).
Definition fail_read (e : ec) (s : st) : st := resolve_if (sk_read s) TcpRead e (upd_sock (sk_conn s) false (sk_write s) (aborted s) (input s) s).
Definition fail_write (e : ec) (s : st) : st := resolve_if (sk_write s) TcpWrite e (upd_sock (sk_conn s) (sk_read s) false (aborted s) (input s) s).
Definition set_aborted (s : st) : st := upd_sock (sk_conn s) (sk_read s) (sk_write s) true (input s) s.
(** tcp_abort, nm_libevent_tcp.c 310-320: once. nm_select_unix_tcp.c does the same. *)
Definition tcp_abort (s : st) : st := if aborted s then s else fail_write Aborted (fail_read Aborted (fail_conn Aborted (set_aborted s))).
(** Bytes are there and a read waits: tcp_bufferevent_event_read, nm_libevent_tcp.c 126-141; tcp_do_read, nm_select_unix_tcp.c. *)
Definition take (s : st) : st :=
  if sk_read s && negb (match input s with [] => true | _ => false end)
  then resolve TcpRead Ok (upd_rbuf (length (firstn bufsize (input s))) (firstn bufsize (input s)) (upd_sock (sk_conn s) false (sk_write s) (aborted s) (skipn bufsize (input s)) s))
  else s.
(** tcp_async_read, nm_libevent_tcp.c 275-299, which reads at once what is in the buffer and does not look at aborted; async_read of nm_select_unix_tcp.c, which fails when aborted and waits for select.
    A read which is waiting already: the event of that read would be resolved twice; a connection never does that (see the invariant). *)
Definition tcp_read (s : st) : st :=
  match im s with
  | Libevent => take (upd_sock (sk_conn s) true (sk_write s) (aborted s) (input s) s)
  | SelectUnix => if aborted s then resolve TcpRead Aborted s else upd_sock (sk_conn s) true (sk_write s) (aborted s) (input s) s
  end.
(** tcp_async_write, nm_libevent_tcp.c 254-273 (ok: bufferevent_enable and bufferevent_write succeed); async_write of nm_select_unix_tcp.c. *)
Definition tcp_write (ok : bool) (s : st) : st :=
  match im s with
  | Libevent => if ok then upd_sock (sk_conn s) (sk_read s) true (aborted s) (input s) s else resolve TcpWrite Fail s
  | SelectUnix => if aborted s then resolve TcpWrite Aborted s else upd_sock (sk_conn s) (sk_read s) true (aborted s) (input s) s
  end.
(** tcp_async_connect, nm_libevent_tcp.c 213-252 (ok: it succeeds so far). *)
Definition tcp_connect (ok : bool) (s : st) : st :=
  if match im s with SelectUnix => aborted s | Libevent => false end then resolve Connect Aborted s
  else if ok then upd_sock true (sk_read s) (sk_write s) (aborted s) (input s) s else resolve Connect Fail s.

(** * The stream *)
(** nc_stream_async_read_some, nc_stream.c 413-441: the size is 0 until bytes are read; a stopped stream does not touch it. *)
Definition str_read (s : st) : st := if stopped s then resolve StrRead Stopped s else upd_sbuf 0 (sbuf s) (upd_str true (st_write s) (st_close s) (stopped s) (closed s) s).
(** nc_stream_async_write, nc_stream.c 443-470. *)
Definition str_write (s : st) : st :=
  if stopped s then resolve StrWrite Stopped s else if closed s then resolve StrWrite Fail s else upd_str (st_read s) true (st_close s) (stopped s) (closed s) s.
(** nc_stream_async_close, nc_stream.c 472-495. *)
Definition str_close (s : st) : st := if stopped s then resolve StrClose Stopped s else upd_str (st_read s) (st_write s) true (stopped s) true s.
(** nc_stream_stop, nc_stream.c 635-679. *)
Definition str_stop (s : st) : st :=
  if stopped s then s else
  resolve_if (st_close s) StrClose Aborted (resolve_if (st_write s) StrWrite Aborted (resolve_if (st_read s) StrRead Aborted (upd_str false false false true (closed s) s))).

(** * The connection *)
(** the_end and nm_tcp_tunnel_connection_free, nm_tcp_tunnel_connection.c 51-69, 328-332: the socket is destroyed, the events are freed, then the stream is destroyed, which would resolve
    events of operations which have not completed. *)
Definition the_end (s : st) : st * list out := (upd_end (crashed s || negb (stopped s) && (st_read s || st_write s || st_close s)) s, [Released]).
(** is_ended, nm_tcp_tunnel_connection.c 311-322. *)
Definition is_ended (s : st) : st * list out := if tre s && sre s then the_end s else (s, []).
(** abort_connection, nm_tcp_tunnel_connection.c 301-309. *)
Definition abort_connection (s : st) : st * list out := (str_stop (tcp_abort s), [AbortTcp; StopStr]).
(** abort_connection, the flag, is_ended: 204-207, 241-245, 271-275, 293-297. *)
Definition abort_tre (s : st) : st * list out := let (s, o) := abort_connection s in let (s, o') := is_ended (upd_tre true s) in (s, o ++ o').
Definition abort_sre (s : st) : st * list out := let (s, o) := abort_connection s in let (s, o') := is_ended (upd_sre true s) in (s, o ++ o').
(** connect_callback and connected, nm_tcp_tunnel_connection.c 160-176. *)
Definition connect_callback (e : ec) (s : st) : st * list out := if is_ok e then (str_read (tcp_read s), []) else the_end s.
(** tcp_readen, close_stream, start_stream_write, nm_tcp_tunnel_connection.c 185-232. *)
Definition tcp_readen (e : ec) (s : st) : st * list out :=
  if Nat.eqb (rlen s) 0 || is_eof e then (str_close s, if stopped s then [] else [CloseStr])
  else if is_ok e then (str_write s, [ToStr (firstn (rlen s) (tbuf s))])
  else abort_tre s.
(** stream_closed, nm_tcp_tunnel_connection.c 220-226. *)
Definition stream_closed (s : st) : st * list out := is_ended (upd_tre true s).
(** stream_written, nm_tcp_tunnel_connection.c 234-248. *)
Definition stream_written (e : ec) (s : st) : st * list out := if is_ok e then (tcp_read s, []) else abort_tre s.
(** stream_readen, close_tcp, start_tcp_write, nm_tcp_tunnel_connection.c 255-286. *)
Definition stream_readen (ok : bool) (e : ec) (s : st) : st * list out :=
  if Nat.eqb (srs s) 0 || is_eof e then let (s, o) := is_ended (upd_sre true s) in (s, ShutTcp :: o)
  else if is_ok e then (tcp_write ok s, [ToTcp (firstn (srs s) (sbuf s))])
  else abort_sre s.
(** tcp_written, nm_tcp_tunnel_connection.c 288-299. *)
Definition tcp_written (e : ec) (s : st) : st * list out := if is_ok e then (str_read s, []) else abort_sre s.
(** resolve_event_callback, np_completion_event.c 56-60. *)
Definition callback (ok : bool) (o : opk) (e : ec) (s : st) : st * list out :=
  match o with
  | Connect => connect_callback e s | TcpRead => tcp_readen e s | TcpWrite => tcp_written e s
  | StrRead => stream_readen ok e s | StrWrite => stream_written e s | StrClose => stream_closed s
  end.
(** nm_tcp_tunnel_connection_init and nm_tcp_tunnel_connection_start, nm_tcp_tunnel_connection.c 71-135: the stream is accepted and the socket connects. A stream which has ended meanwhile is stopped. *)
Definition start (i : impl) (ok gone : bool) : st :=
  tcp_connect ok {| im := i; live := true; crashed := false; tre := false; sre := false; rlen := 0; srs := 0; tbuf := []; sbuf := [];
    sk_conn := false; sk_read := false; sk_write := false; aborted := false; input := []; fin := false; st_read := false; st_write := false; st_close := false; stopped := gone; closed := false; posted := [] |}.

(** What may happen. *)
Inductive ev :=
| Connected                 (* the socket is connected *)
| TcpData (b : bytes)       (* bytes arrive at the socket *)
| TcpReady                  (* the event loop sees that there are bytes *)
| TcpEof                    (* the service has closed and all its bytes have been read *)
| TcpError                  (* the connection to the service fails *)
| TcpDrained                (* all bytes have been written to the socket *)
| StrData (b : bytes)       (* the stream has bytes for a read *)
| StrEnd (e : ec)           (* a read of the stream ends without bytes *)
| StrWritten (e : ec) | StrClosed (e : ec) (* nc_stream.c 549-572, 604-628 *)
| StrGone                   (* the connection of the client closes: nc_stream_handle_connection_closed, nc_stream.c 212-225 *)
| Remove                    (* nm_tcp_tunnel_connection_stop_from_manager, nm_tcp_tunnel_connection.c 142-152 *)
| Run (n : nat) (ok : bool). (* the nth event which has been posted runs; the order of the queue is left open *)
Fixpoint remove_nth {A : Type} (n : nat) (l : list A) : list A := match l, n with [], _ => [] | _ :: l, O => l | x :: l, S n => x :: remove_nth n l end.
Definition step (s : st) (v : ev) : st * list out :=
  if negb (live s) then (s, []) else
  match v with
  | Connected => (fail_conn Ok s, [])
  | TcpData b => if fin s then (s, []) else (upd_sock (sk_conn s) (sk_read s) (sk_write s) (aborted s) (input s ++ b) s, [GotTcp b])
  | TcpReady => (take s, [])
  | TcpEof => if match input s with [] => true | _ => false end then (fail_read Eof (fail_conn Eof (upd_fin s)), []) else (s, [])  (* tcp_eof, nm_libevent_tcp.c 196-202 *)
  | TcpError => match im s with
                | Libevent => (fail_read Aborted (fail_conn Aborted (upd_fin s)), [])  (* tcp_error, nm_libevent_tcp.c 204-210: a write is not resolved *)
                | SelectUnix => (fail_write Fail (fail_read Fail (fail_conn Aborted (upd_fin s))), []) (* nm_select_unix_tcp.c: is_connected_ec, tcp_do_read_ec, tcp_do_write_ec *)
                end
  | TcpDrained => (fail_write Ok s, [])  (* tcp_bufferevent_event_write, nm_libevent_tcp.c 143-164; tcp_do_write *)
  | StrData b => if st_read s && negb (match b with [] => true | _ => false end) && Nat.leb (length b) bufsize
                 then (resolve StrRead Ok (upd_sbuf (length b) b (upd_str false (st_write s) (st_close s) (stopped s) (closed s) s)), [GotStr b]) else (s, [])
  | StrEnd e => if st_read s && negb (is_ok e) then (resolve StrRead e (upd_str false (st_write s) (st_close s) (stopped s) (closed s) s), []) else (s, [])
  | StrWritten e => (resolve_if (st_write s) StrWrite e (upd_str (st_read s) false (st_close s) (stopped s) (closed s) s), [])
  | StrClosed e => (resolve_if (st_close s) StrClose e (upd_str (st_read s) (st_write s) false (stopped s) (closed s) s), [])
  | StrGone => (str_stop s, [])
  | Remove => abort_connection s
  | Run n ok => match nth_error (posted s) n with None => (s, []) | Some (o, e) => callback ok o e (upd_posted (remove_nth n (posted s)) s) end
  end.
Fixpoint run (s : st) (l : list ev) : st * list out :=
  match l with [] => (s, []) | v :: l => let (s, o) := step s v in let (s, o') := run s l in (s, o ++ o') end.
