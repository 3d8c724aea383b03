(** * TCP sockets of the select module, with their two threads (C93)

    Models one TCP socket of src/modules/select_unix/nm_select_unix_tcp.c
    together with the loop of the network thread in
    src/modules/select_unix/nm_select_unix.c.  The functions which the core
    calls ([Call], [CStep]) run on the core thread and do not take the lock
    of the select context; the network thread ([NStep]) holds it while it
    builds the descriptor sets and while it handles the result of select.
    Both threads advance in steps between which the other one may run.

    Oracles: the results of socket(), connect(), select(), recv() and send()
    are inputs of the steps; [KUp] and [KDown] are the kernel finishing or
    losing the connection.

    Simplified: the stores of write.data and write.dataLength are one step,
    as are loading, clearing and resolving a completion event on the network
    thread; other sockets and the closing of the descriptor are left out. *)
From Coq Require Import List Arith Bool Lia.
Import ListNotations.

Inductive kind := Connect | Read | Write.
Inductive ec := EOk | EAborted | EInProgress | EFail | EEof.

Definition kind_eqb (a b : kind) : bool :=
  match a, b with Connect, Connect | Read, Read | Write, Write => true | _, _ => false end.

(** The connection as the kernel sees it.  [NoSock]: sock->fd is invalid;
    [Fresh]: a socket for which connect() was not called yet. *)
Inductive conn_state := NoSock | Fresh | Pending | Up | Down.

(** Where the core thread is. *)
Inductive cpc_t :=
  | CIdle
  | CConn1                 (* async_connect: before socket() *)
  | CConn2                 (* before connect() *)
  | CConnRes (e : ec)      (* before the event is cleared and resolved *)
  | CWrite (d : list nat)  (* async_write: event set, data not yet *)
  | CNotify                (* before nm_select_unix_notify *)
  | AbR | AbR1 | AbW | AbW1 | AbC | AbC1.  (* tcp_abort *)

(** Where the network thread is. *)
Inductive npc_t :=
  | NStart                          (* before build_fd_sets *)
  | NBuilt (rb wb : bool)           (* in select() with these sets *)
  | NStuck (rb wb : bool)           (* in read() of the empty pipe *)
  | NSel (rb wb : bool)             (* select returned, lock taken *)
  | NRead (wb : bool) | NRGot (wb : bool) (e : option ec)
  | NConn (wb : bool) | NCGot (e : option ec)
  | NWrite | NWGot (e : ec)
  | NDead.

Record st := mk {
  live : bool;             (* in the list of sockets *)
  conn : conn_state;
  cev : bool;              (* connect.completionEvent != NULL *)
  rev_ : bool;             (* read.completionEvent != NULL *)
  wev : bool;              (* write.completionEvent != NULL *)
  wdata : list nat;        (* write.data, write.dataLength *)
  aborted : bool;
  pipe : nat;              (* bytes in the notification pipe *)
  cpc : cpc_t;
  npc : npc_t }.

Definition init : st := mk true NoSock false false false [] false 0 CIdle NStart.

Definition set_live (s : st) b := mk b (conn s) (cev s) (rev_ s) (wev s) (wdata s) (aborted s) (pipe s) (cpc s) (npc s).
Definition set_conn (s : st) c := mk (live s) c (cev s) (rev_ s) (wev s) (wdata s) (aborted s) (pipe s) (cpc s) (npc s).
Definition set_cev (s : st) b := mk (live s) (conn s) b (rev_ s) (wev s) (wdata s) (aborted s) (pipe s) (cpc s) (npc s).
Definition set_rev (s : st) b := mk (live s) (conn s) (cev s) b (wev s) (wdata s) (aborted s) (pipe s) (cpc s) (npc s).
Definition set_wev (s : st) b := mk (live s) (conn s) (cev s) (rev_ s) b (wdata s) (aborted s) (pipe s) (cpc s) (npc s).
Definition set_wdata (s : st) d := mk (live s) (conn s) (cev s) (rev_ s) (wev s) d (aborted s) (pipe s) (cpc s) (npc s).
Definition set_aborted (s : st) b := mk (live s) (conn s) (cev s) (rev_ s) (wev s) (wdata s) b (pipe s) (cpc s) (npc s).
Definition set_pipe (s : st) n := mk (live s) (conn s) (cev s) (rev_ s) (wev s) (wdata s) (aborted s) n (cpc s) (npc s).
Definition set_cpc (s : st) c := mk (live s) (conn s) (cev s) (rev_ s) (wev s) (wdata s) (aborted s) (pipe s) c (npc s).
Definition set_npc (s : st) n := mk (live s) (conn s) (cev s) (rev_ s) (wev s) (wdata s) (aborted s) (pipe s) (cpc s) n.

Inductive out :=
  | Asked (k : kind)               (* the core asked for this *)
  | Accepted (d : list nat)        (* a write of these bytes was taken *)
  | Done (k : kind) (e : ec)       (* its completion event is resolved *)
  | Sent (d : list nat)            (* bytes the kernel took *)
  | Established                    (* the kernel connected *)
  | Undefined                      (* FD_SET or FD_ISSET of descriptor -1 *)
  | Crash.                         (* a NULL completion event is resolved *)

Inductive call := CallConnect | CallWrite (d : list nat) | CallRead | CallAbort | CallDestroy.

(** async_connect, nm_select_unix_tcp.c:253-275. *)
Definition call_connect (s : st) : st * list out :=
  if aborted s then (s, [Asked Connect; Done Connect EAborted])
  else if cev s then (s, [Asked Connect; Done Connect EInProgress])
  else (set_cpc (set_cev s true) CConn1, [Asked Connect]).

(** async_write, nm_select_unix_tcp.c:360-378: the completion event is
    stored before the data. *)
Definition call_write (d : list nat) (s : st) : st * list out :=
  if aborted s then (s, [Asked Write; Done Write EAborted])
  else if wev s then (s, [Asked Write; Done Write EInProgress])
  else (set_cpc (set_wev s true) (CWrite d), [Asked Write; Accepted d]).

(** async_read, nm_select_unix_tcp.c:413-428. *)
Definition call_read (s : st) : st * list out :=
  if aborted s then (s, [Asked Read; Done Read EAborted])
  else if rev_ s then (s, [Asked Read; Done Read EInProgress])
  else (set_cpc (set_rev s true) CNotify, [Asked Read]).

(** tcp_abort, nm_select_unix_tcp.c:435-457: first statement. *)
Definition call_abort (s : st) : st * list out :=
  if aborted s then (s, []) else (set_cpc (set_aborted s true) AbR, []).

(** The network thread holds the lock of the select context. *)
Definition locked (s : st) : bool :=
  match npc s with
  | NSel _ _ | NRead _ | NRGot _ _ | NConn _ | NCGot _ | NWrite | NWGot _ => true
  | _ => false
  end.

(** nm_select_unix_tcp_free_socket, nm_select_unix_tcp.c:73-84: waits for the
    lock, takes the socket out of the list, then aborts it. *)
Definition call_destroy (s : st) : st * list out :=
  if locked s then (s, []) else call_abort (set_live s false).

Definition do_call (c : call) (s : st) : st * list out :=
  match cpc s with
  | CIdle =>
      if live s then
        match c with
        | CallConnect => call_connect s
        | CallWrite d => call_write d s
        | CallRead => call_read s
        | CallAbort => call_abort s
        | CallDestroy => call_destroy s
        end
      else (s, [])
  | _ => (s, [])
  end.

Inductive conn_res := CRNoSocket | CRSocket | CRNow | CRInProgress | CRFail.

(** One step of the core thread inside a call: async_connect_ec,
    nm_select_unix_tcp.c:135-251, the rest of async_connect, 253-275,
    async_write_ec, 350-358, and tcp_abort, 435-457. *)
Definition do_cstep (r : conn_res) (s : st) : st * list out :=
  match cpc s with
  | CIdle => (s, [])
  | CConn1 => match r with
              | CRSocket => (set_cpc (set_conn s Fresh) CConn2, [])
              | _ => (set_cpc s (CConnRes EFail), [])
              end
  | CConn2 => match r with
              | CRNow => (set_cpc (set_conn s Up) (CConnRes EOk), [Established])
              | CRInProgress => (set_cpc (set_conn s Pending) CNotify, [])
              | _ => (set_cpc (set_conn s Down) (CConnRes EFail), [])
              end
  | CConnRes e => (set_cpc (set_cev s false) CIdle, [Done Connect e])
  | CWrite d => (set_cpc (set_wdata s d) CNotify, [])
  | CNotify => (set_cpc (set_pipe s (S (pipe s))) CIdle, [])
  | AbR => (set_cpc s (if rev_ s then AbR1 else AbW), [])
  | AbR1 => (set_cpc (set_rev s false) AbW, [Done Read EAborted])
  | AbW => (set_cpc s (if wev s then AbW1 else AbC), [])
  | AbW1 => (set_cpc (set_wev s false) AbC, [Done Write EAborted])
  | AbC => (set_cpc s (if cev s then AbC1 else CIdle), [])
  | AbC1 => (set_cpc (set_cev s false) CIdle, [Done Connect EAborted])
  end.

Inductive recv_res := RData | REof | RAgain | RFail.
Inductive send_res := SBytes (n : nat) | SAgain | SFail.

(** What the operating system answers to the network thread. *)
Record net_in := NI {
  err : bool;          (* select fails, e.g. with EINTR *)
  rdy_r : bool;        (* readable *)
  rdy_w : bool;        (* writable *)
  oth : bool;          (* another descriptor is ready *)
  rcv : recv_res;
  snd_ : send_res }.

Definition no_sock (s : st) : bool := match conn s with NoSock => true | _ => false end.

(** nm_select_unix_tcp_build_fd_sets, nm_select_unix_tcp.c:55-71. *)
Definition n_build (s : st) : st * list out :=
  let rb := rev_ s in
  let wb := wev s || cev s in
  (set_npc s (NBuilt rb wb), if no_sock s && (rb || wb) then [Undefined] else []).

(** select() as used by nm_select_unix_inf_wait, nm_select_unix.c:72-83, and
    the pipe part of nm_select_unix_read, 101-115.  A socket which is
    connecting is not writable; one without connect() is.  When select fails
    the sets are left as they were, so the pipe is read even if it is
    empty. *)
Definition n_select (i : net_in) (rb wb : bool) (s : st) : st * list out :=
  if err i then
    match pipe s with
    | 0 => (set_npc s (NStuck rb wb), [])
    | S n => (set_npc (set_pipe s n) (NSel rb wb), [])
    end
  else
    let rb1 := rb && rdy_r i && match conn s with Up | Down => true | _ => false end in
    let wb1 := wb && rdy_w i && match conn s with Up | Down | Fresh => true | _ => false end in
    match pipe s with
    | S n => (set_npc (set_pipe s n) (NSel rb1 wb1), [])
    | 0 => if rb1 || wb1 || oth i then (set_npc s (NSel rb1 wb1), []) else (s, [])
    end.

(** tcp_do_read_ec, nm_select_unix_tcp.c:380-395; None is NABTO_EC_AGAIN. *)
Definition do_recv (s : st) (r : recv_res) : option ec :=
  match conn s with
  | Up | Down => match r with RData => Some EOk | REof => Some EEof | RAgain => None | RFail => Some EFail end
  | _ => Some EFail
  end.

(** is_connected_ec, nm_select_unix_tcp.c:277-299: SO_ERROR of a connection
    in progress, or not begun, is 0. *)
Definition so_error (s : st) : option ec :=
  match conn s with
  | NoSock => Some EFail
  | Down => Some EAborted
  | _ => Some EOk
  end.

(** tcp_do_write_ec, nm_select_unix_tcp.c:314-333, as an effect and a
    result; None is NABTO_EC_AGAIN. *)
Definition do_send (i : net_in) (s : st) : st * list out * option ec :=
  match conn s with
  | Up =>
      match snd_ i with
      | SAgain => (s, [], None)
      | SFail => (s, [], Some EFail)
      | SBytes n =>
          let k := Nat.min n (length (wdata s)) in
          let s1 := set_wdata s (skipn k (wdata s)) in
          (s1, [Sent (firstn k (wdata s))],
           match wdata s1 with [] => Some EOk | _ => None end)
      end
  | _ => (s, [], Some EFail)
  end.

(** One step of the network thread: network_thread, nm_select_unix.c:144-160,
    with nm_select_unix_tcp_handle_select, nm_select_unix_tcp.c:86-106,
    tcp_do_read, 397-410, is_connected, 301-312, tcp_do_write, 335-348. *)
Definition do_nstep (i : net_in) (s : st) : st * list out :=
  match npc s with
  | NDead => (s, [])
  | n =>
    if negb (live s) then (set_npc s NStart, [])
    else match n with
    | NStart => n_build s
    | NBuilt rb wb => n_select i rb wb s
    | NStuck rb wb => match pipe s with
                      | 0 => (s, [])
                      | S m => (set_npc (set_pipe s m) (NSel rb wb), [])
                      end
    | NSel rb wb => if no_sock s then (set_npc s NStart, [Undefined])
                    else (set_npc s (if rb then NRead wb else NConn wb), [])
    | NRead wb => (set_npc s (if rev_ s then NRGot wb (do_recv s (rcv i)) else NConn wb), [])
    | NRGot wb None => (set_npc s (NConn wb), [])
    | NRGot wb (Some e) =>
        if rev_ s then (set_npc (set_rev s false) (NConn wb), [Done Read e])
        else (set_npc s NDead, [Crash])
    | NConn wb => (set_npc s (if negb wb then NStart
                              else if cev s then NCGot (so_error s) else NWrite), [])
    | NCGot None => (set_npc s NWrite, [])
    | NCGot (Some e) =>
        if cev s then (set_npc (set_cev s false) NWrite, [Done Connect e])
        else (set_npc s NDead, [Crash])
    | NWrite =>
        if wev s then
          let '(s1, o, r) := do_send i s in
          (set_npc s1 (match r with Some e => NWGot e | None => NStart end), o)
        else (set_npc s NStart, [])
    | NWGot e =>
        if wev s then (set_npc (set_wev s false) NStart, [Done Write e])
        else (set_npc s NDead, [Crash])
    | NDead => (s, [])
    end
  end.

Inductive op :=
  | Call (c : call)
  | CStep (r : conn_res)
  | NStep (i : net_in)
  | KUp | KDown.

Definition step (s : st) (i : op) : st * list out :=
  match i with
  | Call c => do_call c s
  | CStep r => do_cstep r s
  | NStep i => do_nstep i s
  | KUp => match conn s with Pending => (set_conn s Up, [Established]) | _ => (s, []) end
  | KDown => match conn s with Pending | Up => (set_conn s Down, []) | _ => (s, []) end
  end.

Fixpoint runs (s : st) (l : list op) : st * list out :=
  match l with
  | [] => (s, [])
  | i :: l' => let (s1, o1) := step s i in
               let (s2, o2) := runs s1 l' in (s2, o1 ++ o2)
  end.

Definition run l := runs init l.
Definition trace l := snd (run l).
