(** * UDP sockets and the receive loop (C92)

    Models one UDP socket of the device on both shipped platforms:
    - src/modules/select_unix/nm_select_unix_udp.c   (platform [Select])
    - src/modules/libevent/nm_libevent_udp.c         (platform [Libevent])
    together with the receive loop src/core/nc_udp_dispatch.c which drives
    it, and the table of open descriptors of the process.

    Oracles: the results of socket(), setsockopt(), bind(), event_new(),
    np_calloc() and recvfrom() are inputs of the operations.  socket() never
    answers with a descriptor which is open.  The rest of the process opens
    and closes descriptors of its own.

    Simplified: endpoints and packet bytes are opaque; the two threads of
    the platform are interleaved at the granularity of one call. *)
From Coq Require Import List Arith Bool Lia.
Import ListNotations.

Inductive platform := Select | Libevent.

(** Error codes reported by the modelled functions. *)
Inductive ec := EOk | EAborted | EInProgress | ECreation | EInUse | ENoMem.

(** Who opened a descriptor: this socket, or somebody else in the process. *)
Inductive owner := Ours | Theirs.

Definition fdt := list (nat * owner).

Fixpoint look (k : nat) (t : fdt) : option owner :=
  match t with
  | [] => None
  | (j, w) :: t' => if Nat.eqb j k then Some w else look k t'
  end.

Fixpoint drop (k : nat) (t : fdt) : fdt :=
  match t with
  | [] => []
  | (j, w) :: t' => if Nat.eqb j k then drop k t' else (j, w) :: drop k t'
  end.

(** socket(): [None] when it fails, never an open descriptor. *)
Definition sys_socket (o : option nat) (t : fdt) : option nat :=
  match o with
  | Some k => match look k t with None => Some k | Some _ => None end
  | None => None
  end.

Inductive bres := BOk | BInUse | BOther.

(** What the operating system answers during one bind call. *)
Record bind_in := BI {
  s6 : option nat;     (* socket(AF_INET6) *)
  s4 : option nat;     (* socket(AF_INET) *)
  optok : bool;        (* setsockopt(IPV6_V6ONLY) *)
  bres_in : bres;      (* bind *)
  evok : bool }.       (* event_new, libevent only *)

(** What recvfrom answers. *)
Inductive rres := RPacket (p : nat) | RAgain | RErr.

Inductive out :=
  | Bound (e : ec)          (* the bind completion event is resolved *)
  | Opened (k : nat)        (* socket() answered k *)
  | Closed (k : nat)        (* close() of a descriptor of this socket *)
  | ClosedOther (k : nat)   (* close() of a descriptor of somebody else *)
  | ClosedNone (k : nat)    (* close() of a descriptor which is not open *)
  | ReadOther (k : nat)     (* recvfrom() on a descriptor of somebody else *)
  | Deliver (p : nat)       (* nc_udp_dispatch_handle_packet *)
  | Dropped (p : nat)       (* packet read into the one byte buffer *)
  | Failure.                (* NABTO_DEVICE_EVENT_PLATFORM_FAILURE *)

(** struct np_udp_socket, struct nc_udp_dispatch_context. *)
Record st := mk {
  fds : fdt;             (* open descriptors of the process *)
  live : bool;           (* the socket object exists *)
  sk : option nat;       (* sock->sock, None = invalid *)
  aborted : bool;
  waiting : bool;        (* sock->recv.completionEvent != NULL *)
  bound : bool;          (* the last bind was answered OK *)
  posted : option ec }.  (* recvCompletionEvent is posted, with this code *)

(** nm_select_unix_udp.c:70-92, nm_libevent_udp.c:90-105,
    nc_udp_dispatch.c:22-37: a created socket which is not bound. *)
Definition init : st := mk [] true None false false false None.

Definition set_fds (s : st) t := mk t (live s) (sk s) (aborted s) (waiting s) (bound s) (posted s).
Definition set_sk (s : st) k := mk (fds s) (live s) k (aborted s) (waiting s) (bound s) (posted s).
Definition set_aborted (s : st) b := mk (fds s) (live s) (sk s) b (waiting s) (bound s) (posted s).
Definition set_waiting (s : st) b := mk (fds s) (live s) (sk s) (aborted s) b (bound s) (posted s).
Definition set_bound (s : st) b := mk (fds s) (live s) (sk s) (aborted s) (waiting s) b (posted s).
Definition set_posted (s : st) o := mk (fds s) (live s) (sk s) (aborted s) (waiting s) (bound s) o.
Definition set_dead (s : st) := mk (fds s) false None (aborted s) false false None.

(** close(k). *)
Definition sys_close (k : nat) (s : st) : st * list out :=
  match look k (fds s) with
  | Some Ours => (set_fds s (drop k (fds s)), [Closed k])
  | Some Theirs => (set_fds s (drop k (fds s)), [ClosedOther k])
  | None => (s, [ClosedNone k])
  end.

(** close(sock->sock); close(-1) has no effect. *)
Definition close_sk (s : st) : st * list out :=
  match sk s with Some k => sys_close k s | None => (s, []) end.

Definition open_fd (k : nat) (s : st) : st := set_fds s ((k, Ours) :: fds s).

(** create_socket_any, nm_select_unix_udp.c:425-453.  After a failed IPv6
    socket the test is on s->sock, not on the descriptor just opened; after
    a failed setsockopt s->sock is closed, not the descriptor just opened. *)
Definition create_any_select (b : bind_in) (s : st) : st * list out * ec :=
  match sys_socket (s6 b) (fds s) with
  | None =>
      match sys_socket (s4 b) (fds s) with
      | None =>
          match sk s with
          | None => (s, [], ECreation)
          | Some _ => (set_sk s None, [], EOk)
          end
      | Some k =>
          let s1 := open_fd k s in
          match sk s with
          | None => (s1, [Opened k], ECreation)
          | Some _ => (set_sk s1 (Some k), [Opened k], EOk)
          end
      end
  | Some k =>
      let s1 := open_fd k s in
      if optok b then (set_sk s1 (Some k), [Opened k], EOk)
      else let (s2, o) := close_sk s1 in (s2, Opened k :: o, ECreation)
  end.

(** udp_create_socket_any, nm_libevent_udp.c:423-451. *)
Definition create_any_libevent (b : bind_in) (s : st) : st * list out * ec :=
  match sys_socket (s6 b) (fds s) with
  | None =>
      match sys_socket (s4 b) (fds s) with
      | None => (s, [], ECreation)
      | Some k => (set_sk (open_fd k s) (Some k), [Opened k], EOk)
      end
  | Some k =>
      let s1 := open_fd k s in
      if optok b then (set_sk s1 (Some k), [Opened k], EOk)
      else let (s2, o) := sys_close k s1 in (s2, Opened k :: o, ECreation)
  end.

(** bind_port, nm_select_unix_udp.c:369-397: every failure is the creation
    error (an invalid descriptor is an invalid argument, also a failure). *)
Definition bind_port_select (b : bind_in) (s : st) : ec :=
  match sk s with
  | None => ECreation
  | Some _ => match bres_in b with BOk => EOk | _ => ECreation end
  end.

(** udp_bind_port, nm_libevent_udp.c:371-401. *)
Definition bind_port_libevent (b : bind_in) : ec :=
  match bres_in b with BOk => EOk | BInUse => EInUse | BOther => ECreation end.

(** nm_select_unix_udp_async_bind_port_ec, nm_select_unix_udp.c:94-112: the
    descriptor is closed after a failed bind but sock->sock keeps its
    number. *)
Definition bind_select (b : bind_in) (s : st) : st * list out * ec :=
  if aborted s then (s, [], EAborted)
  else match create_any_select b s with
       | (s1, o1, EOk) =>
           match bind_port_select b s1 with
           | EOk => (s1, o1, EOk)
           | e => let (s2, o2) := close_sk s1 in (s2, o1 ++ o2, e)
           end
       | r => r
       end.

(** udp_async_bind_port_ec, nm_libevent_udp.c:167-193, and
    nm_libevent_udp_add_to_libevent, 107-115. *)
Definition bind_libevent (b : bind_in) (s : st) : st * list out * ec :=
  if aborted s then (s, [], EAborted)
  else match create_any_libevent b s with
       | (s1, o1, EOk) =>
           match match bind_port_libevent b with
                 | EOk => if evok b then EOk else ENoMem
                 | e => e
                 end with
           | EOk => (s1, o1, EOk)
           | e => let (s2, o2) := close_sk s1 in (set_sk s2 None, o1 ++ o2, e)
           end
       | r => r
       end.

(** np_udp_async_bind_port as called by nc_udp_dispatch_async_bind,
    nc_udp_dispatch.c:49-53. *)
Definition do_bind (p : platform) (b : bind_in) (s : st) : st * list out :=
  let '(s1, o, e) := match p with
                     | Select => bind_select b s
                     | Libevent => bind_libevent b s
                     end in
  (set_bound s1 (match e with EOk => true | _ => false end), o ++ [Bound e]).

(** np_completion_event_resolve, platform/np_completion_event.c:44-48, of
    the receive completion event: the code is stored in any case. *)
Definition resolve (e : ec) (s : st) : st := set_posted s (Some e).

(** start_recv, nc_udp_dispatch.c:78-82, with the async_recv_wait of
    nm_select_unix_udp.c:141-159 and nm_libevent_udp.c:221-240, which are the
    same but for how the network thread is told. *)
Definition recv_wait (s : st) : st :=
  if aborted s then resolve EAborted s
  else if waiting s then resolve EInProgress s
  else set_waiting s true.

(** complete_recv_wait, nm_libevent_udp.c:126-133, and
    nm_select_unix_udp_handle_event, nm_select_unix_udp.c:197-204. *)
Definition complete (e : ec) (s : st) : st :=
  if waiting s then resolve e (set_waiting s false) else s.

(** The socket is readable: build_fd_sets and handle_select,
    nm_select_unix_udp.c:218-245, look at valid descriptors;
    udp_ready_callback, nm_libevent_udp.c:135-142. *)
Definition do_readable (p : platform) (s : st) : st :=
  match p, sk s with
  | Select, None => s
  | _, _ => complete EOk s
  end.

(** recvfrom on sock->sock. *)
Definition sys_recv (s : st) (r : rres) : rres * list out :=
  match sk s with
  | None => (RErr, [])
  | Some k => match look k (fds s) with
              | Some Ours => (r, [])
              | Some Theirs => (r, [ReadOther k])
              | None => (RErr, [])
              end
  end.

(** async_recv_wait_complete, nc_udp_dispatch.c:84-130.  [mem]: the
    receive buffer could be allocated. *)
Definition do_dispatch (mem : bool) (r : rres) (s : st) : st * list out :=
  match posted s with
  | None => (s, [])
  | Some EOk =>
      let s1 := set_posted s None in
      let (r1, o) := sys_recv s1 r in
      if mem then
        match r1 with
        | RPacket q => (recv_wait s1, o ++ [Deliver q])
        | RAgain => (recv_wait s1, o)
        | RErr => (s1, o ++ [Failure])
        end
      else (recv_wait s1, o ++ match r1 with RPacket q => [Dropped q] | _ => [] end)
  | Some _ => (set_posted s None, [Failure])
  end.

(** nm_select_unix_udp_abort, nm_select_unix_udp.c:175-186, and udp_abort,
    nm_libevent_udp.c:117-124. *)
Definition do_abort (s : st) : st := complete EAborted (set_aborted s true).

(** nc_udp_dispatch_deinit, nc_udp_dispatch.c:39-46, with
    nm_select_unix_udp_free_socket, nm_select_unix_udp.c:206-216, and
    udp_destroy, nm_libevent_udp.c:144-165; the completion event is
    destroyed right after the socket. *)
Definition do_destroy (s : st) : st * list out :=
  let (s1, o) := close_sk (do_abort s) in (set_dead s1, o).

Inductive op :=
  | Bind (b : bind_in)
  | StartRecv                      (* nc_udp_dispatch_start_recv *)
  | Readable                       (* network thread *)
  | Dispatch (mem : bool) (r : rres)   (* event queue runs the posted event *)
  | Abort
  | Destroy
  | FOpen (k : nat)                (* the rest of the process *)
  | FClose (k : nat).

(** StartRecv is called by nc_device_sockets_bound, nc_device.c:343-391,
    after the last bind was answered OK. *)
Definition step (p : platform) (s : st) (i : op) : st * list out :=
  match i with
  | FOpen k => (match look k (fds s) with
                | None => set_fds s ((k, Theirs) :: fds s)
                | Some _ => s end, [])
  | FClose k => (match look k (fds s) with
                 | Some Theirs => set_fds s (drop k (fds s))
                 | _ => s end, [])
  | _ =>
    if live s then
      match i with
      | Bind b => do_bind p b s
      | StartRecv => (if bound s then recv_wait s else s, [])
      | Readable => (do_readable p s, [])
      | Dispatch mem r => do_dispatch mem r s
      | Abort => (do_abort s, [])
      | Destroy => do_destroy s
      | _ => (s, [])
      end
    else (s, [])
  end.

Fixpoint runs (p : platform) (s : st) (l : list op) : st * list out :=
  match l with
  | [] => (s, [])
  | i :: l' => let (s1, o1) := step p s i in
               let (s2, o2) := runs p s1 l' in (s2, o1 ++ o2)
  end.

Definition run p l := runs p init l.
Definition trace p l := snd (run p l).
