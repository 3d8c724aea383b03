(** * The mDNS server of the device (C96)

    Models src/modules/mdns/nm_mdns_server.c, which announces the device on
    the local network and answers discovery queries on IPv4 and IPv6.

    Oracles: allocation, the packet builder and query parser of the empty
    submodule nabto-common (nabto_mdns_server_build_packet,
    nabto_mdns_server_handle_packet), np_local_ip_get_local_ips and the codes
    with which the UDP module resolves completion events are inputs of the
    operations.  nabto_mdns_server_update_info stores what it is given.

    Simplified: the instance name, subtypes and txt items are one opaque
    value [info]; addresses are opaque numbers; a packet is described by what
    the builder is asked to put into it.  The server is created with
    closedCompletionEvent NULL (np_calloc of the platform data,
    nabto_platform_libevent.c:66).  Initialisation failures and
    deinitialisation are not part of this model. *)
From Coq Require Import List Arith NArith Bool Lia.
Import ListNotations.

Inductive fam := V4 | V6.

(** Completion codes. *)
Inductive ec := EOk | EAborted | EInProgress | ENoMem | EUnknown | ESendFailed | EOther.

(** nm_mdns_server.h, enum nm_mdns_server_state. *)
Inductive sstate := New | Running | Closed | Stopped.

(** Where a packet is sent: the multicast group of the family on port 5353
    (sendEp, nm_mdns_server.c:71-82) or the source of the last query (recvEp). *)
Inductive dest := Group | Peer (ep : nat).

(** Arguments of nabto_mdns_server_build_packet. *)
Record packet := PK {
  p_info : nat; p_port : nat; p_ips : list nat;
  p_id : nat; p_unicast : bool; p_goodbye : bool }.

Inductive out :=
  | Binding (f : fam)                      (* the socket is bound to port 5353 *)
  | Sent (f : fam) (d : dest) (p : packet) (* np_udp_async_send_to *)
  | Listen (f : fam)                       (* np_udp_async_recv_wait *)
  | Resolved (c : nat) (e : ec).           (* closed event c of the application *)

(** What a send attempt meets: np_calloc, the builder, the local addresses. *)
Record env := EV { e_mem : bool; e_fits : bool; e_ips : list nat }.

(** What np_udp_recv_from answers.  [q]: the packet is a query for the
    service, with this id; [ep], [sport]: its source. *)
Inductive rres := RPacket (q : option nat) (ep : nat) (sport : N) | RAgain | RAborted | RErr.

(** struct nm_mdns_server_instance: the bind is outstanding; sendBuffer is
    not NULL, [Some true] when the completion callback is the goodbye one;
    the receive completion is outstanding; the source of the last packet. *)
Record inst := IN { opening : bool; sending : option bool; waiting : bool; recv_ep : nat }.

(** struct nm_mdns_server.  [closing]: closedCompletionEvent.  [inst_closed]:
    instanceCloseCompletionEvent is posted with this code, [phase] its
    callback (v4_closed or v6_closed). *)
Record st := mk {
  state : sstate; port : nat; info : nat;
  i4 : inst; i6 : inst;
  closing : option nat; phase : fam; inst_closed : option ec }.

(** nm_mdns_server_init, nm_mdns_server.c:96-114, instance_init, 47-85. *)
Definition inst0 : inst := IN false None false 0.
Definition init : st := mk New 0 0 inst0 inst0 None V4 None.

Definition get (s : st) (f : fam) : inst := match f with V4 => i4 s | V6 => i6 s end.
Definition put (s : st) (f : fam) (i : inst) : st :=
  match f with
  | V4 => mk (state s) (port s) (info s) i (i6 s) (closing s) (phase s) (inst_closed s)
  | V6 => mk (state s) (port s) (info s) (i4 s) i (closing s) (phase s) (inst_closed s)
  end.
Definition set_state (s : st) x := mk x (port s) (info s) (i4 s) (i6 s) (closing s) (phase s) (inst_closed s).
Definition set_pub (s : st) p n := mk (state s) p n (i4 s) (i6 s) (closing s) (phase s) (inst_closed s).
Definition set_closing (s : st) c := mk (state s) (port s) (info s) (i4 s) (i6 s) c (phase s) (inst_closed s).
Definition set_phase (s : st) f := mk (state s) (port s) (info s) (i4 s) (i6 s) (closing s) f (inst_closed s).
Definition set_posted (s : st) e := mk (state s) (port s) (info s) (i4 s) (i6 s) (closing s) (phase s) e.

Definition with_opening (i : inst) b := IN b (sending i) (waiting i) (recv_ep i).
Definition with_sending (i : inst) x := IN (opening i) x (waiting i) (recv_ep i).
Definition with_waiting (i : inst) b := IN (opening i) (sending i) b (recv_ep i).
Definition with_ep (i : inst) e := IN (opening i) (sending i) (waiting i) e.

Definition is_running (s : st) : bool := match state s with Running => true | _ => false end.
Definition idle (s : st) (f : fam) : bool := match sending (get s f) with None => true | Some _ => false end.

(** nm_mdns_recv_packet, nm_mdns_server.c:280-285. *)
Definition recv_packet (s : st) (f : fam) : st * list out :=
  if is_running s then (put s f (with_waiting (get s f) true), [Listen f]) else (s, []).

(** nm_mdns_send_packet, nm_mdns_server.c:347-377. *)
Definition send_packet (s : st) (f : fam) (id : nat) (unicast : bool) (v : env) : st * list out :=
  if (is_running s && idle s f && (0 <? port s) && e_mem v && e_fits v)%bool
  then (put s f (with_sending (get s f) (Some false)),
        [Sent f (if unicast then Peer (recv_ep (get s f)) else Group)
              (PK (info s) (port s) (e_ips v) id unicast false)])
  else recv_packet s f.

(** nm_mdns_socket_opened, nm_mdns_server.c:265-278. *)
Definition opened (s : st) (f : fam) (e : ec) (v : env) : st * list out :=
  match state s with
  | Stopped | Closed => (s, [])
  | _ => match e with
         | EOk => send_packet s f 0 false v
         | _ => (s, [])
         end
  end.

(** nm_mdns_packet_recv_wait_completed, nm_mdns_server.c:287-345.  [mem]: the
    receive buffer could be allocated; otherwise the packet is read into one
    byte and discarded. *)
Definition recv_done (s : st) (f : fam) (e : ec) (mem : bool) (r : rres) (v : env) : st * list out :=
  match state s with
  | Stopped | Closed => (s, [])
  | _ =>
    match e with
    | EOk =>
        match r with
        | RPacket q ep sport =>
            let s1 := put s f (with_ep (get s f) ep) in
            match mem, q with
            | true, Some id => send_packet s1 f id (negb (sport =? 5353)%N) v
            | _, _ => recv_packet s1 f
            end
        | RAgain => recv_packet s f
        | RAborted | RErr => (s, [])
        end
    | _ => (s, [])
    end
  end.

(** np_completion_event_resolve of instanceCloseCompletionEvent. *)
Definition post (s : st) (e : ec) : st := set_posted s (Some e).

(** nm_mdns_server_close_instance, nm_mdns_server.c:169-206. *)
Definition close_instance (s : st) (f : fam) (v : env) : st * list out :=
  if idle s f then
    if 0 <? port s then
      if e_mem v then
        if e_fits v then
          (put s f (with_sending (get s f) (Some true)),
           [Sent f Group (PK (info s) (port s) (e_ips v) 0 false true)])
        else (post s EUnknown, [])
      else (post s ENoMem, [])
    else (post s EUnknown, [])
  else (post s EInProgress, []).

(** The send completion event is dispatched: nm_mdns_packet_sent,
    nm_mdns_server.c:379-389, or
    nm_mnds_server_close_instance_udp_sent_callback, 157-167. *)
Definition sent (s : st) (f : fam) (e : ec) : st * list out :=
  match sending (get s f) with
  | None => (s, [])
  | Some false => recv_packet (put s f (with_sending (get s f) None)) f
  | Some true =>
      (post (put s f (with_sending (get s f) None))
            (match e with EOk | ESendFailed => EOk | x => x end), [])
  end.

(** nm_mdns_server_close, nm_mdns_server.c:141-155. *)
Definition close (s : st) (c : nat) (v : env) : st * list out :=
  match closing s with
  | Some _ => (s, [Resolved c EInProgress])
  | None =>
      if is_running s
      then close_instance (set_phase (set_closing (set_state s Closed) (Some c)) V4) V4 v
      else (s, [Resolved c EOk])
  end.

(** instanceCloseCompletionEvent is dispatched: v4_closed,
    nm_mdns_server.c:124-132, v6_closed, 134-139. *)
Definition closed (s : st) (v : env) : st * list out :=
  match inst_closed s with
  | None => (s, [])
  | Some e =>
      let s1 := set_posted s None in
      match phase s with
      | V4 => close_instance (set_phase s1 V6) V6 v
      | V6 => match closing s with
              | Some c => (set_closing s1 None, [Resolved c e])
              | None => (s1, [])
              end
      end
  end.

(** publish_service, nm_mdns_server.c:220-238. *)
Definition publish (s : st) (p n : nat) : st * list out :=
  match state s with
  | New => (set_pub (put (put (set_state s Running)
                           V4 (with_opening (i4 s) true))
                           V6 (with_opening (i6 s) true)) p n, [Binding V4; Binding V6])
  | Running => (set_pub s p n, [])
  | _ => (s, [])
  end.

Inductive op :=
  | Publish (p n : nat)
  | Unpublish                       (* does nothing, nm_mdns_server.c:240-244 *)
  | OpenDone (f : fam) (e : ec) (v : env)
  | RecvDone (f : fam) (e : ec) (mem : bool) (r : rres) (v : env)
  | SendDone (f : fam) (e : ec)
  | Close (c : nat) (v : env)
  | InstClosed (v : env)
  | Stop.

(** A completion is dispatched only when its operation is outstanding.
    nm_mdns_server_stop, nm_mdns_server.c:208-218: aborting the sockets
    shows in the codes of later completions. *)
Definition step (s : st) (o : op) : st * list out :=
  match o with
  | Publish p n => publish s p n
  | Unpublish => (s, [])
  | OpenDone f e v =>
      if opening (get s f) then opened (put s f (with_opening (get s f) false)) f e v else (s, [])
  | RecvDone f e mem r v =>
      if waiting (get s f) then recv_done (put s f (with_waiting (get s f) false)) f e mem r v else (s, [])
  | SendDone f e => sent s f e
  | Close c v => close s c v
  | InstClosed v => closed s v
  | Stop => (set_state s Stopped, [])
  end.

Fixpoint runs (s : st) (l : list op) : st * list out :=
  match l with
  | [] => (s, [])
  | o :: l' => let (s1, a) := step s o in let (s2, b) := runs s1 l' in (s2, a ++ b)
  end.

Definition run (l : list op) : st * list out := runs init l.
