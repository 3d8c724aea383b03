(** The stream manager and the life of a stream: nc_stream_manager.c and the reference counting of nc_stream.c 97-290, 635-701 and nc_virtual_stream.c 12-31, 88-93.
    The streaming protocol (nabto_stream) is an oracle: each activation of a stream is given the events which nc_stream_event meets. What the operations of a stream do is
    modelled in StrModel.v and VirtModel.v; the parsing of packets in CodecModel.v. Memory is a heap of streams; a use of a stream which is not in it is a crash (None).
    All allocations except that of the stream succeed. *)
From Coq Require Import List Bool Arith NArith.
Import ListNotations.

(** A connection of a client or a virtual connection. *)
Inductive conn := Client (c : nat) | Virtual (c : nat).
Definition of_client (c : nat) (x : option conn) : bool := match x with Some (Client c') => c' =? c | _ => false end.
(** struct nc_stream_context of nc_stream.h. k_flying: sendCtx is queued in DTLS; k_posted: the event ev is in the event queue.
    k_app and k_client are ghosts which nothing reads: the application owns the stream, the user of a virtual stream holds it. *)
Record stream := { k_id : N; k_conn : option conn; k_refs : nat; k_virt : bool; k_accepted : bool; k_stopped : bool; k_listed : bool; k_sending : bool; k_flying : bool; k_posted : bool; k_app : bool; k_client : bool }.
(** struct nc_stream_manager_context: heap, listeners (address and type), currentStreams, maxStreams, rstBuf != NULL (rst_fly: sendRstCtx is queued in DTLS). next is the address of the next allocation. *)
Record mgr := { heap : list (nat * stream); listeners : list (nat * N); current : nat; limit : nat; rst_busy : bool; rst_fly : bool; next : nat }.

(** What an attempt to send an RST meets: no buffer, DTLS takes it, DTLS refuses it. *)
Inductive rst := NoBuf | Sent | Failed.
(** What nc_stream_event meets: ET_ACCEPT with the content type, what the callback of the listener does with it (take it or destroy it) and how an RST goes,
    a packet to send (empty: nabto_stream_create_packet returns 0; ok: DTLS takes it), an event which is handled inside nabto_stream, a wait. *)
Inductive ev := EAccept (port : N) (take : bool) (r : option rst) | ESend (empty ok : bool) | EOther | EWait.

Inductive op :=
| Listen (l : nat) (type : N) (rands : list N)  (* nc_stream_manager_add_listener; rands: the results of rand *)
| Unlisten (l : nat)                            (* nc_stream_manager_remove_listener *)
| SetMax (n : nat)                              (* nabto_device_limit_streams *)
| Packet (c : nat) (id : N) (syn isrst : bool) (alloc : bool) (r : rst) (evs : list ev) (* nc_stream_manager_handle_packet; syn: flags == SYN, isrst: flags & RST *)
| Timer (k : nat) (evs : list ev)               (* nc_stream_handle_timeout *)
| Posted (k : nat) (evs : list ev)              (* nc_stream_event_queue_callback *)
| SendDone (k : nat) (evs : list ev)            (* nc_stream_dtls_send_callback *)
| RstDone                                       (* nc_stream_manager_send_rst_callback *)
| ConnClosed (c : nat)                          (* nc_stream_manager_remove_connection *)
| VOpen (c : nat) (port : N) (alloc take : bool) (* nc_stream_manager_accept_virtual_stream *)
| VUse (k : nat)                                (* an operation of the user of a virtual stream *)
| VFree (k : nat)                               (* nc_virtual_stream_destroy *)
| Use (k : nat)                                 (* an operation of the application, which makes nabto_stream call nc_stream_event_callback *)
| Abort (k : nat) (r : option rst)              (* nabto_device_stream_abort *)
| Destroy (k : nat) (r : option rst).           (* nc_stream_destroy by the application *)
Inductive out :=
| Listening (l : nat) (port : N) | Refused (l : nat)
| Opened (k c : nat) (id : N) | VNew (k : nat) | VOpened (k : nat) | NoStream
| Offered (l k : nat) | Taken (k : nat) | Ended (k : nat) | Freed (k : nat)
| RstSent (c : nat) (id : N) | PacketSent (k : nat) | Unhandled.

Definition get (k : nat) (m : mgr) : option stream := option_map snd (find (fun x => fst x =? k) (heap m)).
Definition with_heap (h : list (nat * stream)) (m : mgr) : mgr := {| heap := h; listeners := listeners m; current := current m; limit := limit m; rst_busy := rst_busy m; rst_fly := rst_fly m; next := next m |}.
Definition with_listeners (l : list (nat * N)) (m : mgr) : mgr := {| heap := heap m; listeners := l; current := current m; limit := limit m; rst_busy := rst_busy m; rst_fly := rst_fly m; next := next m |}.
Definition with_current (n : nat) (m : mgr) : mgr := {| heap := heap m; listeners := listeners m; current := n; limit := limit m; rst_busy := rst_busy m; rst_fly := rst_fly m; next := next m |}.
Definition with_limit (n : nat) (m : mgr) : mgr := {| heap := heap m; listeners := listeners m; current := current m; limit := n; rst_busy := rst_busy m; rst_fly := rst_fly m; next := next m |}.
Definition with_rst (b f : bool) (m : mgr) : mgr := {| heap := heap m; listeners := listeners m; current := current m; limit := limit m; rst_busy := b; rst_fly := f; next := next m |}.
Definition put (k : nat) (s : stream) (m : mgr) : mgr := with_heap (map (fun x => if fst x =? k then (k, s) else x) (heap m)) m.
Definition set_refs (n : nat) (s : stream) : stream := {| k_id := k_id s; k_conn := k_conn s; k_refs := n; k_virt := k_virt s; k_accepted := k_accepted s; k_stopped := k_stopped s; k_listed := k_listed s; k_sending := k_sending s; k_flying := k_flying s; k_posted := k_posted s; k_app := k_app s; k_client := k_client s |}.
Definition set_accepted (s : stream) : stream := {| k_id := k_id s; k_conn := k_conn s; k_refs := k_refs s; k_virt := k_virt s; k_accepted := true; k_stopped := k_stopped s; k_listed := k_listed s; k_sending := k_sending s; k_flying := k_flying s; k_posted := k_posted s; k_app := k_app s; k_client := k_client s |}.
Definition set_stopped (s : stream) : stream := {| k_id := 0; k_conn := None; k_refs := k_refs s; k_virt := k_virt s; k_accepted := k_accepted s; k_stopped := true; k_listed := k_listed s; k_sending := k_sending s; k_flying := k_flying s; k_posted := k_posted s; k_app := k_app s; k_client := k_client s |}.
Definition set_listed (b : bool) (s : stream) : stream := {| k_id := k_id s; k_conn := k_conn s; k_refs := k_refs s; k_virt := k_virt s; k_accepted := k_accepted s; k_stopped := k_stopped s; k_listed := b; k_sending := k_sending s; k_flying := k_flying s; k_posted := k_posted s; k_app := k_app s; k_client := k_client s |}.
Definition set_send (sending flying : bool) (s : stream) : stream := {| k_id := k_id s; k_conn := k_conn s; k_refs := k_refs s; k_virt := k_virt s; k_accepted := k_accepted s; k_stopped := k_stopped s; k_listed := k_listed s; k_sending := sending; k_flying := flying; k_posted := k_posted s; k_app := k_app s; k_client := k_client s |}.
Definition set_posted (b : bool) (s : stream) : stream := {| k_id := k_id s; k_conn := k_conn s; k_refs := k_refs s; k_virt := k_virt s; k_accepted := k_accepted s; k_stopped := k_stopped s; k_listed := k_listed s; k_sending := k_sending s; k_flying := k_flying s; k_posted := b; k_app := k_app s; k_client := k_client s |}.
Definition set_app (b : bool) (s : stream) : stream := {| k_id := k_id s; k_conn := k_conn s; k_refs := k_refs s; k_virt := k_virt s; k_accepted := k_accepted s; k_stopped := k_stopped s; k_listed := k_listed s; k_sending := k_sending s; k_flying := k_flying s; k_posted := k_posted s; k_app := b; k_client := k_client s |}.
Definition set_client (b : bool) (s : stream) : stream := {| k_id := k_id s; k_conn := k_conn s; k_refs := k_refs s; k_virt := k_virt s; k_accepted := k_accepted s; k_stopped := k_stopped s; k_listed := k_listed s; k_sending := k_sending s; k_flying := k_flying s; k_posted := k_posted s; k_app := k_app s; k_client := b |}.

Definition init (n : nat) : mgr := {| heap := []; listeners := []; current := 0; limit := n; rst_busy := false; rst_fly := false; next := 0 |}.

(** nc_stream_ref_count_inc 681-684. *)
Definition inc (k : nat) (m : mgr) : option mgr := match get k m with Some s => Some (put k (set_refs (S (k_refs s)) s) m) | None => None end.
(** nc_stream_ref_count_dec 686-697, nc_stream_free, nc_stream_manager_free_stream. refCount is a size_t, a decrement of 0 is a crash here. *)
Definition dec (k : nat) (m : mgr) : option (mgr * list out) :=
  match get k m with
  | Some s =>
    match k_refs s with
    | 0 => None
    | 1 => Some (with_current (current m - 1) (with_heap (filter (fun x => negb (fst x =? k)) (heap m)) m), [Freed k])
    | S n => Some (put k (set_refs n s) m, [])
    end
  | None => None
  end.
(** nc_stream_manager_send_rst. *)
Definition send_rst (c : nat) (id : N) (r : rst) (m : mgr) : mgr * list out :=
  if rst_busy m then (m, []) else match r with NoBuf => (m, []) | Sent => (with_rst true true m, [RstSent c id]) | Failed => (with_rst true false m, []) end.
(** nc_stream_stop; r: what nabto_stream_stop_should_send_rst says and how the RST goes. *)
Definition stop (k : nat) (r : option rst) (m : mgr) : option (mgr * list out) :=
  match get k m with
  | Some s =>
    if k_stopped s then Some (m, [])
    else let (m, l) := match k_virt s, r, k_conn s with false, Some r, Some (Client c) => send_rst c (k_id s) r m | _, _, _ => (m, []) end in
         Some (put k (set_stopped s) m, l ++ [Ended k])
  | None => None
  end.
(** nc_stream_manager_stream_remove. *)
Definition remove (k : nat) (m : mgr) : option (mgr * list out) :=
  match get k m with Some s => if k_listed s then dec k (put k (set_listed false s) m) else None | None => None end.
(** Sequencing. *)
Definition bind (x : option (mgr * list out)) (f : mgr -> option (mgr * list out)) : option (mgr * list out) :=
  match x with Some (m, l) => match f m with Some (m, l') => Some (m, l ++ l') | None => None end | None => None end.
Definition ret (m : mgr) : option (mgr * list out) := Some (m, []).
Definition lift (x : option mgr) : option (mgr * list out) := match x with Some m => Some (m, []) | None => None end.
(** nc_stream_destroy 97-103; the ghost: the application gives the stream back. *)
Definition destroy (k : nat) (r : option rst) (m : mgr) : option (mgr * list out) :=
  match get k m with Some s => bind (stop k r (put k (set_app false s) m)) (fun m => bind (remove k m) (dec k)) | None => None end.
(** nc_stream_manager_ready_for_accept 145-173 with the callback of the listener. *)
Definition ready (k : nat) (port : N) (take : bool) (r : option rst) (m : mgr) : option (mgr * list out) :=
  match get k m with
  | Some s =>
    let s' := set_accepted (set_refs (S (k_refs s)) s) in
    match find (fun x => (snd x =? port)%N) (listeners m) with
    | Some (l, _) => if take then Some (put k (set_app true s') m, [Offered l k; Taken k]) else bind (Some (put k s' m, [Offered l k])) (destroy k r)
    | None => destroy k r (put k s' m)
    end
  | None => None
  end.
(** nc_stream_event_deferred. *)
Definition post (k : nat) (s : stream) (m : mgr) : mgr := if k_posted s then m else put k (set_posted true (set_refs (S (k_refs s)) s)) m.
Definition deferred (k : nat) (m : mgr) : option mgr :=
  match get k m with Some s => Some (if k_stopped s then m else post k s m) | None => None end.
(** nc_stream_send_packet 212-261; the caller has checked that the stream is not stopped. After a refusal by DTLS isSending stays set. *)
Definition send_packet (k : nat) (empty ok : bool) (m : mgr) : option (mgr * list out) :=
  match get k m with
  | Some s =>
    match k_conn s with
    | None => Some (post k s m, [])
    | Some _ =>
      if k_sending s then Some (m, [])
      else if empty then Some (m, [])
      else if ok then Some (put k (set_send true true (set_refs (S (k_refs s)) s)) m, [PacketSent k])
      else Some (post k (set_send true false s) (put k (set_send true false s) m), [])
    end
  | None => None
  end.
(** nc_stream_event 117-164. nabto_stream offers a stream once: a further ET_ACCEPT does not occur. nabto_stream_event_handled and the test of stopped use the stream. *)
Fixpoint events (k : nat) (evs : list ev) (m : mgr) : option (mgr * list out) :=
  match get k m with
  | Some s =>
    if k_stopped s then ret m
    else match evs with
         | [] | EWait :: _ => ret m
         | ESend e o :: _ => send_packet k e o m
         | EOther :: evs => events k evs m
         | EAccept p t r :: evs => if k_accepted s then events k evs m else bind (ready k p t r m) (events k evs)
         end
  | None => None
  end.
(** nc_stream_manager_find_stream. *)
Definition found (c : nat) (id : N) (m : mgr) : option nat :=
  option_map fst (find (fun x => k_listed (snd x) && (k_id (snd x) =? id)%N && of_client c (k_conn (snd x))) (heap m)).
Definition push (s : stream) (m : mgr) : mgr := {| heap := heap m ++ [(next m, s)]; listeners := listeners m; current := S (current m); limit := limit m; rst_busy := rst_busy m; rst_fly := rst_fly m; next := S (next m) |}.
(** nc_stream_manager_accept_stream 212-231 with nc_stream_manager_alloc_stream; alloc: the allocation and nc_stream_init succeed. *)
Definition accept (c : nat) (id : N) (alloc : bool) (m : mgr) : option (mgr * nat * list out) :=
  if N.odd id then None
  else if limit m <=? current m then None
  else if negb alloc then None
  else Some (push (set_refs 1 {| k_id := id; k_conn := Some (Client c); k_refs := 0; k_virt := false; k_accepted := false; k_stopped := false; k_listed := true; k_sending := false; k_flying := false; k_posted := false; k_app := false; k_client := false |}) m, next m, [Opened (next m) c id]).
(** nc_stream_handle_packet between the two changes of the count in nc_stream_manager_handle_packet. *)
Definition deliver (k : nat) (evs : list ev) (m : mgr) : option (mgr * list out) := bind (lift (inc k m)) (fun m => bind (events k evs m) (dec k)).
Definition handle_packet (c : nat) (id : N) (syn isrst alloc : bool) (r : rst) (evs : list ev) (m : mgr) : option (mgr * list out) :=
  match found c id m with
  | Some k => deliver k evs m
  | None =>
    match (if syn then accept c id alloc m else None) with
    | Some (m, k, l) => bind (Some (m, l)) (deliver k evs)
    | None => if isrst then Some (m, []) else Some (send_rst c id r m)
    end
  end.
(** nc_stream_manager_remove_connection with nc_stream_handle_connection_closed, for one stream. Setting conn to NULL before nc_stream_stop, which does it too, has the effect
    that no RST is sent. *)
Definition conn_closed1 (k : nat) (m : mgr) : option (mgr * list out) :=
  match get k m with
  | Some s =>
    bind (lift (inc k m)) (fun m =>
    bind (if k_stopped s then ret m else bind (stop k None m) (fun m => if k_accepted s then ret m else remove k m)) (dec k))
  | None => None
  end.
Fixpoint conn_closed (ks : list nat) (m : mgr) : option (mgr * list out) :=
  match ks with [] => ret m | k :: ks => bind (conn_closed1 k m) (conn_closed ks) end.
Definition of_conn (c : nat) (m : mgr) : list nat := map fst (filter (fun x => k_listed (snd x) && of_client c (k_conn (snd x))) (heap m)).
(** nc_stream_manager_accept_virtual_stream 233-248 with nc_virtual_stream_init 12-31. *)
Definition open_virtual (c : nat) (port : N) (alloc take : bool) (m : mgr) : option (mgr * list out) :=
  if (limit m <=? current m) || negb alloc then Some (m, [NoStream])
  else let k := next m in
       let m := push {| k_id := 0; k_conn := Some (Virtual c); k_refs := 1; k_virt := true; k_accepted := false; k_stopped := false; k_listed := true; k_sending := false; k_flying := false; k_posted := false; k_app := false; k_client := false |} m in
       bind (Some (m, [VNew k])) (fun m => bind (ready k port take None m) (fun m =>
       match get k m with Some s => Some (put k (set_client true (set_refs (S (k_refs s)) s)) m, [VOpened k]) | None => None end)).
(** nc_stream_manager_port_in_use, nc_stream_manager_get_ephemeral_stream_port: 10 tries. *)
Definition in_use (p : N) (m : mgr) : bool := existsb (fun x => (snd x =? p)%N) (listeners m).
Definition ephemeral_of (r : N) : N := (2147483648 + N.land r 2147483647)%N.
Fixpoint ephemeral (n : nat) (rands : list N) (m : mgr) : option N :=
  match n, rands with
  | S n, r :: rands => if in_use (ephemeral_of r) m then ephemeral n rands m else Some (ephemeral_of r)
  | _, _ => None
  end.
Definition listen (l : nat) (type : N) (rands : list N) (m : mgr) : mgr * list out :=
  match (if (type =? 0)%N then ephemeral 10 rands m else Some type) with
  | Some p => if in_use p m then (m, [Refused l]) else (with_listeners (listeners m ++ [(l, p)]) m, [Listening l p])
  | None => (m, [Refused l])
  end.

(** A timer, a posted event and the end of a send occur only for a stream for which they are pending; freeing the stream destroys the timer. *)
Definition step (o : op) (m : mgr) : option (mgr * list out) :=
  match o with
  | Listen l type rands => Some (listen l type rands m)
  | Unlisten l => Some (with_listeners (filter (fun x => negb (fst x =? l)) (listeners m)) m, [])
  | SetMax n => Some (with_limit n m, [])
  | Packet c id syn isrst alloc r evs => handle_packet c id syn isrst alloc r evs m
  | Timer k evs => match get k m with Some s => if k_virt s then Some (m, [Unhandled]) else events k evs m | None => Some (m, [Unhandled]) end
  | Posted k evs => match get k m with Some s => if k_posted s then bind (events k evs (put k (set_posted false s) m)) (dec k) else Some (m, [Unhandled]) | None => Some (m, [Unhandled]) end
  | SendDone k evs => match get k m with Some s => if k_flying s then bind (events k evs (put k (set_send false false s) m)) (dec k) else Some (m, [Unhandled]) | None => Some (m, [Unhandled]) end
  | RstDone => if rst_fly m then Some (with_rst false false m, []) else Some (m, [Unhandled])
  | ConnClosed c => conn_closed (of_conn c m) m
  | VOpen c port alloc take => open_virtual c port alloc take m
  | VUse k => match get k m with Some _ => Some (m, []) | None => None end
  | VFree k => match get k m with Some s => dec k (put k (set_client false s) m) | None => None end
  | Use k => match get k m with Some s => if k_virt s then Some (m, []) else lift (deferred k m) | None => None end
  | Abort k r => stop k r m
  | Destroy k r => destroy k r m
  end.

(** A run; None in the state is a crash, after which nothing happens. *)
Fixpoint run (m : option mgr) (h : list op) : option mgr * list (op * list out) :=
  match h with
  | [] => (m, [])
  | o :: h =>
    match m with
    | Some m => match step o m with
                | Some (m, l) => let (m', t) := run (Some m) h in (m', (o, l) :: t)
                | None => let (m', t) := run None h in (m', (o, []) :: t)
                end
    | None => let (m', t) := run None h in (m', (o, []) :: t)
    end
  end.
