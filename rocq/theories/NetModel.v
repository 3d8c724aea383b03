(** Datagrams, client connections and rendezvous: nc_udp_dispatch.c, nc_client_connection_dispatch.c, nc_client_connection.c,
    nc_connection.c, nc_virtual_connection.c, nc_rendezvous.c.
    Bytes are numbers. Sockets (struct nc_udp_dispatch_context) and endpoints are numbers; socket 1 is the one of nc_device_context.localUdp. What
    the DTLS module does when it gets a packet is an argument of the step ([a_dtls]): the events and the data which it
    reports synchronously. CoAP, streams and keep alive only get their data ([App]). Packets which are sent are outputs,
    completions are steps. Connections are values; a connection which has been freed is no longer in the list. [Crash]: memory outside
    the packet is read. *)
From Coq Require Import List NArith Bool.
Import ListNotations.
Local Open Scope N_scope.

(** NABTO_DEVICE_DTLS_CLIENT_ONLY defined or not. *)
Inductive build := ServerBuild | ClientOnlyBuild.

(** struct nc_connection_channel. *)
Record chan := { ch_sock : nat; ch_ep : nat; ch_id : N }.
(** struct nc_client_connection; [k_sent]: sentCb. [k_told]: the channel which the DTLS module names for data which it finds
    later: currentChannelId (nm_mbedtls_srv.c 326) or recvChannelId (nm_mbedtls_cli.c 708-710). *)
Record client := { k_id : list N; k_cur : chan; k_alt : chan; k_max : N; k_sent : option nat; k_told : N }.
Definition with_cur (c : chan) (k : client) : client := {| k_id := k_id k; k_cur := c; k_alt := k_alt k; k_max := k_max k; k_sent := k_sent k; k_told := k_told k |}.
Definition with_alt (c : chan) (k : client) : client := {| k_id := k_id k; k_cur := k_cur k; k_alt := c; k_max := k_max k; k_sent := k_sent k; k_told := k_told k |}.
Definition with_max (n : N) (k : client) : client := {| k_id := k_id k; k_cur := k_cur k; k_alt := k_alt k; k_max := n; k_sent := k_sent k; k_told := k_told k |}.
Definition with_sent (x : option nat) (k : client) : client := {| k_id := k_id k; k_cur := k_cur k; k_alt := k_alt k; k_max := k_max k; k_sent := x; k_told := k_told k |}.
Definition with_told (c : N) (k : client) : client := {| k_id := k_id k; k_cur := k_cur k; k_alt := k_alt k; k_max := k_max k; k_sent := k_sent k; k_told := c |}.
(** struct nc_connection; [None]: virtual. *)
Record conn := { n_ref : N; n_impl : option client }.
(** struct nc_rendezvous_send_packet. *)
Record rv := { r_type : N; r_id : list N; r_chan : N; r_sock : option nat; r_ep : nat }.
(** struct nc_connections_context with connectionRef of nc_device_context; [t_cb]: closeCb. [t_err]: sendingInternalError. struct nc_rendezvous_context: [t_queue]: packetList up
    to packetIndex, the last one first; [t_busy]: sendBuffer is not NULL. *)
Record net := {
  t_conns : list conn; t_ref : N; t_limit : N; t_count : N; t_closing : bool; t_cb : bool;
  t_err : bool; t_queue : list rv; t_busy : bool; t_default : option nat }.

(** What a UDP socket hands packets to: nc_udp_dispatch_context 24-30 of nc_udp_dispatch.h; what is not set is NULL. *)
Record handlers := { h_stun : bool; h_attacher : bool; h_clients : bool; h_rendezvous : bool }.

Inductive dtls := Handshaken | Data (seq : N) (bytes : list N) | DtlsClosed.
(** What can go wrong, and what DTLS does: [a_mem]: memory for a connection; [a_init]: the rest of nc_client_connection_init; [a_buf]: a buffer for
    a rendezvous packet. [a_sync]: for nc_connections_async_close, whether the DTLS module reports the end of the connection at once. *)
Record env := { a_mem : bool; a_init : bool; a_buf : bool; a_dtls : list dtls; a_sync : list bool }.

Inductive op :=
| Packet (h : handlers) (sock ep : nat) (p : list N)
| DtlsEvent (ref : N) (v : dtls)                     (* later, without a packet *)
| Send (ref : N) (channel : N) (bytes : list N) (tok : nat)   (* the DTLS module sends *)
| Sent (ref : N) (ok : bool)                         (* sendCompletionEvent of the connection *)
| ErrorSent | RendezvousSent
| Rendezvous (id : list N) (ep : nat)                (* one endpoint in a CoAP p2p/rendezvous request *)
| NewVirtual | FreeVirtual (ref : N)
| Limit (n : N) | CloseAll (cb : bool) | SetDefault (s : option nat).

Inductive code := Ok | InProgress | Stopped | OutOfResources.
Inductive out :=
| ToStun | ToAttacher
| Created (ref : N) | Opened (ref : N) | Gone (ref : N) | Changed (ref : N)
| ToDtls (ref : N) (channel : N) (bytes : list N)
| App (ref : N) (bytes : list N)
| Udp (sock ep : nat) (bytes : list N)
| SentCb (tok : nat) (ok : bool)
| CloseCb
| Return (c : code) | Ref (r : option N)
| Crash.

Definition u64_max : N := 18446744073709551615.
(** nc_connections_init 9-16, nc_rendezvous_init 19-34. *)
Definition init : net :=
  {| t_conns := []; t_ref := 0; t_limit := u64_max; t_count := 0; t_closing := false; t_cb := false;
     t_err := false; t_queue := []; t_busy := false; t_default := None |}.

Definition set_conns (l : list conn) (c : N) (s : net) : net :=
  {| t_conns := l; t_ref := t_ref s; t_limit := t_limit s; t_count := c; t_closing := t_closing s; t_cb := t_cb s;
     t_err := t_err s; t_queue := t_queue s; t_busy := t_busy s; t_default := t_default s |}.
Definition set_ref (r : N) (s : net) : net :=
  {| t_conns := t_conns s; t_ref := r; t_limit := t_limit s; t_count := t_count s; t_closing := t_closing s; t_cb := t_cb s;
     t_err := t_err s; t_queue := t_queue s; t_busy := t_busy s; t_default := t_default s |}.
Definition set_limit (n : N) (s : net) : net :=
  {| t_conns := t_conns s; t_ref := t_ref s; t_limit := n; t_count := t_count s; t_closing := t_closing s; t_cb := t_cb s;
     t_err := t_err s; t_queue := t_queue s; t_busy := t_busy s; t_default := t_default s |}.
Definition set_closing (c b : bool) (s : net) : net :=
  {| t_conns := t_conns s; t_ref := t_ref s; t_limit := t_limit s; t_count := t_count s; t_closing := c; t_cb := b;
     t_err := t_err s; t_queue := t_queue s; t_busy := t_busy s; t_default := t_default s |}.
Definition set_err (b : bool) (s : net) : net :=
  {| t_conns := t_conns s; t_ref := t_ref s; t_limit := t_limit s; t_count := t_count s; t_closing := t_closing s; t_cb := t_cb s;
     t_err := b; t_queue := t_queue s; t_busy := t_busy s; t_default := t_default s |}.
Definition set_queue (q : list rv) (b : bool) (s : net) : net :=
  {| t_conns := t_conns s; t_ref := t_ref s; t_limit := t_limit s; t_count := t_count s; t_closing := t_closing s; t_cb := t_cb s;
     t_err := t_err s; t_queue := q; t_busy := b; t_default := t_default s |}.
Definition set_default (d : option nat) (s : net) : net :=
  {| t_conns := t_conns s; t_ref := t_ref s; t_limit := t_limit s; t_count := t_count s; t_closing := t_closing s; t_cb := t_cb s;
     t_err := t_err s; t_queue := t_queue s; t_busy := t_busy s; t_default := d |}.

(** memcmp(a, b, n) == 0. *)
Fixpoint bytes_eqb (a b : list N) : bool :=
  match a, b with
  | [], [] => true
  | x :: a, y :: b => N.eqb x y && bytes_eqb a b
  | _, _ => false
  end.
(** memcpy of n bytes, [None] when the source is shorter. *)
Definition copy (n : nat) (p : list N) : option (list N) := if Nat.leb n (length p) then Some (firstn n p) else None.

(** nc_device_next_connection_ref 487-497 of nc_device.c. *)
Definition next_ref (s : net) : net * option N :=
  let r := (t_ref s + 1) mod (u64_max + 1) in
  if N.ltb r (t_ref s) then (set_ref r s, None) else (set_ref r s, Some r).

(** nc_connections_alloc_client_connection 62-85, nc_connections_alloc_virtual_connection 87-110: the same but for the kind. *)
Definition alloc (mem : bool) (impl : option client) (s : net) : net * option N :=
  if N.leb (t_limit s) (t_count s) then (s, None)
  else if mem then match next_ref s with
                   | (s, Some r) => (set_conns (t_conns s ++ [{| n_ref := r; n_impl := impl |}]) (t_count s + 1) s, Some r)
                   | (s, None) => (s, None)
                   end
       else (s, None).

(** nc_connections_connection_from_ref 130-139. *)
Definition from_ref (r : N) (s : net) : option conn := find (fun c => N.eqb (n_ref c) r) (t_conns s).
(** nc_connections_connection_from_id 153-167; [id] is what the pointer points to. *)
Definition is_id (id : list N) (c : conn) : bool :=
  match n_impl c with Some k => bytes_eqb (firstn 14 (skipn 1 id)) (firstn 14 (skipn 1 (k_id k))) | None => false end.
Definition from_id (id : list N) (s : net) : option conn := find (is_id id) (t_conns s).

(** nc_connections_free_connection 112-128. *)
Fixpoint remove (r : N) (l : list conn) : list conn :=
  match l with [] => [] | c :: l => if N.eqb (n_ref c) r then l else c :: remove r l end.
Definition free_conn (r : N) (s : net) : net * list out :=
  let s := set_conns (remove r (t_conns s)) (t_count s - 1) s in
  if t_closing s && N.leb (t_count s) 0
  then (set_closing (t_closing s) false s, if t_cb s then [CloseCb] else [])
  else (s, []).
(** nc_client_connection_destroy_connection 145-165; nc_virtual_connection_destroy 21-30. *)
Definition destroy (r : N) (s : net) : net * list out :=
  let (s, l) := free_conn r s in (s, Gone r :: l).

(** Writes a connection back. *)
Fixpoint replace (r : N) (k : client) (l : list conn) : list conn :=
  match l with
  | [] => []
  | c :: l => if N.eqb (n_ref c) r then {| n_ref := r; n_impl := Some k |} :: l else c :: replace r k l
  end.
Definition put (r : N) (k : client) (s : net) : net := set_conns (replace r k (t_conns s)) (t_count s) s.

(** nc_client_connection_handle_data 184-224. AT_KEEP_ALIVE is 4. The kinds of application data are not told apart. *)
Definition handle_data (r : N) (k : client) (channel seq : N) (bytes : list N) (s : net) : net * list out :=
  match bytes with
  | [] => (s, [Crash])
  | ty :: _ =>
    let (s, l) :=
      if negb (N.eqb ty 4) && N.ltb (k_max k) seq
      then let k := with_max seq k in
           if negb (N.eqb (ch_id (k_cur k)) channel) && N.eqb (ch_id (k_alt k)) channel
           then (put r (with_cur (k_alt k) k) s, [Changed r])
           else (put r k s, [])
      else (s, []) in
    (s, l ++ [App r bytes])
  end.
(** nc_client_connection_handle_event 167-181. *)
Definition handle_dtls (r : N) (channel : N) (v : dtls) (s : net) : net * list out :=
  match from_ref r s with
  | Some {| n_impl := Some k |} =>
    match v with
    | Handshaken => (s, [Opened r])
    | Data seq bytes => handle_data r k channel seq bytes s
    | DtlsClosed => destroy r s
    end
  | _ => (s, [])
  end.
Fixpoint handle_all (r : N) (channel : N) (l : list dtls) (s : net) : net * list out :=
  match l with
  | [] => (s, [])
  | v :: l => let (s, a) := handle_dtls r channel v s in let (s, b) := handle_all r channel l s in (s, a ++ b)
  end.

(** nc_client_connection_handle_packet 103-135. The DTLS server is told the id of the current channel whatever channel the packet
    came on; the DTLS client is told the channel of the packet. *)
Definition client_packet (b : build) (e : env) (r : N) (k : client) (sock ep : nat) (p : list N) (s : net) : net * list out :=
  match nth_error p 15 with
  | None => (s, [Crash])
  | Some id =>
    let k := if N.eqb id (ch_id (k_cur k))
             then with_cur {| ch_sock := sock; ch_ep := ep; ch_id := ch_id (k_cur k) |} k
             else with_alt {| ch_sock := sock; ch_ep := ep; ch_id := id |} k in
    let channel := match b with ServerBuild => ch_id (k_cur k) | ClientOnlyBuild => id end in
    let k := with_told (match b with ServerBuild => channel | ClientOnlyBuild => 255 end) k in
    let (s, l) := handle_all r channel (a_dtls e) (put r k s) in
    (s, ToDtls r channel (skipn 16 p) :: l)
  end.

(** nc_client_connection_dispatch_send_internal_error 45-74: the connection id, a DTLS alert record. *)
Definition alert : list N := [21; 254; 253; 0; 0; 0; 0; 0; 0; 0; 0; 0; 2; 2; 80].
Definition internal_error (sock ep : nat) (p : list N) (s : net) : net * list out :=
  if t_err s then (s, [])
  else if Nat.ltb (length p) 16 then (s, [])
  else (set_err true s, [Udp sock ep (firstn 16 p ++ alert)]).

(** nc_client_connection_dispatch_handle_packet 79-122; nc_client_connection_init 35-88, nc_client_connection_start 90-101. *)
Definition clients_packet (b : build) (e : env) (sock ep : nat) (p : list N) (s : net) : net * list out :=
  if Nat.ltb (length p) 17 then (s, [])
  else match from_id p s with
       | Some {| n_ref := r; n_impl := Some k |} => client_packet b e r k sock ep p s
       | Some _ => (s, [])
       | None =>
         match nth_error p 16, nth_error p 15, copy 16 p with
         | Some t, Some ch, Some id =>
           if N.eqb t 22
           then let c := {| ch_sock := sock; ch_ep := ep; ch_id := ch |} in
                match alloc (a_mem e) (Some {| k_id := id; k_cur := c; k_alt := c; k_max := 0; k_sent := None; k_told := match b with ServerBuild => ch | ClientOnlyBuild => 255 end |}) s with
                | (s, None) => internal_error sock ep p s
                | (s, Some r) =>
                  if a_init e
                  then let (s, l) := handle_all r ch (a_dtls e) s in
                       (s, Created r :: match b with ServerBuild => [ToDtls r ch (skipn 16 p)] | ClientOnlyBuild => [] end ++ l)
                  else let (s, l1) := internal_error sock ep p s in
                       let (s, l2) := destroy r s in (s, l1 ++ l2)
                end
           else (s, [])
         | _, _, _ => (s, [Crash])
         end
       end.

(** nc_rendezvous_send_device_request 63-104. NABTO_PROTOCOL_PREFIX_RENDEZVOUS is 241. A packet without a socket has been given
    the default one when it was queued. *)
Definition rv_send (mem : bool) (s : net) : net * list out :=
  if t_busy s then (s, [])
  else match t_queue s with
       | [] => (s, [])
       | r :: q => if mem
                   then match r_sock r with
                        | Some k => (set_queue q true s, [Udp k (r_ep r) (241 :: r_id r ++ [r_chan r; r_type r])])
                        | None => (s, [Crash])
                        end
                   else (set_queue [] false s, [])
       end.
(** NC_RENDEZVOUS_SEND_QUEUE_LENGTH. *)
Definition rv_max : nat := 10.
(** nc_rendezvous_send_rendezvous 106-125. *)
Definition rv_queue (mem : bool) (r : rv) (s : net) : net * list out :=
  if Nat.leb rv_max (length (t_queue s)) then (s, [])
  else match (match r_sock r with Some k => Some k | None => t_default s end) with
       | Some k => rv_send mem (set_queue ({| r_type := r_type r; r_id := r_id r; r_chan := r_chan r; r_sock := Some k; r_ep := r_ep r |} :: t_queue s) (t_busy s) s)
       | None => (s, [])
       end.
(** nc_rendezvous_handle_packet 127-160; nc_client_connection_dispatch_validate_connection_id 132-138. The connection id is looked up
    from the second byte of the packet, and nc_connections_connection_from_id skips another one. CT_RENDEZVOUS_CLIENT_REQUEST 1, _RESPONSE 2,
    PING_REQUEST 4, _RESPONSE 5. *)
Definition rv_packet (e : env) (sock ep : nat) (p : list N) (s : net) : net * list out :=
  if Nat.ltb (length p) 17 then (s, [])
  else match nth_error p 16, copy 14 (skipn 1 p), nth_error p 15 with
       | Some t, Some id, Some ch =>
         if N.eqb t 1
         then match copy 14 (skipn 2 p), from_id (skipn 1 p) s with
              | None, _ => (s, [Crash])
              | _, Some _ => rv_queue (a_buf e) {| r_type := 2; r_id := id; r_chan := ch; r_sock := Some sock; r_ep := ep |} s
              | _, None => (s, [])
              end
         else if N.eqb t 4
         then rv_queue (a_buf e) {| r_type := 5; r_id := id; r_chan := ch; r_sock := Some sock; r_ep := ep |} s
         else (s, [])
       | _, _, _ => (s, [Crash])
       end.

(** nc_udp_dispatch_handle_packet 131-153. The STUN and the attach packets are not followed further here. *)
Definition handle_packet (b : build) (e : env) (h : handlers) (sock ep : nat) (p : list N) (s : net) : net * list out :=
  match p with
  | [] => (s, [])
  | x :: _ =>
    if h_stun h && (N.eqb x 0 || N.eqb x 1) then (s, [ToStun])
    else if h_attacher h && (N.leb 20 x && N.leb x 64) then (s, [ToAttacher])
    else if h_clients h && N.eqb x 240 then clients_packet b e sock ep p s
    else if h_rendezvous h && N.eqb x 241 then rv_packet e sock ep p s
    else (s, [])
  end.

(** nc_client_connection_async_send_to_udp 339-369. NP_DTLS_CLI_DEFAULT_CHANNEL_ID is 255. *)
Definition send_to_udp (r : N) (k : client) (channel : N) (bytes : list N) (tok : nat) (s : net) : net * list out :=
  match k_sent k with
  | Some _ => (s, [Return InProgress])
  | None =>
    let s := put r (with_sent (Some tok) k) s in
    if N.eqb channel (ch_id (k_cur k)) || N.eqb channel 255
    then (s, [Udp (ch_sock (k_cur k)) (ch_ep (k_cur k)) (firstn 15 (k_id k) ++ [ch_id (k_cur k)] ++ bytes); Return Ok])
    else if N.eqb channel (ch_id (k_alt k))
    then (s, [Udp (ch_sock (k_alt k)) (ch_ep (k_alt k)) (firstn 15 (k_id k) ++ [ch_id (k_alt k)] ++ bytes); Return Ok])
    else (s, [Return Ok])
  end.
(** nc_client_connection_send_to_udp_cb 322-336; the error codes are one. *)
Definition sent_cb (r : N) (k : client) (ok : bool) (s : net) : net * list out :=
  match k_sent k with
  | Some tok => (put r (with_sent None k) s, [SentCb tok ok])
  | None => (s, [])
  end.

(** nc_connections_async_close 37-60. nc_virtual_connection_close does nothing. [sync]: for every client connection whether the DTLS module
    reports the end at once (nm_mbedtls_srv_async_close 494-511: when nothing is queued and the close notify is not being sent). *)
Fixpoint close_each (l : list conn) (sync : list bool) (s : net) : net * list out * bool :=
  match l with
  | [] => (s, [], false)
  | {| n_ref := r; n_impl := Some _ |} :: l =>
    let (s, a) := match sync with true :: _ => destroy r s | _ => (s, []) end in
    let '(s, b, _) := close_each l (tl sync) s in (s, a ++ b, true)
  | _ :: l => close_each l sync s
  end.
Definition close_all (cb : bool) (sync : list bool) (s : net) : net * list out :=
  let '(s, l, active) := close_each (t_conns s) sync (set_closing true (t_cb s) s) in
  if active then (set_closing true cb s, l ++ [Return Ok]) else (s, l ++ [Return Stopped]).

Definition with_client (r : N) (f : client -> net -> net * list out) (s : net) : net * list out :=
  match from_ref r s with Some {| n_impl := Some k |} => f k s | _ => (s, []) end.

Definition step (b : build) (e : env) (o : op) (s : net) : net * list out :=
  match o with
  | Packet h sock ep p => handle_packet b e h sock ep p s
  | DtlsEvent r v => with_client r (fun k => handle_dtls r (k_told k) v) s
  | Send r ch bytes tok => with_client r (fun k => send_to_udp r k ch bytes tok) s
  | Sent r ok => with_client r (fun k => sent_cb r k ok) s
  | ErrorSent => (set_err false s, [])                                         (* 37-42 *)
  | RendezvousSent => if t_busy s then rv_send (a_buf e) (set_queue (t_queue s) false s) else (s, [])   (* 53-61 *)
  | Rendezvous id ep => rv_queue (a_buf e) {| r_type := 3; r_id := id; r_chan := 0; r_sock := None; r_ep := ep |} s   (* nc_rendezvous_coap.c 38-107 *)
  | NewVirtual => let (s, r) := alloc (a_mem e) None s in                      (* nc_virtual_connection_new 9-19 *)
                  (s, match r with Some r => [Opened r; Ref (Some r)] | None => [Ref None] end)
  | FreeVirtual r => match from_ref r s with Some {| n_impl := None |} => destroy r s | _ => (s, []) end
  | Limit n => (set_limit n s, [])                                             (* nabto_device_limit_connections, nabto_device.c 771-781 *)
  | CloseAll cb => close_all cb (a_sync e) s
  | SetDefault d => (set_default d s, [])
  end.

Definition move : Type := op * env.
Fixpoint run (b : build) (s : net) (h : list move) : net * list (move * list out) :=
  match h with
  | [] => (s, [])
  | m :: h => let (s1, l) := step b (snd m) (fst m) s in let (s2, t) := run b s1 h in (s2, (m, l) :: t)
  end.
