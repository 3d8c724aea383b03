(** TCP tunnel services: modules/tcp_tunnel/nm_tcp_tunnel.c, nm_tcp_tunnel_coap.c and api/nabto_device_tcp_tunnelling.c. *)
From Coq Require Import List Bool Arith NArith String.
Import ListNotations.
Local Open Scope string_scope.
Local Open Scope list_scope.

(** struct nm_tcp_tunnel_service (nm_tcp_tunnel.h 54-74). A connection is named by its stream. weak: the weak pointer, a counter which is not reused (uint8_t* on 64 bits; wrapping is left out). *)
Record svc := { weak : nat; id : string; ty : string; addr : nat; port : nat; sport : nat; meta : list (string * string); conns : list nat }.
(** What the application is asked: np_authorization create_request with the connection and the action, then the attributes. *)
Record ask := { q_conn : nat; q_action : string; q_attrs : list (string * string) }.
(** What a verdict is for: the user data of check_access. *)
Inductive why := ForStream (w stream : nat) | ForList (req : nat) | ForGet (i : string) (req : nat).
Inductive err := Ok | NotFound | OutOfMemory | InvalidArgument | NoListener.
(** The body of a CoAP response: encode_services_list, encode_service, nm_tcp_tunnel_coap.c 91-162, as a tree. *)
Inductive body := Ids (l : list string) | Info (i t : string) (a p sp : nat) (m : list (string * string)) | Code (c : nat).
Inductive out :=
| Result (e : err)                 (* what the API returns *)
| Ask (n : nat) (a : ask)          (* check_access *)
| Opened (stream : nat) (t : string) (a p : nat) (* nc_stream_accept and np_tcp_async_connect; t, the type of the service, is for the specification only *)
| Destroyed (stream : nat)         (* nc_stream_destroy *)
| Stopped (stream : nat)           (* nm_tcp_tunnel_connection_stop_from_manager *)
| Answer (req : nat) (b : body).
(** struct nm_tcp_tunnels (nm_tcp_tunnel.h 76-85). pend: requests for authorisation without a verdict. lost: services which were allocated, are in no list and are never freed. *)
Record st := { svcs : list svc; limits : list (string * nat); wkc : nat; pend : list (nat * why); nask : nat; lost : list nat }.
Definition init : st := {| svcs := []; limits := []; wkc := 1; pend := []; nask := 0; lost := [] |}.
Definition set_svcs (l : list svc) (s : st) : st := {| svcs := l; limits := limits s; wkc := wkc s; pend := pend s; nask := nask s; lost := lost s |}.
Definition set_limits (l : list (string * nat)) (s : st) : st := {| svcs := svcs s; limits := l; wkc := wkc s; pend := pend s; nask := nask s; lost := lost s |}.
Definition set_pend (l : list (nat * why)) (s : st) : st := {| svcs := svcs s; limits := limits s; wkc := wkc s; pend := l; nask := nask s; lost := lost s |}.

(** nm_tcp_tunnels_find_service, nm_tcp_tunnel.c 252-266: the first with that id. *)
Definition find_id (i : string) (s : st) : option svc := find (fun v => String.eqb (id v) i) (svcs s).
(** nm_tcp_tunnels_find_service_by_weak_ptr, nm_tcp_tunnel.c 267-277. *)
Definition find_weak (w : nat) (s : st) : option svc := find (fun v => Nat.eqb (weak v) w) (svcs s).
(** The listener of a stream port, nc_stream_manager.c find_listener. *)
Definition find_port (p : nat) (s : st) : option svc := find (fun v => Nat.eqb (sport v) p) (svcs s).
(** nn_string_int_map_get, nn_string_int_map_erase, nn_string_map_erase. *)
Definition get {A : Type} (k : string) (m : list (string * A)) : option A := match find (fun x => String.eqb (fst x) k) m with Some (_, v) => Some v | None => None end.
Definition erase {A : Type} (k : string) (m : list (string * A)) : list (string * A) := filter (fun x => negb (String.eqb (fst x) k)) m.
(** nm_tcp_tunnel_connections_by_type, nm_tcp_tunnel.c 279-290. *)
Definition by_type (t : string) (l : list svc) : nat := fold_right (fun v n => (if String.eqb (ty v) t then List.length (conns v) else 0) + n) 0 l.
Definition drop_weak (w : nat) (l : list svc) : list svc := filter (fun v => negb (Nat.eqb (weak v) w)) l.
Definition upd_weak (w : nat) (f : svc -> svc) (l : list svc) : list svc := map (fun v => if Nat.eqb (weak v) w then f v else v) l.
Definition with_meta (m : list (string * string)) (v : svc) : svc := {| weak := weak v; id := id v; ty := ty v; addr := addr v; port := port v; sport := sport v; meta := m; conns := conns v |}.
Definition with_conns (c : list nat) (v : svc) : svc := {| weak := weak v; id := id v; ty := ty v; addr := addr v; port := port v; sport := sport v; meta := meta v; conns := c |}.
(** INT_MAX *)
Definition int_max : N := 2147483647.

(** nabto_device_add_tcp_tunnel_service, nabto_device_tcp_tunnelling.c 9-29; nm_tcp_tunnel_service_create and nm_tcp_tunnel_service_init, nm_tcp_tunnel.c 59-74, 112-130.
    host: the address, None if np_ip_address_read_v4 fails. a1: the service is allocated; a2: its strings are. lst: the port the stream manager chose, which no other listener has (C82), None if there is none. *)
Definition add_service (i t : string) (host : option nat) (p : nat) (a1 a2 : bool) (lst : option nat) (s : st) : st * list out :=
  match host with
  | None => (s, [Result InvalidArgument])
  | Some h =>
    if negb a1 then (s, [Result OutOfMemory]) else
    let w := S (wkc s) in
    let leak := {| svcs := svcs s; limits := limits s; wkc := w; pend := pend s; nask := nask s; lost := w :: lost s |} in
    if negb a2 then (leak, [Result OutOfMemory]) else
    match lst with
    | None => (leak, [Result NoListener])
    | Some sp =>
      if existsb (fun v => Nat.eqb (sport v) sp) (svcs s) then (leak, [Result NoListener]) else
      ({| svcs := svcs s ++ [{| weak := w; id := i; ty := t; addr := h; port := p; sport := sp; meta := []; conns := [] |}]; limits := limits s; wkc := w; pend := pend s; nask := nask s; lost := lost s |}, [Result Ok])
    end
  end.
(** nm_tcp_tunnel_service_deinit and nm_tcp_tunnel_service_destroy, nm_tcp_tunnel.c 104-110, 132-143. *)
Definition stop_all (v : svc) : list out := map Stopped (conns v).
(** nm_tcp_tunnel_service_destroy_by_id, nm_tcp_tunnel.c 76-85. *)
Definition remove_service (i : string) (s : st) : st * list out :=
  match find_id i s with
  | None => (s, [Result NotFound])
  | Some v => (set_svcs (drop_weak (weak v) (svcs s)) s, stop_all v ++ [Result Ok])
  end.
(** nm_tcp_tunnels_deinit, nm_tcp_tunnel.c 43-57. *)
Definition deinit (s : st) : st * list out := (set_limits [] (set_svcs [] s), flat_map stop_all (svcs s)).
(** nm_tcp_tunnel_limit_concurrent_connections_by_type, nm_tcp_tunnel.c 87-99. a: nn_string_int_map_insert succeeds. *)
Definition limit (t : string) (n : N) (a : bool) (s : st) : st * list out :=
  let m := erase t (limits s) in
  if (int_max <? n)%N then (set_limits m s, [Result Ok])
  else if negb a then (set_limits m s, [Result OutOfMemory])
  else (set_limits ((t, N.to_nat n) :: m) s, [Result Ok]).
(** nm_tcp_tunnel_service_add_metadata, nm_tcp_tunnel.c 219-236: the result of nn_string_map_insert (a) is not used. *)
Definition add_meta (i k x : string) (a : bool) (s : st) : st * list out :=
  match find_id i s with
  | None => (s, [Result NotFound])
  | Some v => let m := erase k (meta v) in (set_svcs (upd_weak (weak v) (with_meta (if a then m ++ [(k, x)] else m)) (svcs s)) s, [Result Ok])
  end.
(** nm_tcp_tunnel_service_remove_metadata, nm_tcp_tunnel.c 238-249. *)
Definition rem_meta (i k : string) (s : st) : st * list out :=
  match find_id i s with
  | None => (s, [Result NotFound])
  | Some v => (set_svcs (upd_weak (weak v) (with_meta (erase k (meta v))) (svcs s)) s, [Result Ok])
  end.
(** create_request, add_string_attribute, check_access. *)
Definition asking (a : ask) (y : why) (s : st) : st * list out :=
  ({| svcs := svcs s; limits := limits s; wkc := wkc s; pend := (nask s, y) :: pend s; nask := S (nask s); lost := lost s |}, [Ask (nask s) a]).
Definition service_attrs (v : svc) : list (string * string) := [("TcpTunnel:ServiceId", id v); ("TcpTunnel:ServiceType", ty v)].
(** nm_tcp_tunnel_service_stream_listener_callback, nm_tcp_tunnel.c 157-186. A stream for a port without a listener never gets here. a: the request could be made. *)
Definition incoming (p conn stream : nat) (a : bool) (s : st) : st * list out :=
  match find_port p s with
  | None => (s, [])
  | Some v => if a then asking {| q_conn := conn; q_action := "TcpTunnel:Connect"; q_attrs := service_attrs v |} (ForStream (weak v) stream) s else (s, [Destroyed stream])
  end.
(** list_services, nm_tcp_tunnel_coap.c 76-90. *)
Definition list_services (conn req : nat) (a : bool) (s : st) : st * list out :=
  if a then asking {| q_conn := conn; q_action := "TcpTunnel:ListServices"; q_attrs := [] |} (ForList req) s else (s, [Answer req (Code 500)]).
(** get_service, get_connect, get_service_action, nm_tcp_tunnel_coap.c 202-242; con: the path is tcp-tunnels/connect. *)
Definition get_service (con : bool) (i : string) (conn req : nat) (a : bool) (s : st) : st * list out :=
  match find_id i s with
  | None => (s, [Answer req (Code 404)])
  | Some v => if a then asking {| q_conn := conn; q_action := if con then "TcpTunnel:Connect" else "TcpTunnel:GetService"; q_attrs := service_attrs v |} (ForGet i req) s
              else (s, [Answer req (Code 500)])
  end.
(** service_stream_iam_callback, nm_tcp_tunnel.c 188-232; nm_tcp_tunnel_connection_init and start. a: the connection is allocated and initialised. *)
Definition stream_verdict (allow a : bool) (w stream : nat) (s : st) : st * list out :=
  match find_weak w s with
  | None => (s, [Destroyed stream])
  | Some v =>
    if negb allow then (s, [Destroyed stream]) else
    if match get (ty v) (limits s) with Some n => Nat.leb n (by_type (ty v) (svcs s)) | None => false end then (s, [Destroyed stream]) else
    if negb a then (s, [Destroyed stream]) else
    (set_svcs (upd_weak w (fun v => with_conns (conns v ++ [stream]) v) (svcs s)) s, [Opened stream (ty v) (addr v) (port v)])
  end.
(** list_services_iam, nm_tcp_tunnel_coap.c 164-200; a: the buffer is allocated and the payload set. *)
Definition list_verdict (allow a : bool) (req : nat) (s : st) : st * list out :=
  (s, [Answer req (if negb allow then Code 403 else if negb a then Code 500 else Ids (map id (svcs s)))]).
(** get_service_iam, nm_tcp_tunnel_coap.c 244-282: the service is looked up again. *)
Definition get_verdict (allow a : bool) (i : string) (req : nat) (s : st) : st * list out :=
  if negb allow then (s, [Answer req (Code 403)]) else
  match find_id i s with
  | None => (s, [Answer req (Code 404)])
  | Some v => (s, [Answer req (if negb a then Code 500 else Info (id v) (ty v) (addr v) (port v) (sport v) (meta v))])
  end.
(** A verdict for the request n: handle_verdict, nabto_device_authorization.c 64-69; each request has one. *)
Definition verdict (n : nat) (allow a : bool) (s : st) : st * list out :=
  match find (fun x => Nat.eqb (fst x) n) (pend s) with
  | None => (s, [])
  | Some (_, y) =>
    let s := set_pend (filter (fun x => negb (Nat.eqb (fst x) n)) (pend s)) s in
    match y with
    | ForStream w stream => stream_verdict allow a w stream s
    | ForList req => list_verdict allow a req s
    | ForGet i req => get_verdict allow a i req s
    end
  end.
(** the_end, nm_tcp_tunnel_connection.c 328-332: the connection leaves the list. *)
Definition conn_end (stream : nat) (s : st) : st * list out :=
  (set_svcs (map (fun v => with_conns (filter (fun c => negb (Nat.eqb c stream)) (conns v)) v) (svcs s)) s, []).

Inductive op :=
| AddService (i t : string) (host : option nat) (p : nat) (a1 a2 : bool) (lst : option nat)
| RemoveService (i : string) | Deinit | Limit (t : string) (n : N) (a : bool) | AddMeta (i k x : string) (a : bool) | RemMeta (i k : string)
| Incoming (p conn stream : nat) (a : bool) | ListServices (conn req : nat) (a : bool) | GetService (con : bool) (i : string) (conn req : nat) (a : bool)
| Verdict (n : nat) (allow a : bool) | ConnEnd (stream : nat).
Definition step (s : st) (v : op) : st * list out :=
  match v with
  | AddService i t h p a1 a2 l => add_service i t h p a1 a2 l s | RemoveService i => remove_service i s | Deinit => deinit s
  | Limit t n a => limit t n a s | AddMeta i k x a => add_meta i k x a s | RemMeta i k => rem_meta i k s
  | Incoming p c x a => incoming p c x a s | ListServices c r a => list_services c r a s | GetService b i c r a => get_service b i c r a s
  | Verdict n y a => verdict n y a s | ConnEnd x => conn_end x s
  end.
Fixpoint run (s : st) (l : list op) : st * list out :=
  match l with [] => (s, []) | v :: l => let (s, o) := step s v in let (s, o') := run s l in (s, o ++ o') end.
