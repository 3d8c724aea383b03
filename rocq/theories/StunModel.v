(** STUN analyses: core/nc_stun.c, and requests for the endpoints of the device, core/nc_stun_coap.c. The protocol itself (nabto_stun, in a submodule which is not there) is an input: what it wants next is an argument of each event. *)
From Coq Require Import List Bool Arith.
Import ListNotations.

Inductive ec := Ok | Aborted | InvalidState | SocketError | NoEndpoints | Failed | DnsError.
(** enum nc_stun_state, nc_stun.h 43-49. *)
Inductive phase := PNone | Resolving | Running | Done | PAborted.
(** enum nabto_stun_next_event_type; ep: nabto_stun_get_data_endpoint succeeds; ext: the result. *)
Inductive next := SendPrimary (ep : bool) | SendSecondary (ep : bool) | Wait | NoEvent | Completed (ext : nat) | ProtocolFailed | Invalid.
(** What the system does while requests are answered: the local addresses (two at most are asked for, np_local_ip_get_local_ips), the local port and the allocations of the response. *)
Record sys := { locals : list nat; port : nat; buf_ok : bool; pay_ok : bool }.
Inductive endpoint := Local (ip port : nat) | Extern (ep : nat).
Inductive response := Content (l : list endpoint) | Error500.
Inductive out :=
| Asked (id : nat)                          (* a request for endpoints *)
| Accepted (id : nat)                       (* its analysis is accepted *)
| Answered (id : nat) (e : ec)              (* the callback of the analysis *)
| Response (id : nat) (r : response)        (* the response to the request *)
| Sent (primary : bool)
| Crash.                                    (* the name is read after it was freed *)
Inductive lookup := NoLookup | Looking | LookedUp (e : ec).
(** waiting: cbs. host: the name, told apart by a number; thread: the resolver reads the name later, in its thread (modules/dns/unix/nm_unix_dns.c) instead of when asked (libevent); unread: the names it was given and has not read. sendp: sendCompletionEvent is posted. timer: toEv is posted. *)
Record st := { ph : phase; waiting : list nat; host : option nat; names : nat; unread : list nat; pri : bool; sec : bool; dns : lookup; sendp : bool; timer : bool; cur_ec : ec; res : nat; dead : bool }.
(** nc_stun_init, 51-89. *)
Definition init : st := {| ph := PNone; waiting := []; host := None; names := 0; unread := []; pri := false; sec := false; dns := NoLookup; sendp := false; timer := false; cur_ec := Ok; res := 0; dead := false |}.
Definition set_ph (p : phase) (s : st) : st := {| ph := p; waiting := waiting s; host := host s; names := names s; unread := unread s; pri := pri s; sec := sec s; dns := dns s; sendp := sendp s; timer := timer s; cur_ec := cur_ec s; res := res s; dead := dead s |}.
Definition set_waiting (w : list nat) (s : st) : st := {| ph := ph s; waiting := w; host := host s; names := names s; unread := unread s; pri := pri s; sec := sec s; dns := dns s; sendp := sendp s; timer := timer s; cur_ec := cur_ec s; res := res s; dead := dead s |}.
Definition set_dns (u : list nat) (d : lookup) (s : st) : st := {| ph := ph s; waiting := waiting s; host := host s; names := names s; unread := u; pri := pri s; sec := sec s; dns := d; sendp := sendp s; timer := timer s; cur_ec := cur_ec s; res := res s; dead := dead s |}.
Definition set_io (p t : bool) (s : st) : st := {| ph := ph s; waiting := waiting s; host := host s; names := names s; unread := unread s; pri := pri s; sec := sec s; dns := dns s; sendp := p; timer := t; cur_ec := cur_ec s; res := res s; dead := dead s |}.
Definition set_result (e : ec) (r : nat) (s : st) : st := {| ph := ph s; waiting := waiting s; host := host s; names := names s; unread := unread s; pri := pri s; sec := sec s; dns := dns s; sendp := sendp s; timer := timer s; cur_ec := e; res := r; dead := dead s |}.
Definition set_sockets (p q : bool) (s : st) : st := {| ph := ph s; waiting := waiting s; host := host s; names := names s; unread := unread s; pri := p; sec := q; dns := dns s; sendp := sendp s; timer := timer s; cur_ec := cur_ec s; res := res s; dead := dead s |}.

(** nc_rendezvous_endpoints_completed, nc_stun_coap.c 85-158: the local addresses, then the external one if there is one. ENDPOINTS_RESPONSE_ENDPOINTS_MAX - 1 is 2. The local port is 0 without a socket. The cbor encoding is CborModel. *)
Definition respond (y : sys) (id : nat) (e : ec) (s : st) : list out :=
  let l := map (fun a => Local a (if pri s then port y else 0)) (firstn 2 (locals y)) ++ match e with Ok => [Extern (res s)] | _ => [] end in
  [Answered id e; Response id (if buf_ok y then if pay_ok y then Content l else Error500 else Error500)].
(** nc_stun_resolve_callbacks, 353-363. A callback does not start an analysis. *)
Definition resolve_all (y : sys) (s : st) : st * list out := (set_waiting [] s, flat_map (fun id => respond y id (cur_ec s) s) (waiting s)).
(** nc_stun_resolve_callbacks_error, 344-349. *)
Definition resolve_error (y : sys) (e : ec) (s : st) : st * list out := resolve_all y (set_result e (res s) (set_ph Done s)).
(** nc_stun_event, 209-283. The events of a send are posted by the socket at once (nm_select_unix_udp.c 132-138). *)
Definition event (y : sys) (n : next) (s : st) : st * list out :=
  let s := set_io (sendp s) false s in
  match n with
  | SendPrimary ep => if negb (pri s) then resolve_error y SocketError s else if negb ep then resolve_error y NoEndpoints s else (set_io true (timer s) s, [Sent true])
  | SendSecondary ep => if negb (sec s) then resolve_error y SocketError s else if negb ep then resolve_error y NoEndpoints s else (set_io true (timer s) s, [Sent false])
  | Wait => (set_io (sendp s) true s, [])
  | NoEvent => (s, [])
  | Completed r => resolve_all y (set_result Ok r (set_ph Done s))
  | ProtocolFailed => resolve_error y Failed s
  | Invalid => (s, [])
  end.
Definition is_running (p : phase) : bool := match p with Running => true | _ => false end.
(** nc_stun_async_analyze_simple, 140-167. Each family of addresses is looked up with the same name. *)
Definition analyze (thread : bool) (id : nat) (s : st) : (st * list out) + ec :=
  match ph s with
  | PAborted => inr Aborted
  | p => match host s with
         | None => inr InvalidState
         | Some h =>
           let s := set_waiting (waiting s ++ [id]) s in
           match p with
           | Resolving | Running => inl (s, [Accepted id])
           | _ => inl (set_dns (if thread then unread s ++ [h; h] else unread s) Looking (set_ph Resolving s), [Accepted id])
           end
         end
  end.
(** nc_rendezvous_handle_coap_p2p_endpoints, nc_stun_coap.c 160-180; al: the allocation. *)
Definition get (thread : bool) (y : sys) (id : nat) (al : bool) (s : st) : st * list out :=
  if negb al then (s, [Asked id; Response id Error500]) else
  match analyze thread id s with
  | inl (s, o) => (s, Asked id :: o)
  | inr e => (s, Asked id :: respond y id e s)
  end.
(** nc_stun_set_host, 120-131: the old name is freed; al: nn_strdup succeeds. *)
Definition set_host (al : bool) (s : st) : st * list out :=
  ({| ph := ph s; waiting := waiting s; host := if al then Some (S (names s)) else None; names := S (names s); unread := unread s; pri := pri s; sec := sec s; dns := dns s; sendp := sendp s; timer := timer s; cur_ec := cur_ec s; res := res s; dead := dead s |}, []).
(** The thread of the resolver reads a name (getaddrinfo): it must still be there. *)
Definition read (s : st) : st * list out :=
  match unread s with
  | [] => (s, [])
  | h :: u => match host s with
              | Some g => if Nat.eqb g h then (set_dns u (dns s) s, []) else ({| ph := ph s; waiting := waiting s; host := host s; names := names s; unread := u; pri := pri s; sec := sec s; dns := dns s; sendp := sendp s; timer := timer s; cur_ec := cur_ec s; res := res s; dead := true |}, [Crash])
              | None => ({| ph := ph s; waiting := waiting s; host := host s; names := names s; unread := u; pri := pri s; sec := sec s; dns := dns s; sendp := sendp s; timer := timer s; cur_ec := cur_ec s; res := res s; dead := true |}, [Crash])
              end
  end.
(** The lookups end (DnsModel): the completion event is posted. *)
Definition looked (ok : bool) (s : st) : st * list out :=
  match dns s, unread s with Looking, [] => (set_dns [] (LookedUp (if ok then Ok else DnsError)) s, []) | _, _ => (s, []) end.
(** nc_stun_dns_cb, 285-303. *)
Definition dns_cb (y : sys) (n : next) (s : st) : st * list out :=
  match dns s with
  | LookedUp e =>
    let s := set_dns (unread s) NoLookup s in
    match ph s with
    | PAborted => resolve_all y (set_result Aborted (res s) s)
    | _ => match e with Ok => event y n (set_ph Running s) | _ => resolve_error y e s end
    end
  | _ => (s, [])
  end.
(** nc_stun_send_to_cb, 305-315; nc_stun_handle_timeout, 317-326; nc_stun_handle_packet, 170-190. *)
Definition send_cb (y : sys) (n : next) (s : st) : st * list out :=
  if sendp s then let s := set_io false (timer s) s in if is_running (ph s) then event y n s else (s, []) else (s, []).
Definition timeout (y : sys) (n : next) (s : st) : st * list out :=
  if timer s then let s := set_io (sendp s) false s in if is_running (ph s) then event y n s else (s, []) else (s, []).
Definition packet (y : sys) (n : next) (s : st) : st * list out := if is_running (ph s) then event y n s else (s, []).
(** nc_stun_stop, 91-97. *)
Definition stop (y : sys) (s : st) : st * list out := resolve_all y (set_result Aborted (res s) (set_ph PAborted s)).

Inductive op :=
| Get (id : nat) (al : bool) | SetHost (al : bool) | Read | Looked (ok : bool) | DnsCb (n : next) | SendCb (n : next) | Timeout (n : next) | Packet (n : next) | Sockets (p q : bool) | Stop.
Definition step (thread : bool) (s : st) (v : op * sys) : st * list out :=
  let (v, y) := v in
  if dead s then (s, []) else
  match v with
  | Get id al => get thread y id al s
  | SetHost al => set_host al s
  | Read => read s
  | Looked ok => looked ok s
  | DnsCb n => dns_cb y n s
  | SendCb n => send_cb y n s
  | Timeout n => timeout y n s
  | Packet n => packet y n s
  | Sockets p q => (set_sockets p q s, [])
  | Stop => stop y s
  end.
Fixpoint run (thread : bool) (s : st) (l : list (op * sys)) : st * list out :=
  match l with [] => (s, []) | v :: l => let (s, o) := step thread s v in let (s, o') := run thread s l in (s, o ++ o') end.
