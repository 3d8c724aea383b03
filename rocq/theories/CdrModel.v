(** The event loops which drive the CoAP protocol: core/nc_coap_client.c (requests to the basestation) and core/nc_coap_server.c 34-242 (responses to clients). The protocol itself (nabto_coap, in a submodule which is not there) is an input: after each call into it, it wants something, and this stays so until the next call. *)
From Coq Require Import List Bool ZArith.
Import ListNotations.
Local Open Scope Z_scope.

(** enum nabto_coap_client_next_event, nabto_coap_server_next_event. WaitUntil t: t is the time of nabto_coap_*_get_next_timeout. Callback is wanted by the client only. *)
Inductive want := Callback | Send | WaitUntil (t : Z) | Nothing.
(** Stamps are numbers of milliseconds, uint32_t. *)
Definition two32 : Z := 4294967296.
Definition stamp (t : Z) : Z := t mod two32.
(** nabto_coap_is_stamp_less and nabto_coap_stamp_diff: the difference as an int32_t. Both are in the submodule; taken from their use. *)
Definition stamp_diff (a b : Z) : Z := let d := (a - b) mod two32 in if d <? 2147483648 then d else d - two32.
Definition stamp_less (a b : Z) : bool := stamp_diff a b <? 0.

(** What has become of the buffer of the driver: none, DTLS has it, or DTLS has refused it (and nobody frees it). *)
Inductive buffer := Free | InFlight | Refused.
Inductive out := Sent | Released | Called.   (* a packet is given to DTLS; its buffer is freed; a callback of the application *)
(** now: the time in ms, not wrapped. ev: the event is posted. timer: the timer is armed for that time. expiry: currentExpiry. last: when the expiry was last set to infinity (not in the code, for the statement of properties only). *)
Record st := { wants : want; buf : buffer; ev : bool; timer : option Z; expiry : Z; now : Z; last : Z }.
Definition set_wants (w : want) (s : st) : st := {| wants := w; buf := buf s; ev := ev s; timer := timer s; expiry := expiry s; now := now s; last := last s |}.
Definition set_buf (b : buffer) (s : st) : st := {| wants := wants s; buf := b; ev := ev s; timer := timer s; expiry := expiry s; now := now s; last := last s |}.
Definition set_ev (b : bool) (s : st) : st := {| wants := wants s; buf := buf s; ev := b; timer := timer s; expiry := expiry s; now := now s; last := last s |}.
Definition set_timer (t : option Z) (e : Z) (s : st) : st := {| wants := wants s; buf := buf s; ev := ev s; timer := t; expiry := e; now := now s; last := last s |}.
(** nc_coap_client_set_infinite_stamp, nc_coap_client.c 216-222; nc_coap_server_set_infinite_stamp, nc_coap_server.c 238-242. *)
Definition set_infinite (s : st) : st := {| wants := wants s; buf := buf s; ev := ev s; timer := timer s; expiry := stamp (stamp (now s) + 536870912); now := now s; last := now s |}.
(** nc_coap_client_init, 26-54; nc_coap_server_init, 34-63; t: the time then. *)
Definition init (t : Z) : st := {| wants := Nothing; buf := Free; ev := false; timer := None; expiry := stamp (stamp t + 536870912); now := t; last := t |}.

(** What happens during a send: al: the buffer is there; made: the protocol makes a packet; took: DTLS takes it (nm_mbedtls_cli.c 666-678, nm_mbedtls_srv.c 454-464: refused unless connected, without calling the completion event); w: what the protocol wants afterwards. *)
Record sending := { al : bool; made : bool; took : bool; after : want }.
(** nc_coap_client_handle_send, 91-126; nc_coap_server_handle_send, 107-152: None: the buffer is in use. The result of giving the packet to DTLS is not looked at. *)
Definition handle_send (y : sending) (s : st) : st * list out * bool :=
  match buf s with
  | Free =>
    if negb (al y) then (set_wants (after y) s, [], false) else
    if negb (made y) then (set_wants (after y) s, [], false) else
    (set_buf (if took y then InFlight else Refused) (set_wants (after y) s), [Sent], true)
  | _ => (s, [], true)
  end.
(** nc_coap_client_handle_wait, 128-141; nc_coap_server_handle_wait, 154-167; posting a timed event again moves it (nm_event_queue.c 61-81). *)
Definition handle_wait (t : Z) (s : st) : st :=
  if stamp_less (stamp t) (expiry s) then
    let d := stamp_diff (stamp t) (stamp (now s)) in
    let d := if d <? 0 then 0 else d in set_timer (Some (now s + d)) (stamp t) s
  else s.
(** nc_coap_client_event, 164-188; nc_coap_server_event, 87-105; nc_coap_client_handle_callback, 152-162. cw: what the protocol wants after a callback. *)
Definition event (cw : want) (y : sending) (s : st) : st * list out :=
  match wants s with
  | Callback => (set_wants cw (set_ev true s), [Called])
  | Send => match handle_send y s with (s, o, true) => (s, o) | (s, o, false) => (set_ev true s, o) end
  | WaitUntil t => (handle_wait t s, [])
  | Nothing => (s, [])
  end.

(** Packet w: a packet is handled; w: what is wanted then. App w: the application calls the protocol, which notifies. Gone w: a connection is removed: no notification. Event: the posted event. Timer w: the timer. Done: the completion of a send. Tick d: time passes. Stop w: nc_coap_client_stop, 67-73. *)
Inductive op := Packet (w : want) | App (w : want) | Gone (w : want) | Event | Timer (w : want) | Done | Tick (d : Z) | Stop (w : want).
Record env := { cw : want; sd : sending }.
Definition step (s : st) (v : op * env) : st * list out :=
  let (v, y) := v in
  match v with
  | Packet w => event (cw y) (sd y) (set_wants w s)
  | App w => (set_ev true (set_wants w s), [])
  | Gone w => (set_wants w s, [])
  | Event => if ev s then event (cw y) (sd y) (set_ev false s) else (s, [])
  | Timer w =>                                    (* nc_coap_client_handle_timeout, 143-150; nc_coap_server_handle_timeout, 169-176 *)
    match timer s with
    | Some t => if t <=? now s then event (cw y) (sd y) (set_wants w (set_infinite (set_timer None (expiry s) s))) else (s, [])
    | None => (s, [])
    end
  | Done =>                                       (* nc_coap_client_send_to_callback, 192-199; nc_coap_server_send_to_callback, 208-216 *)
    match buf s with InFlight => let (s, o) := event (cw y) (sd y) (set_buf Free s) in (s, Released :: o) | _ => (s, []) end
  | Tick d => ({| wants := wants s; buf := buf s; ev := ev s; timer := timer s; expiry := expiry s; now := now s + Z.max 0 d; last := last s |}, [])
  | Stop w => let (s, o) := event (cw y) (sd y) (set_wants w s) in (set_timer None (expiry s) s, o)
  end.
Fixpoint run (s : st) (l : list (op * env)) : st * list out :=
  match l with [] => (s, []) | v :: l => let (s, o) := step s v in let (s, o') := run s l in (s, o ++ o') end.
