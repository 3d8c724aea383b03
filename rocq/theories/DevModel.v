(** The life of a device: its configuration, start, close, stop and attach setting, nabto_device.c and nc_device.c, with the part of nc_attacher.c which they use.
    The sockets, the connections, the attacher and the platform complete their operations by events of their own ([Bound], [ConnsClosed], [AttachClosed],
    [PlatClosed], [Attempt]). Strings are on a heap, so that freed ones can be seen. *)
From Coq Require Import List Bool Arith NArith String.
Import ListNotations.

(** enum nc_device_state, nc_device.h 23-27. *)
Inductive phase := Setup | Running | Stopped.
(** The callback of socketBoundCompletionEvent. *)
Inductive stage := P2p | Local | Stun.
(** enum nc_attacher_module_state. *)
Inductive module := MSetup | MRunning | MClosed.
(** closedCb of the attacher: nc_device_attach_disabled_cb, nc_device_attach_closed_cb. *)
Inductive closed := CbDisabled | CbDevice.
Inductive field := Product | Device | Url | App | Version.
Definition field_eqb (a b : field) : bool := match a, b with Product, Product | Device, Device | Url, Url | App, App | Version, Version => true | _, _ => false end.
Definition ptr := nat.
Inductive code := Ok | InvalidState | InProgress | StoppedEc | TooLong | OutOfMemory | Other (n : nat).

(** struct nc_device_context and struct nabto_device_context; [v_conns]: closeCb of the connections is set; [v_plat]: the platform is closing; [v_closing]: set by
    nabto_device_stop. The attacher: [a_closing]: its close will be reported; [a_str]: its pointers to the strings. *)
Record dev := {
  v_phase : phase; v_key : bool; v_start_cb : bool; v_start_fut : option nat; v_close_cb : bool; v_close_fut : option nat;
  v_stage : option stage; v_conns : bool; v_plat : bool; v_closing : bool;
  v_attach : bool; v_mdns : bool; v_published : bool; v_recv : bool; v_ports : N * N;
  v_str : field -> option ptr; v_heap : list (ptr * string); v_next : ptr;
  a_module : module; a_closing : bool; a_cb : option closed; a_str : field -> option ptr }.

Definition set_phase x d := {| v_phase := x; v_key := v_key d; v_start_cb := v_start_cb d; v_start_fut := v_start_fut d; v_close_cb := v_close_cb d; v_close_fut := v_close_fut d; v_stage := v_stage d; v_conns := v_conns d; v_plat := v_plat d; v_closing := v_closing d; v_attach := v_attach d; v_mdns := v_mdns d; v_published := v_published d; v_recv := v_recv d; v_ports := v_ports d; v_str := v_str d; v_heap := v_heap d; v_next := v_next d; a_module := a_module d; a_closing := a_closing d; a_cb := a_cb d; a_str := a_str d |}.
Definition set_key x d := {| v_phase := v_phase d; v_key := x; v_start_cb := v_start_cb d; v_start_fut := v_start_fut d; v_close_cb := v_close_cb d; v_close_fut := v_close_fut d; v_stage := v_stage d; v_conns := v_conns d; v_plat := v_plat d; v_closing := v_closing d; v_attach := v_attach d; v_mdns := v_mdns d; v_published := v_published d; v_recv := v_recv d; v_ports := v_ports d; v_str := v_str d; v_heap := v_heap d; v_next := v_next d; a_module := a_module d; a_closing := a_closing d; a_cb := a_cb d; a_str := a_str d |}.
Definition set_start x y d := {| v_phase := v_phase d; v_key := v_key d; v_start_cb := x; v_start_fut := y; v_close_cb := v_close_cb d; v_close_fut := v_close_fut d; v_stage := v_stage d; v_conns := v_conns d; v_plat := v_plat d; v_closing := v_closing d; v_attach := v_attach d; v_mdns := v_mdns d; v_published := v_published d; v_recv := v_recv d; v_ports := v_ports d; v_str := v_str d; v_heap := v_heap d; v_next := v_next d; a_module := a_module d; a_closing := a_closing d; a_cb := a_cb d; a_str := a_str d |}.
Definition set_close x y d := {| v_phase := v_phase d; v_key := v_key d; v_start_cb := v_start_cb d; v_start_fut := v_start_fut d; v_close_cb := x; v_close_fut := y; v_stage := v_stage d; v_conns := v_conns d; v_plat := v_plat d; v_closing := v_closing d; v_attach := v_attach d; v_mdns := v_mdns d; v_published := v_published d; v_recv := v_recv d; v_ports := v_ports d; v_str := v_str d; v_heap := v_heap d; v_next := v_next d; a_module := a_module d; a_closing := a_closing d; a_cb := a_cb d; a_str := a_str d |}.
Definition set_stage x d := {| v_phase := v_phase d; v_key := v_key d; v_start_cb := v_start_cb d; v_start_fut := v_start_fut d; v_close_cb := v_close_cb d; v_close_fut := v_close_fut d; v_stage := x; v_conns := v_conns d; v_plat := v_plat d; v_closing := v_closing d; v_attach := v_attach d; v_mdns := v_mdns d; v_published := v_published d; v_recv := v_recv d; v_ports := v_ports d; v_str := v_str d; v_heap := v_heap d; v_next := v_next d; a_module := a_module d; a_closing := a_closing d; a_cb := a_cb d; a_str := a_str d |}.
Definition set_conns x d := {| v_phase := v_phase d; v_key := v_key d; v_start_cb := v_start_cb d; v_start_fut := v_start_fut d; v_close_cb := v_close_cb d; v_close_fut := v_close_fut d; v_stage := v_stage d; v_conns := x; v_plat := v_plat d; v_closing := v_closing d; v_attach := v_attach d; v_mdns := v_mdns d; v_published := v_published d; v_recv := v_recv d; v_ports := v_ports d; v_str := v_str d; v_heap := v_heap d; v_next := v_next d; a_module := a_module d; a_closing := a_closing d; a_cb := a_cb d; a_str := a_str d |}.
Definition set_plat x d := {| v_phase := v_phase d; v_key := v_key d; v_start_cb := v_start_cb d; v_start_fut := v_start_fut d; v_close_cb := v_close_cb d; v_close_fut := v_close_fut d; v_stage := v_stage d; v_conns := v_conns d; v_plat := x; v_closing := v_closing d; v_attach := v_attach d; v_mdns := v_mdns d; v_published := v_published d; v_recv := v_recv d; v_ports := v_ports d; v_str := v_str d; v_heap := v_heap d; v_next := v_next d; a_module := a_module d; a_closing := a_closing d; a_cb := a_cb d; a_str := a_str d |}.
Definition set_closing x d := {| v_phase := v_phase d; v_key := v_key d; v_start_cb := v_start_cb d; v_start_fut := v_start_fut d; v_close_cb := v_close_cb d; v_close_fut := v_close_fut d; v_stage := v_stage d; v_conns := v_conns d; v_plat := v_plat d; v_closing := x; v_attach := v_attach d; v_mdns := v_mdns d; v_published := v_published d; v_recv := v_recv d; v_ports := v_ports d; v_str := v_str d; v_heap := v_heap d; v_next := v_next d; a_module := a_module d; a_closing := a_closing d; a_cb := a_cb d; a_str := a_str d |}.
Definition set_attach x d := {| v_phase := v_phase d; v_key := v_key d; v_start_cb := v_start_cb d; v_start_fut := v_start_fut d; v_close_cb := v_close_cb d; v_close_fut := v_close_fut d; v_stage := v_stage d; v_conns := v_conns d; v_plat := v_plat d; v_closing := v_closing d; v_attach := x; v_mdns := v_mdns d; v_published := v_published d; v_recv := v_recv d; v_ports := v_ports d; v_str := v_str d; v_heap := v_heap d; v_next := v_next d; a_module := a_module d; a_closing := a_closing d; a_cb := a_cb d; a_str := a_str d |}.
Definition set_mdns x d := {| v_phase := v_phase d; v_key := v_key d; v_start_cb := v_start_cb d; v_start_fut := v_start_fut d; v_close_cb := v_close_cb d; v_close_fut := v_close_fut d; v_stage := v_stage d; v_conns := v_conns d; v_plat := v_plat d; v_closing := v_closing d; v_attach := v_attach d; v_mdns := x; v_published := v_published d; v_recv := v_recv d; v_ports := v_ports d; v_str := v_str d; v_heap := v_heap d; v_next := v_next d; a_module := a_module d; a_closing := a_closing d; a_cb := a_cb d; a_str := a_str d |}.
Definition set_recv x y d := {| v_phase := v_phase d; v_key := v_key d; v_start_cb := v_start_cb d; v_start_fut := v_start_fut d; v_close_cb := v_close_cb d; v_close_fut := v_close_fut d; v_stage := v_stage d; v_conns := v_conns d; v_plat := v_plat d; v_closing := v_closing d; v_attach := v_attach d; v_mdns := v_mdns d; v_published := y; v_recv := x; v_ports := v_ports d; v_str := v_str d; v_heap := v_heap d; v_next := v_next d; a_module := a_module d; a_closing := a_closing d; a_cb := a_cb d; a_str := a_str d |}.
Definition set_ports x d := {| v_phase := v_phase d; v_key := v_key d; v_start_cb := v_start_cb d; v_start_fut := v_start_fut d; v_close_cb := v_close_cb d; v_close_fut := v_close_fut d; v_stage := v_stage d; v_conns := v_conns d; v_plat := v_plat d; v_closing := v_closing d; v_attach := v_attach d; v_mdns := v_mdns d; v_published := v_published d; v_recv := v_recv d; v_ports := x; v_str := v_str d; v_heap := v_heap d; v_next := v_next d; a_module := a_module d; a_closing := a_closing d; a_cb := a_cb d; a_str := a_str d |}.
Definition set_str x y z d := {| v_phase := v_phase d; v_key := v_key d; v_start_cb := v_start_cb d; v_start_fut := v_start_fut d; v_close_cb := v_close_cb d; v_close_fut := v_close_fut d; v_stage := v_stage d; v_conns := v_conns d; v_plat := v_plat d; v_closing := v_closing d; v_attach := v_attach d; v_mdns := v_mdns d; v_published := v_published d; v_recv := v_recv d; v_ports := v_ports d; v_str := x; v_heap := y; v_next := z; a_module := a_module d; a_closing := a_closing d; a_cb := a_cb d; a_str := a_str d |}.
Definition set_att m c b d := {| v_phase := v_phase d; v_key := v_key d; v_start_cb := v_start_cb d; v_start_fut := v_start_fut d; v_close_cb := v_close_cb d; v_close_fut := v_close_fut d; v_stage := v_stage d; v_conns := v_conns d; v_plat := v_plat d; v_closing := v_closing d; v_attach := v_attach d; v_mdns := v_mdns d; v_published := v_published d; v_recv := v_recv d; v_ports := v_ports d; v_str := v_str d; v_heap := v_heap d; v_next := v_next d; a_module := m; a_closing := c; a_cb := b; a_str := a_str d |}.
Definition set_astr x d := {| v_phase := v_phase d; v_key := v_key d; v_start_cb := v_start_cb d; v_start_fut := v_start_fut d; v_close_cb := v_close_cb d; v_close_fut := v_close_fut d; v_stage := v_stage d; v_conns := v_conns d; v_plat := v_plat d; v_closing := v_closing d; v_attach := v_attach d; v_mdns := v_mdns d; v_published := v_published d; v_recv := v_recv d; v_ports := v_ports d; v_str := v_str d; v_heap := v_heap d; v_next := v_next d; a_module := a_module d; a_closing := a_closing d; a_cb := a_cb d; a_str := x |}.

(** nabto_device_new 73-180, nc_device_init 25-153, nc_attacher_init 100-158. *)
Definition init : dev := {|
  v_phase := Setup; v_key := false; v_start_cb := false; v_start_fut := None; v_close_cb := false; v_close_fut := None;
  v_stage := None; v_conns := false; v_plat := false; v_closing := false;
  v_attach := true; v_mdns := false; v_published := false; v_recv := false; v_ports := (5593, 5592)%N;
  v_str := fun _ => None; v_heap := []; v_next := 0;
  a_module := MSetup; a_closing := false; a_cb := None; a_str := fun _ => None |}.

Inductive event := Closed | Detached.
Inductive out :=
| Resolved (f : nat) (c : code)
| Bind (s : stage) (port : N)
| News (e : event)
| Attempted (host product device app version : string)
| Returned (c : code)
| Crash.

Inductive op :=
| Start (f : nat) (keys : code)          (* nabto_device_start; [keys]: what the TLS modules say to the keys *)
| Close (f : nat) (active : bool)        (* nabto_device_close; [active]: there are client connections *)
| Stop (active : bool)                   (* nabto_device_stop *)
| SetAttach (b keep : bool)              (* nabto_device_set_basestation_attach; [keep]: the close of the attacher is already in the event queue *)
| DisableRemote | EnableMdns | RootCerts
| SetKey (ok : bool)
| SetPorts (p2p local : N)
| SetStr (f : field) (v : string) (oom : bool)
| Bound (c : code) | ConnsClosed | AttachClosed | PlatClosed (c : code) | Attempt.

(** np_free and nn_strdup. *)
Definition upd (m : field -> option ptr) (f : field) (x : option ptr) : field -> option ptr := fun g => if field_eqb g f then x else m g.
Definition release (p : option ptr) (h : list (ptr * string)) : list (ptr * string) :=
  match p with Some p => filter (fun x => negb (Nat.eqb (fst x) p)) h | None => h end.
(** nc_device_set_app_name 573-580, nc_device_set_app_version 588-596, nc_device_set_product_id 604-612, nc_device_set_device_id 614-622, nc_device_set_server_url 624-632. *)
Definition assign (f : field) (v : string) (oom : bool) (d : dev) : dev * code :=
  let h := release (v_str d f) (v_heap d) in
  if oom then (set_str (upd (v_str d) f None) h (v_next d) d, OutOfMemory)
  else (set_str (upd (v_str d) f (Some (v_next d))) ((v_next d, v) :: h) (S (v_next d)) d, Ok).
Definition deref (p : ptr) (d : dev) : option string := option_map snd (find (fun x => Nat.eqb (fst x) p) (v_heap d)).

(** nabto_device_closed 637-642. *)
Definition device_closed (c : code) (d : dev) : dev * list out :=
  match v_close_fut d with
  | None => (d, [Crash])
  | Some f => (set_close (v_close_cb d) None d, [Resolved f c; News Closed])
  end.
(** nabto_device_core_closed_cb 653-661. *)
Definition core_closed (c : code) (d : dev) : dev * list out :=
  match c with Ok => (set_plat true d, []) | _ => device_closed c d end.
(** nabto_device_start_cb 478-483. *)
Definition started (c : code) (d : dev) : list out := match v_start_fut d with Some f => [Resolved f c] | None => [Crash] end.
(** nc_device_resolve_start_close_callbacks 210-227. *)
Definition resolve_both (c : code) (d : dev) : dev * list out :=
  let cl := v_close_cb d in let st := v_start_cb d in
  let d := set_start false (v_start_fut d) (set_close false (v_close_fut d) d) in
  let (d, l) := if cl then core_closed c d else (d, []) in
  (d, l ++ if st then started c d else []).

(** do_close 353-384 of nc_attacher.c. *)
Definition do_close (d : dev) : dev := set_att (match a_module d with MSetup => MSetup | _ => MClosed end) true (a_cb d) d.
(** nc_attacher_async_close 301-307. *)
Definition attacher_close (cb : closed) (d : dev) : dev := do_close (set_att (a_module d) (a_closing d) (Some cb) d).
(** nc_attacher_start 263-284. *)
Definition attacher_start (d : dev) : dev * code :=
  match a_module d with
  | MSetup => (set_att MRunning (a_closing d) (a_cb d) (set_astr (upd (a_str d) Url (v_str d Url)) d), Ok)
  | _ => (d, InvalidState)
  end.
(** nc_attacher_restart 286-299. *)
Definition attacher_restart (keep : bool) (d : dev) : dev * code :=
  match a_module d with
  | MClosed => (set_att MRunning (a_closing d && keep) (a_cb d) d, Ok)
  | _ => (d, InvalidState)
  end.
(** nc_attacher_set_app_info 224-232, nc_attacher_set_device_info 234-242. *)
Definition attacher_info (d : dev) : dev :=
  match a_module d with
  | MSetup => set_astr (fun f => match f with Url => a_str d Url | _ => v_str d f end) d
  | _ => d
  end.

Definition suffix : string := ".devices.nabto.net".
(** nc_device_populate_mdns 307-341: the length of the instance name. *)
Definition mdns_ok (d : dev) : bool :=
  match v_str d Product, v_str d Device with
  | Some p, Some i => match deref p d, deref i d with Some p, Some i => String.length p + 1 + String.length i <=? 63 | _, _ => false end
  | _, _ => false
  end.
(** nc_device_start 394-432; the default server url 408-416. Running out of memory is not modelled here. *)
Definition core_start (d : dev) : dev * code * list out :=
  match v_str d Product, v_str d Device with
  | Some p, Some _ =>
    let d := match v_str d Url, deref p d with None, Some v => fst (assign Url (v ++ suffix) false d) | _, _ => d end in
    if mdns_ok d
    then let d := attacher_info (set_phase Running d) in
         (set_stage (Some P2p) (set_start true (v_start_fut d) d), Ok, [Bind P2p (fst (v_ports d))])
    else (d, InvalidState, [])
  | _, _ => (d, InvalidState, [])
  end.
(** nabto_device_start 488-518, nc_device_set_keys 229-244, nc_attacher_set_keys 208-214. *)
Definition start (f : nat) (keys : code) (d : dev) : dev * list out :=
  let d := set_start (v_start_cb d) (Some f) d in
  if v_key d
  then match (match a_module d with MSetup => keys | _ => InvalidState end) with
       | Ok => match core_start d with
               | (d, Ok, l) => (d, l)
               | (d, c, l) => (d, l ++ [Resolved f c])
               end
       | c => (d, [Resolved f c])
       end
  else (d, [Resolved f InvalidState]).

(** nc_device_sockets_bound 343-390. *)
Definition sockets_bound (d : dev) : dev * list out :=
  match (if v_attach d then attacher_start d else (d, Ok)) with
  | (d, Ok) => resolve_both Ok (set_recv true (v_mdns d || v_published d) d)
  | (d, c) => resolve_both c d
  end.
(** nc_device_p2p_socket_bound_cb 283-304, nc_device_local_socket_bound_cb 261-281, nc_device_secondary_stun_socket_bound_cb 246-259. *)
Definition bound (c : code) (d : dev) : dev * list out :=
  match v_stage d with
  | None => (d, [])
  | Some s =>
    let d := set_stage None d in
    match v_phase d with
    | Stopped => resolve_both StoppedEc d
    | _ =>
      match c with
      | Ok => match s with
              | P2p => (set_stage (Some Local) d, [Bind Local (snd (v_ports d))])
              | Local => (set_stage (Some Stun) d, [Bind Stun 0%N])
              | Stun => sockets_bound d
              end
      | _ => resolve_both c (set_phase Stopped d)
      end
    end
  end.

(** nc_device_client_connections_closed_cb 448-452. *)
Definition conns_closed (d : dev) : dev := attacher_close CbDevice d.
(** nabto_device_close 663-682, nc_device_close 468-485, nc_connections_async_close 37-60 of nc_connection.c. *)
Definition close (f : nat) (active : bool) (d : dev) : dev * list out :=
  match v_close_fut d with
  | Some _ => (d, [Resolved f InProgress])
  | None =>
    match v_phase d with
    | Running => let d := set_phase Stopped (set_close true (Some f) d) in (if active then set_conns true d else conns_closed d, [])
    | _ => (d, [Resolved f InvalidState])
    end
  end.
(** nabto_device_stop 185-207, nc_device_stop 454-466, nc_attacher_stop 312-318. *)
Definition stop (active : bool) (d : dev) : dev * list out :=
  if v_closing d then (d, [])
  else let d := do_close (set_closing true (set_recv false (v_published d) (set_phase Stopped d))) in
       (if active then set_conns false d else d, []).
(** nc_device_attach_closed_cb 435-446, nc_device_attach_disabled_cb 653-655, resolve_close 386-395 of nc_attacher.c. *)
Definition attach_closed (d : dev) : dev * list out :=
  if a_closing d
  then let cb := a_cb d in
       let d := set_att (a_module d) false None d in
       match cb with
       | None => (d, [])
       | Some CbDisabled => (d, [News Detached])
       | Some CbDevice =>
         let d := set_recv false (v_published d) d in
         if v_close_cb d then core_closed Ok (set_close false (v_close_fut d) d) else (d, [])
       end
  else (d, []).
(** nc_device_set_basestation_attach 657-675. *)
Definition basestation_attach (b keep : bool) (d : dev) : dev * code :=
  match v_phase d, b with
  | Setup, _ => (set_attach b d, Ok)
  | Running, true => if v_attach d then attacher_restart keep d else attacher_start (set_attach true d)
  | Running, false => (attacher_close CbDisabled d, Ok)
  | Stopped, _ => (d, InvalidState)
  end.

Definition text (p : option ptr) (d : dev) : option string := match p with Some p => deref p d | None => Some ""%string end.
(** An attempt to attach: reattach 506-522 and handle_state_change 440-447 of nc_attacher.c (host name), encode_attach_start 330-342 of nc_attacher_attach_start.c. *)
Definition attempt (d : dev) : list out :=
  match a_module d with
  | MRunning =>
    match text (a_str d Url) d, text (a_str d Product) d, text (a_str d Device) d, text (a_str d App) d, text (a_str d Version) d with
    | Some h, Some p, Some i, Some a, Some v => [Attempted h p i a v]
    | _, _, _, _, _ => [Crash]
    end
  | _ => []
  end.

(** After nabto_device_stop the application calls nothing but free. *)
Definition step (o : op) (d : dev) : dev * list out :=
  match o with
  | Bound c => bound c d
  | ConnsClosed => if v_conns d then (conns_closed (set_conns false d), []) else (d, [])
  | AttachClosed => attach_closed d
  | PlatClosed c => if v_plat d then device_closed c (set_plat false d) else (d, [])
  | Attempt => (d, attempt d)
  | Stop a => stop a d
  | _ =>
    if v_closing d then (d, [])
    else match o with
         | Start f k => start f k d
         | Close f a => close f a d
         | SetAttach b k => let (d, c) := basestation_attach b k d in (d, [Returned c])
         | DisableRemote => match v_phase d with Setup => (set_attach false d, [Returned Ok]) | _ => (d, [Returned InvalidState]) end   (* 644-651 *)
         | EnableMdns => match v_phase d with Setup => (set_mdns true d, [Returned Ok]) | _ => (d, [Returned InvalidState]) end         (* 677-687 *)
         | RootCerts => (d, [Returned match a_module d with MSetup => Ok | _ => InvalidState end])   (* nc_attacher_set_root_certs 216-222 *)
         | SetKey b => (set_key b d, [Returned (if b then Ok else Other 0)])                         (* nabto_device_set_private_key 322-363 *)
         | SetPorts a b => (set_ports (a, b) d, [Returned Ok])                                       (* 424-441 of nabto_device.c *)
         | SetStr f v oom =>
           match f with
           | App | Version => if 32 <? String.length v then (d, [Returned TooLong]) else let (d, c) := assign f v oom d in (d, [Returned c])   (* 365-407 *)
           | _ => let (d, c) := assign f v oom d in (d, [Returned c])
           end
         | _ => (d, [])
         end
  end.

Fixpoint run (d : dev) (h : list op) : dev * list (op * list out) :=
  match h with
  | [] => (d, [])
  | o :: h => let (d1, l) := step o d in let (d2, t) := run d1 h in (d2, (o, l) :: t)
  end.
