(** The attacher: src/core/nc_attacher.c, nc_attacher_attach_start.c, nc_attacher_attach_end.c, nc_attacher_sct.c, and
    nc_device_attach_disabled_cb of src/core/nc_device.c.

    One step is one call into the attacher: from the application, the DNS resolver, the event queue, the DTLS client or
    the CoAP client. The event queue of the attacher is a list which is run in order (property C27). The DTLS
    client may report an event before async_close or connect return; every caller in nc_attacher.c returns right after
    these calls, so the event is a step of its own here. The payload of packets, the endpoints packets are sent to and
    keep alive counters (KeepAliveModel.v) are not in this model. *)
From Coq Require Import List Bool Arith.
Import ListNotations.

(** nc_attacher.h: enum nc_attacher_attach_state, enum nc_attacher_module_state. *)
Inductive phase := Dns | Request | RetryWait | DeniedWait | Redirect | Attached | Closed.
Inductive module := Setup | Running | Stopped.

(** The host and port to attach to: those of the configuration, or those of a redirect. *)
Inductive target := Configured | Other (n : nat).

(** Events in the event queue: closeEv, resolveCompletionEvent, deferredHandleStateChange. *)
Inductive event := QClose | QDns (ok : bool) | QDeferred.

(** Who asked to be told that the attacher is closed: nc_device_close (nc_device_attach_closed_cb) or
    nc_device_set_basestation_attach(false) (nc_device_attach_disabled_cb). *)
Inductive closer := DeviceClose | Disable.

(** struct nc_attach_context. Connections of the DTLS client are numbered. [p_start], [p_end], [p_sct]: the callback is
    set, with the connection the request was made for; for uploads, whether the continuation is attach end. The
    versions are 64 bit, an overflow is not modelled. *)
Record st := {
  p_state : phase; p_mod : module; p_dtls : option nat; p_next : nat;
  p_host : option target; p_redirects : nat; p_dns : nat; p_queue : list event; p_timer : bool;
  p_cb : option closer; p_ka : bool;
  p_start : option (option nat); p_end : option (option nat); p_sct : option (option nat * bool);
  p_tokens : list nat; p_version : nat; p_synced : nat; p_uploading : nat }.

(** What may fail: nn_strdup in update_dns, create_attach_connection, building the three requests, nn_string_set_insert. *)
Record env := { e_dns : bool; e_create : bool; e_start : bool; e_sct : bool; e_end : bool; e_insert : bool }.
Definition good : env := {| e_dns := true; e_create := true; e_start := true; e_sct := true; e_end := true; e_insert := true |}.

(** NP_DTLS_EVENT_... *)
Inductive dtls := Handshake | DtlsClosed | AccessDenied | CertFailed.

(** What the server answers to attach start, as nc_attacher_attach_start.c 92-166 and 251-313 understands it. [NoMemory]: a
    redirect for which no memory can be allocated. [Nothing]: no answer, or one which is not understood. *)
Inductive answer := Accept | Goto (n : nat) | NoMemory | Unknown (n : nat) | Nothing.

Inductive code := Ok | InvalidState | OutOfMemory | InProgress.

Inductive news := NewsAttached | NewsDetached | NewsCert | NewsRefused (n : nat).

Inductive op :=
| Start | Restart | Close (k : closer) | Stop            (* nc_attacher_start, _restart, _async_close, _stop *)
| AddToken (t : nat) | Synchronized
| Resolved (ok : bool)                                   (* the resolver completes *)
| Run                                                    (* the event queue runs the next event *)
| Timer                                                  (* the reattach timer expires *)
| Dtls (c : nat) (e : dtls)                              (* the DTLS client reports an event of connection c *)
| StartAnswer (a : answer) | UploadAnswer (ok : bool) | EndAnswer (ok : bool)  (* CoAP handlers *)
| KeepAliveLost.                                         (* keep_alive_event with KA_TIMEOUT *)

Inductive out :=
| Resolve (t : target) | Connect (c : nat) | AsyncClose (c : nat) | Destroy (c : nat)
| SendStart (c : option nat) | SendEnd (c : option nat) | Upload (c : option nat) (l : list nat)
| Wait (s : nat)                                         (* the reattach timer is set, seconds *)
| News (n : news)                                        (* ctx->listener: the application is told *)
| ClosedCb (k : closer)                                  (* closedCb is called *)
| Return (c : code)
| Crash.                                                 (* NULL is dereferenced *)

Definition act := st -> st * list out.
Definition andthen (a b : act) : act := fun s => let (s1, o1) := a s in let (s2, o2) := b s1 in (s2, o1 ++ o2).
Definition say (o : out) : act := fun s => (s, [o]).
Definition nop : act := fun s => (s, []).

(** nc_attacher_init 101-160. *)
Definition init : st :=
  {| p_state := Dns; p_mod := Setup; p_dtls := None; p_next := 0; p_host := None; p_redirects := 0; p_dns := 0; p_queue := [];
     p_timer := false; p_cb := None; p_ka := false; p_start := None; p_end := None; p_sct := None;
     p_tokens := []; p_version := 0; p_synced := 0; p_uploading := 0 |}.

Definition set_state (x : phase) : act := fun s =>
  ({| p_state := x; p_mod := p_mod s; p_dtls := p_dtls s; p_next := p_next s; p_host := p_host s; p_redirects := p_redirects s;
      p_dns := p_dns s; p_queue := p_queue s; p_timer := p_timer s; p_cb := p_cb s; p_ka := p_ka s; p_start := p_start s;
      p_end := p_end s; p_sct := p_sct s; p_tokens := p_tokens s; p_version := p_version s; p_synced := p_synced s;
      p_uploading := p_uploading s |}, []).
Definition set_mod (x : module) : act := fun s =>
  ({| p_state := p_state s; p_mod := x; p_dtls := p_dtls s; p_next := p_next s; p_host := p_host s; p_redirects := p_redirects s;
      p_dns := p_dns s; p_queue := p_queue s; p_timer := p_timer s; p_cb := p_cb s; p_ka := p_ka s; p_start := p_start s;
      p_end := p_end s; p_sct := p_sct s; p_tokens := p_tokens s; p_version := p_version s; p_synced := p_synced s;
      p_uploading := p_uploading s |}, []).
Definition set_dtls (x : option nat) (n : nat) : act := fun s =>
  ({| p_state := p_state s; p_mod := p_mod s; p_dtls := x; p_next := n; p_host := p_host s; p_redirects := p_redirects s;
      p_dns := p_dns s; p_queue := p_queue s; p_timer := p_timer s; p_cb := p_cb s; p_ka := p_ka s; p_start := p_start s;
      p_end := p_end s; p_sct := p_sct s; p_tokens := p_tokens s; p_version := p_version s; p_synced := p_synced s;
      p_uploading := p_uploading s |}, []).
Definition set_host (x : option target) : act := fun s =>
  ({| p_state := p_state s; p_mod := p_mod s; p_dtls := p_dtls s; p_next := p_next s; p_host := x; p_redirects := p_redirects s;
      p_dns := p_dns s; p_queue := p_queue s; p_timer := p_timer s; p_cb := p_cb s; p_ka := p_ka s; p_start := p_start s;
      p_end := p_end s; p_sct := p_sct s; p_tokens := p_tokens s; p_version := p_version s; p_synced := p_synced s;
      p_uploading := p_uploading s |}, []).
Definition set_redirects (x : nat) : act := fun s =>
  ({| p_state := p_state s; p_mod := p_mod s; p_dtls := p_dtls s; p_next := p_next s; p_host := p_host s; p_redirects := x;
      p_dns := p_dns s; p_queue := p_queue s; p_timer := p_timer s; p_cb := p_cb s; p_ka := p_ka s; p_start := p_start s;
      p_end := p_end s; p_sct := p_sct s; p_tokens := p_tokens s; p_version := p_version s; p_synced := p_synced s;
      p_uploading := p_uploading s |}, []).
Definition set_dns (x : nat) : act := fun s =>
  ({| p_state := p_state s; p_mod := p_mod s; p_dtls := p_dtls s; p_next := p_next s; p_host := p_host s; p_redirects := p_redirects s;
      p_dns := x; p_queue := p_queue s; p_timer := p_timer s; p_cb := p_cb s; p_ka := p_ka s; p_start := p_start s;
      p_end := p_end s; p_sct := p_sct s; p_tokens := p_tokens s; p_version := p_version s; p_synced := p_synced s;
      p_uploading := p_uploading s |}, []).
Definition set_queue (x : list event) : act := fun s =>
  ({| p_state := p_state s; p_mod := p_mod s; p_dtls := p_dtls s; p_next := p_next s; p_host := p_host s; p_redirects := p_redirects s;
      p_dns := p_dns s; p_queue := x; p_timer := p_timer s; p_cb := p_cb s; p_ka := p_ka s; p_start := p_start s;
      p_end := p_end s; p_sct := p_sct s; p_tokens := p_tokens s; p_version := p_version s; p_synced := p_synced s;
      p_uploading := p_uploading s |}, []).
Definition set_timer (x : bool) : act := fun s =>
  ({| p_state := p_state s; p_mod := p_mod s; p_dtls := p_dtls s; p_next := p_next s; p_host := p_host s; p_redirects := p_redirects s;
      p_dns := p_dns s; p_queue := p_queue s; p_timer := x; p_cb := p_cb s; p_ka := p_ka s; p_start := p_start s;
      p_end := p_end s; p_sct := p_sct s; p_tokens := p_tokens s; p_version := p_version s; p_synced := p_synced s;
      p_uploading := p_uploading s |}, []).
Definition set_cb (x : option closer) : act := fun s =>
  ({| p_state := p_state s; p_mod := p_mod s; p_dtls := p_dtls s; p_next := p_next s; p_host := p_host s; p_redirects := p_redirects s;
      p_dns := p_dns s; p_queue := p_queue s; p_timer := p_timer s; p_cb := x; p_ka := p_ka s; p_start := p_start s;
      p_end := p_end s; p_sct := p_sct s; p_tokens := p_tokens s; p_version := p_version s; p_synced := p_synced s;
      p_uploading := p_uploading s |}, []).
Definition set_ka (x : bool) : act := fun s =>
  ({| p_state := p_state s; p_mod := p_mod s; p_dtls := p_dtls s; p_next := p_next s; p_host := p_host s; p_redirects := p_redirects s;
      p_dns := p_dns s; p_queue := p_queue s; p_timer := p_timer s; p_cb := p_cb s; p_ka := x; p_start := p_start s;
      p_end := p_end s; p_sct := p_sct s; p_tokens := p_tokens s; p_version := p_version s; p_synced := p_synced s;
      p_uploading := p_uploading s |}, []).
Definition set_start (x : option (option nat)) : act := fun s =>
  ({| p_state := p_state s; p_mod := p_mod s; p_dtls := p_dtls s; p_next := p_next s; p_host := p_host s; p_redirects := p_redirects s;
      p_dns := p_dns s; p_queue := p_queue s; p_timer := p_timer s; p_cb := p_cb s; p_ka := p_ka s; p_start := x;
      p_end := p_end s; p_sct := p_sct s; p_tokens := p_tokens s; p_version := p_version s; p_synced := p_synced s;
      p_uploading := p_uploading s |}, []).
Definition set_end (x : option (option nat)) : act := fun s =>
  ({| p_state := p_state s; p_mod := p_mod s; p_dtls := p_dtls s; p_next := p_next s; p_host := p_host s; p_redirects := p_redirects s;
      p_dns := p_dns s; p_queue := p_queue s; p_timer := p_timer s; p_cb := p_cb s; p_ka := p_ka s; p_start := p_start s;
      p_end := x; p_sct := p_sct s; p_tokens := p_tokens s; p_version := p_version s; p_synced := p_synced s;
      p_uploading := p_uploading s |}, []).
Definition set_sct (x : option (option nat * bool)) (synced uploading : nat) : act := fun s =>
  ({| p_state := p_state s; p_mod := p_mod s; p_dtls := p_dtls s; p_next := p_next s; p_host := p_host s; p_redirects := p_redirects s;
      p_dns := p_dns s; p_queue := p_queue s; p_timer := p_timer s; p_cb := p_cb s; p_ka := p_ka s; p_start := p_start s;
      p_end := p_end s; p_sct := x; p_tokens := p_tokens s; p_version := p_version s; p_synced := synced;
      p_uploading := uploading |}, []).
Definition set_tokens (l : list nat) (v : nat) : act := fun s =>
  ({| p_state := p_state s; p_mod := p_mod s; p_dtls := p_dtls s; p_next := p_next s; p_host := p_host s; p_redirects := p_redirects s;
      p_dns := p_dns s; p_queue := p_queue s; p_timer := p_timer s; p_cb := p_cb s; p_ka := p_ka s; p_start := p_start s;
      p_end := p_end s; p_sct := p_sct s; p_tokens := l; p_version := v; p_synced := p_synced s;
      p_uploading := p_uploading s |}, []).

(** np_event_queue_post: an event which is posted stays where it is in the queue. *)
Definition is_event (a b : event) : bool :=
  match a, b with QClose, QClose => true | QDns _, QDns _ => true | QDeferred, QDeferred => true | _, _ => false end.
Definition post (x : event) : act := fun s =>
  if existsb (is_event x) (p_queue s) then (s, []) else set_queue (p_queue s ++ [x]) s.

(** ctx->pl->dtlsC.async_close(ctx->dtls): nothing but an error code for NULL. *)
Definition close_dtls : act := fun s => match p_dtls s with Some c => (s, [AsyncClose c]) | None => (s, []) end.

(** RETRY_WAIT_TIME, ACCESS_DENIED_WAIT_TIME 21-22, in seconds. *)
Definition retry_wait : nat := 10.
Definition denied_wait : nat := 3600.
(** MAX_REDIRECT_FOLLOW 23. *)
Definition max_redirect : nat := 5.

(** handle_state_change 422-462; dns_start_resolve 464-468. The state listener (the watchdog) is not modelled. *)
Definition handle_state_change (e : env) : act := fun s =>
  match p_state s with
  | Dns => match p_host s with
           | Some t => andthen (set_dns (S (p_dns s))) (say (Resolve t)) s
           | None => (s, [Crash])
           end
  | Closed => post QClose s
  | Redirect => (s, [])
  | RetryWait => andthen (set_timer true) (say (Wait retry_wait)) s
  | DeniedWait => andthen (set_timer true) (say (Wait denied_wait)) s
  | Request => if e_create e
               then andthen (set_dtls (Some (p_next s)) (S (p_next s))) (say (Connect (p_next s))) s
               else andthen (set_dtls None (p_next s)) (andthen (set_state RetryWait) (post QDeferred)) s
  | Attached => (s, [])
  end.
(** ctx->state = x; handle_state_change(ctx). *)
Definition go (e : env) (x : phase) : act := andthen (set_state x) (handle_state_change e).

(** reattach 506-523, update_dns 251-261. *)
Definition reattach (e : env) : act := fun s =>
  match p_mod s with
  | Stopped => go e Closed s
  | _ => if e_dns e
         then andthen (set_host (Some Configured)) (andthen (set_redirects 0) (go e Dns)) s
         else andthen (set_host None) (go e RetryWait) s
  end.

(** nc_attacher_start 263-284. *)
Definition start (e : env) : act := fun s =>
  match p_mod s with
  | Setup => if e_dns e
             then andthen (set_host (Some Configured)) (andthen (set_mod Running) (andthen (go e Dns) (say (Return Ok)))) s
             else andthen (set_host None) (say (Return OutOfMemory)) s
  | _ => (s, [Return InvalidState])
  end.

(** nc_attacher_restart 286-299. *)
Definition restart (e : env) : act := fun s =>
  match p_mod s with
  | Stopped => andthen (set_mod Running) (andthen (match p_state s with Closed => reattach e | _ => nop end) (say (Return Ok))) s
  | _ => (s, [Return InvalidState])
  end.

(** do_close 353-384. *)
Definition do_close (e : env) : act := fun s =>
  match p_mod s with
  | Setup => post QClose s
  | _ => andthen (set_mod Stopped)
           (match p_state s with
            | RetryWait | DeniedWait => andthen (set_timer false) (go e Closed)
            | Closed => post QClose
            | Request | Attached => close_dtls
            | Dns | Redirect => nop
            end) s
  end.

(** resolve_close 386-395; nc_device_attach_disabled_cb (nc_device.c 653-655) tells the application. *)
Definition resolve_close : act := fun s =>
  andthen (set_timer false)
    (match p_cb s with
     | Some k => andthen (set_cb None) (fun s => (s, match k with Disable => [ClosedCb k; News NewsDetached] | DeviceClose => [ClosedCb k] end))
     | None => nop
     end) s.

(** dns_resolved_callback 470-504. *)
Definition dns_resolved (e : env) (ok : bool) : act := fun s =>
  match p_mod s with
  | Stopped => go e Closed s
  | _ => if ok then go e Request s else go e RetryWait s
  end.

(** reset_dtls_connection 554-572. The requests of the connection fail from now on. *)
Definition reset_dtls : act := fun s =>
  andthen (set_ka false)
  (andthen (fun s => match p_dtls s with Some c => andthen (set_dtls None (p_next s)) (say (Destroy c)) s | None => (s, []) end)
           (fun s => match p_state s with Attached => (s, [News NewsDetached]) | _ => (s, []) end)) s.

(** nc_attacher_attach_start_request 32-90 of nc_attacher_attach_start.c; send_attach_start_request 630-636. *)
Definition send_start (e : env) : act := fun s =>
  match p_start s with
  | Some _ => close_dtls s
  | None => if e_start e then andthen (set_start (Some (p_dtls s))) (say (SendStart (p_dtls s))) s else close_dtls s
  end.

(** nc_attacher_sct_upload 17-80 of nc_attacher_sct.c. *)
Inductive upload := NoOperation | Failed | Begun.
Definition sct_upload (e : env) (attaching : bool) (s : st) : upload * (st * list out) :=
  if Nat.eqb (p_version s) (p_synced s) then (NoOperation, (s, []))
  else match p_sct s with
       | Some _ => (Failed, (s, []))
       | None => if e_sct e
                 then (Begun, andthen (set_sct (Some (p_dtls s, attaching)) (p_synced s) (p_version s)) (say (Upload (p_dtls s) (p_tokens s))) s)
                 else (Failed, (s, []))
       end.

(** nc_attacher_attach_end_request of nc_attacher_attach_end.c; send_attach_end_request 717-723. *)
Definition send_end (e : env) : act := fun s =>
  match p_end s with
  | Some _ => close_dtls s
  | None => if e_end e then andthen (set_end (Some (p_dtls s))) (say (SendEnd (p_dtls s))) s else close_dtls s
  end.

(** send_attach_sct_request 667-679. *)
Definition send_attach_sct (e : env) : act := fun s =>
  let s := fst (set_sct (p_sct s) 0 (p_uploading s) s) in
  match sct_upload e true s with
  | (NoOperation, _) => send_end e s
  | (Begun, r) => r
  | (Failed, _) => close_dtls s
  end.

(** send_sct_request 697-705. *)
Definition send_sct (e : env) : act := fun s => snd (sct_upload e false s).

(** dtls_event_handler 525-548 with handle_dtls_closed 574-601, handle_dtls_access_denied 608-615,
    handle_dtls_certificate_verification_failed 617-628. *)
Definition dtls_event (e : env) (v : dtls) : act := fun s =>
  match p_mod s, v with
  | Stopped, Handshake => close_dtls s
  | Stopped, _ => andthen reset_dtls (go e Closed) s
  | _, Handshake => send_start e s
  | _, DtlsClosed =>
    andthen reset_dtls
      (match p_state s with
       | Redirect => if Nat.leb max_redirect (p_redirects s) then go e RetryWait else go e Dns
       | DeniedWait => nop
       | _ => go e RetryWait
       end) s
  | _, AccessDenied => andthen reset_dtls (go e DeniedWait) s
  | _, CertFailed => andthen reset_dtls (andthen (say (News NewsCert)) (go e RetryWait)) s
  end.

(** coap_attach_start_handler 315-329 of nc_attacher_attach_start.c; coap_attach_start_callback 638-665. redirectAttempts
    has 8 bits. *)
Definition start_answer (e : env) (a : answer) : act := fun s =>
  andthen (set_start None)
  (andthen (match a with Goto n => set_host (Some (Other n)) | NoMemory => set_host None | _ => nop end)
   (match p_mod s with
    | Stopped => close_dtls
    | _ => match a with
           | Accept => send_attach_sct e
           | Goto _ => andthen (set_state Redirect) (andthen (set_redirects ((p_redirects s + 1) mod 256)) close_dtls)
           | Unknown n => andthen (say (News (NewsRefused n))) close_dtls
           | NoMemory | Nothing => close_dtls
           end
    end)) s.

(** sct_request_handler 82-105 of nc_attacher_sct.c; send_attach_sct_request_callback 681-695; send_sct_request_callback 707-715.
    [ok]: the code which the CoAP library reports, 0 or anything without a response, is 2.xx. *)
Definition upload_answer (e : env) (attaching ok : bool) : act := fun s =>
  andthen (set_sct None (if ok then p_uploading s else p_synced s) (p_uploading s))
    (if attaching
     then match p_mod s with
          | Stopped => close_dtls
          | _ => if ok then send_end e else close_dtls
          end
     else if ok then send_sct e else nop) s.

(** coap_attach_end_handler 726-751. *)
Definition end_answer (e : env) (ok : bool) : act := fun s =>
  andthen (set_end None)
    (if ok then match p_mod s with
                | Stopped => close_dtls
                | _ => andthen (set_ka true) (andthen (go e Attached) (andthen (say (News NewsAttached)) (send_sct e)))
                end
     else close_dtls) s.

(** nc_attacher_add_server_connect_token 320-333. A token which is in the set already is in the list twice here. *)
Definition add_token (e : env) (t : nat) : act := fun s =>
  if e_insert e
  then andthen (set_tokens (p_tokens s ++ [t]) (S (p_version s)))
         (andthen (match p_state s with Attached => send_sct e | _ => nop end) (say (Return Ok))) s
  else andthen (set_tokens (p_tokens s) (S (p_version s))) (say (Return OutOfMemory)) s.

(** nc_attacher_is_server_connect_tokens_synchronized 337-347. *)
Definition synchronized : act := fun s =>
  match p_state s with
  | Attached => (s, [Return (if Nat.eqb (p_synced s) (p_version s) then Ok else InProgress)])
  | _ => (s, [Return Ok])
  end.

Definition step (e : env) (o : op) (s : st) : st * list out :=
  match o with
  | Start => start e s
  | Restart => restart e s
  | Close k => andthen (set_cb (Some k)) (do_close e) s                        (* 301-307 *)
  | Stop => andthen (set_ka false) (do_close e) s                              (* 312-318 *)
  | AddToken t => add_token e t s
  | Synchronized => synchronized s
  | Resolved ok => match p_dns s with
                   | O => (s, [])
                   | S n => andthen (set_dns n) (post (QDns ok)) s
                   end
  | Run => match p_queue s with
           | [] => (s, [])
           | x :: q => andthen (set_queue q)
                         (match x with
                          | QClose => resolve_close
                          | QDns ok => dns_resolved e ok
                          | QDeferred => post QDeferred                        (* handle_state_change_deferred 417-420 *)
                          end) s
           end
  | Timer => if p_timer s then andthen (set_timer false) (reattach e) s else (s, [])
  | Dtls c v => dtls_event e v s
  | StartAnswer a => match p_start s with Some _ => start_answer e a s | None => (s, []) end
  | UploadAnswer ok => match p_sct s with Some (_, b) => upload_answer e b ok s | None => (s, []) end
  | EndAnswer ok => match p_end s with Some _ => end_answer e ok s | None => (s, []) end
  | KeepAliveLost =>                                                           (* keep_alive_event 851-873 *)
    if p_ka s then andthen (set_ka false) (fun s => match p_dtls s with Some c => (s, [AsyncClose c]) | None => (s, [Crash]) end) s
    else (s, [])
  end.

Definition move := (op * env)%type.
Fixpoint run (s : st) (h : list move) : st * list (move * list out) :=
  match h with
  | [] => (s, [])
  | (o, e) :: h => let (s1, l) := step e o s in let (s2, t) := run s1 h in (s2, ((o, e), l) :: t)
  end.
