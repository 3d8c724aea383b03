(** * Timers: the DTLS timer and the attach watchdog

    Models /repo/src/modules/mbedtls/nm_mbedtls_timer.c, the timestamps of
    /repo/src/platform/np_timestamp_wrapper.c which it uses, and
    /repo/src/core/nc_attacher_watchdog.c.

    Simplifications: time is counted in milliseconds without end, the clock of the
    platform shows its low 32 bits; the event queue keeps one deadline for a timed
    event and may run it at any moment from then on (this is what C27 proves of
    the queue); creating the events succeeds. *)
From Coq Require Import List Bool NArith ZArith.
Import ListNotations.
Open Scope N_scope.

Definition two32 : N := 4294967296.
Definition two31 : N := 2147483648.
(** np_timestamp_now_ms *)
Definition clock (now : N) : N := now mod two32.
(** np_timestamp_future, np_timestamp_wrapper.c:21-24 *)
Definition future (now ms : N) : N := (clock now + ms) mod two32.
(** np_timestamp_less_or_equal, np_timestamp_wrapper.c:16-19: the difference is
    taken modulo 2^32 and seen as a signed number *)
Definition less_or_equal (t1 t2 : N) : bool :=
  let d := (t1 + two32 - t2) mod two32 in (d =? 0) || (two31 <=? d).
(** np_timestamp_passed_or_now, np_timestamp_wrapper.c:8-11 *)
Definition passed_or_now (now stamp : N) : bool := less_or_equal stamp (clock now).

(** ** The DTLS timer *)

(** struct nm_mbedtls_timer, with the deadline of its event and the time *)
Record timer := { t_armed : bool; t_expired : bool; t_inter : N; t_event : option N; t_now : N }.
Inductive op := SetDelay (inter final : N) | GetDelay | Cancel | Tick (d : N) | Run.
(** [Delay z]: what get_delay returns; [Callback]: the callback of the timer is
    called. *)
Inductive out := Delay (z : Z) | Callback.

(** nm_mbedtls_timer_init, nm_mbedtls_timer.c:10-20 *)
Definition init (now : N) : timer := {| t_armed := false; t_expired := true; t_inter := 0; t_event := None; t_now := now |}.

(** nm_mbedtls_timer_set_delay, nm_mbedtls_timer.c:32-49 *)
Definition set_delay (i f : N) (t : timer) : timer :=
  if f =? 0 then {| t_armed := false; t_expired := false; t_inter := t_inter t; t_event := None; t_now := t_now t |}
  else {| t_armed := true; t_expired := false; t_inter := future (t_now t) i; t_event := Some (t_now t + f); t_now := t_now t |}.

(** nm_mbedtls_timer_get_delay, nm_mbedtls_timer.c:51-66 *)
Definition get_delay (t : timer) : Z :=
  (if t_armed t then
     if t_expired t then 2 else if passed_or_now (t_now t) (t_inter t) then 1 else 0
   else -1)%Z.

(** nm_mbedtls_timer_cancel, nm_mbedtls_timer.c:27-30 *)
Definition cancel (t : timer) : timer :=
  {| t_armed := t_armed t; t_expired := t_expired t; t_inter := t_inter t; t_event := None; t_now := t_now t |}.

Definition tick (d : N) (t : timer) : timer :=
  {| t_armed := t_armed t; t_expired := t_expired t; t_inter := t_inter t; t_event := t_event t; t_now := t_now t + d |}.

(** the event queue runs the event if it is due: timer_cb, nm_mbedtls_timer.c:68-73 *)
Definition run_event (t : timer) : timer * list out :=
  match t_event t with
  | Some d => if d <=? t_now t then ({| t_armed := t_armed t; t_expired := true; t_inter := t_inter t; t_event := None; t_now := t_now t |}, [Callback]) else (t, [])
  | None => (t, [])
  end.

Definition step (t : timer) (o : op) : timer * list out :=
  match o with
  | SetDelay i f => (set_delay i f t, [])
  | GetDelay => (t, [Delay (get_delay t)])
  | Cancel => (cancel t, [])
  | Tick d => (tick d t, [])
  | Run => run_event t
  end.

Fixpoint run (t : timer) (l : list op) : timer * list out :=
  match l with
  | [] => (t, [])
  | o :: l' => let (t1, x) := step t o in let (t2, y) := run t1 l' in (t2, x ++ y)
  end.

(** ** The watchdog *)

(** enum nc_attacher_attach_state, as far as the watchdog looks at it
    (nc_attacher_watchdog.c:44): attached, waiting after a refusal (which takes an
    hour, nc_attacher.c:21, 438), closed, or another one *)
Inductive phase := PAttached | PDenied | PClosed | POther.

(** struct nc_watchdog_ctx, with the deadline of its timer and the time; [None]:
    nc_attacher_watchdog_init was not called.  [a_phase]: the state of the attacher. *)
Record dog := { w_timeout : N; w_timer : option N }.
Record att := { a_dog : option dog; a_phase : phase; a_now : N }.
Inductive wop := WInit | WDeinit | WChange (p : phase) | WTimeout (ms : N) | WTick (d : N) | WRun.

(** WATCHDOG_TIMEOUT, nc_attacher_watchdog.c:5 *)
Definition watchdog_timeout : N := 600000.
(** ACCESS_DENIED_WAIT_TIME, nc_attacher.c:21 *)
Definition denied_wait : N := 3600000.

(** handle_state_changed, nc_attacher_watchdog.c:41-47 *)
Definition changed (now : N) (p : phase) (w : dog) : dog :=
  {| w_timeout := w_timeout w; w_timer := match p with PAttached => None | _ => Some (now + w_timeout w) end |}.

(** a device whose attacher was initialised, nc_attacher.c:107, without a watchdog *)
Definition att_init (now : N) : att := {| a_dog := None; a_phase := POther; a_now := now |}.

(** Each step says whether the watchdog reported a failure (timeout,
    nc_attacher_watchdog.c:49-53).  [WInit]: nc_attacher_watchdog_init 10-26;
    [WDeinit]: 28-33; [WChange]: the end of handle_state_change, nc_attacher.c:459-461,
    with nc_attacher_watchdog_state_changed 35-39; [WTimeout]:
    nc_attacher_watchdog_set_timeout 55-58.  Simplification: deinit leaves the
    listener registered, so that a change after it uses a destroyed event; here a
    removed watchdog hears of no more changes. *)
Definition wstep (s : att) (o : wop) : att * bool :=
  match o with
  | WInit => ({| a_dog := Some (changed (a_now s) (a_phase s) {| w_timeout := watchdog_timeout; w_timer := None |}); a_phase := a_phase s; a_now := a_now s |}, false)
  | WDeinit => ({| a_dog := None; a_phase := a_phase s; a_now := a_now s |}, false)
  | WChange p => ({| a_dog := match a_dog s with Some w => Some (changed (a_now s) p w) | None => None end; a_phase := p; a_now := a_now s |}, false)
  | WTimeout ms => ({| a_dog := match a_dog s with Some w => Some {| w_timeout := ms; w_timer := w_timer w |} | None => None end; a_phase := a_phase s; a_now := a_now s |}, false)
  | WTick d => ({| a_dog := a_dog s; a_phase := a_phase s; a_now := a_now s + d |}, false)
  | WRun =>
    match a_dog s with
    | Some w =>
      match w_timer w with
      | Some d => if d <=? a_now s then ({| a_dog := Some {| w_timeout := w_timeout w; w_timer := None |}; a_phase := a_phase s; a_now := a_now s |}, true) else (s, false)
      | None => (s, false)
      end
    | None => (s, false)
    end
  end.

Fixpoint wrun (s : att) (l : list wop) : att * list bool :=
  match l with
  | [] => (s, [])
  | o :: l' => let (s1, x) := wstep s o in let (s2, y) := wrun s1 l' in (s2, x :: y)
  end.

(** What nc_device.c does with the watchdog: nothing; nc_device_init
    (nc_device.c:26-155) and the rest of the file never call it, so the histories of
    a device have these steps only. *)
Definition device_op (o : wop) : bool := match o with WChange _ | WTick _ | WRun => true | _ => false end.
