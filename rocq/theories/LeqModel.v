(** * An event of the queue on libevent

    Models /repo/src/nabto_device_libevent/libevent_event_queue.c:69-147 for one event,
    the thread of the loop and one thread of the application, which share the core mutex.

    libevent is not in the repository.  Assumed of it: event_active makes the event ready;
    event_add sets its time limit anew; the loop takes an event which is ready or whose
    time is over, after which it is neither; event_del makes it neither, and, called in
    another thread than the loop while the loop has the event in hand, waits until the
    callback has returned (threads are on, /repo/src/modules/libevent/nm_libevent.c:28).
    Simplifications: event_assign and event_add succeed; the callback is a number of runs,
    and what it does to the event are steps between its beginning and its end. *)
From Coq Require Import List Bool NArith.
Import ListNotations.

(** the thread of the loop: free, with the event in hand before the mutex, in the callback *)
Inductive loop := Free | Taken | Inside.
(** the thread of the application: without the mutex, with it, with it in event_del *)
Inductive app := Out | Holding | Deleting.
(** struct np_event, libevent_event_queue.c:31-37, with the state of libevent *)
Record st := { active : bool; due : option N; posted : bool; now : N; lp : loop; ap : app; runs : nat }.

Definition start : st := {| active := false; due := None; posted := false; now := 0; lp := Free; ap := Out; runs := 0 |}.

(** event_active, event_add, event_del *)
Definition event_active (s : st) : st := {| active := true; due := due s; posted := posted s; now := now s; lp := lp s; ap := ap s; runs := runs s |}.
Definition event_add (s : st) (ms : N) : st := {| active := active s; due := Some (now s + ms)%N; posted := posted s; now := now s; lp := lp s; ap := ap s; runs := runs s |}.
Definition event_del (s : st) : st := {| active := false; due := None; posted := posted s; now := now s; lp := lp s; ap := ap s; runs := runs s |}.
Definition set_posted (s : st) (b : bool) : st := {| active := active s; due := due s; posted := b; now := now s; lp := lp s; ap := ap s; runs := runs s |}.
Definition set_threads (s : st) (l : loop) (a : app) : st := {| active := active s; due := due s; posted := posted s; now := now s; lp := l; ap := a; runs := runs s |}.

(** post, libevent_event_queue.c:107-114 *)
Definition post (s : st) : st := event_active (set_posted s true).
(** post_maybe_double, libevent_event_queue.c:116-124 *)
Definition post_maybe_double (s : st) : st * bool := if posted s then (s, false) else (event_active (set_posted s true), true).
(** post_timed, libevent_event_queue.c:126-138 *)
Definition post_timed (s : st) (ms : N) : st := event_add s (ms / 1000 * 1000 + ms mod 1000)%N.

(** whether the loop would take the event *)
Definition ready (s : st) : bool := active s || match due s with Some t => N.leb t (now s) | None => false end.
(** whether a thread with the mutex runs: the callback, or the application *)
Definition locked (s : st) : bool := match lp s, ap s with Inside, _ => true | _, Holding => true | _, _ => false end.

Inductive op := Lock | Unlock | Post | PostMaybe | PostTimed (ms : N) | Cancel | Deleted | Take | Enter | Leave | Tick (ms : N).

(** One step; [None] if it cannot be made now.  The functions of the queue are called
    with the mutex; handle_event is libevent_event_queue.c:69-80, in the steps Enter and
    Leave; cancel is libevent_event_queue.c:140-143. *)
Definition step (s : st) (o : op) : option st :=
  match o with
  | Lock => match lp s, ap s with Inside, _ => None | l, Out => Some (set_threads s l Holding) | _, _ => None end
  | Unlock => match ap s with Holding => Some (set_threads s (lp s) Out) | _ => None end
  | Post => if locked s then Some (post s) else None
  | PostMaybe => if locked s then Some (fst (post_maybe_double s)) else None
  | PostTimed ms => if locked s then Some (post_timed s ms) else None
  | Cancel => if locked s then Some (match lp s with Taken => set_threads (event_del s) Taken Deleting | _ => event_del s end) else None
  | Deleted => match lp s, ap s with Free, Deleting => Some (set_threads s Free Holding) | _, _ => None end
  | Take => match lp s with Free => if ready s then Some (set_threads (event_del s) Taken (ap s)) else None | _ => None end
  | Enter => match lp s, ap s with
             | Taken, Out => Some {| active := active s; due := due s; posted := false; now := now s; lp := Inside; ap := Out; runs := S (runs s) |}
             | _, _ => None
             end
  | Leave => match lp s with Inside => Some (set_threads s Free (ap s)) | _ => None end
  | Tick ms => Some {| active := active s; due := due s; posted := posted s; now := (now s + ms)%N; lp := lp s; ap := ap s; runs := runs s |}
  end.

Fixpoint run (s : st) (l : list op) : option st :=
  match l with [] => Some s | o :: r => match step s o with Some s' => run s' r | None => None end end.
