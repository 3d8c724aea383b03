(** Futures and the future queue of the device API: src/api/nabto_device_future.c, nabto_device_future.h,
    nabto_device_future_queue.c.

    A future is a number. Every function locks the mutex of the future around all it does and is one step,
    except for the queue thread, which has the steps pop, take and call, and for the waits, which sleep on
    the condition variable. Error codes, callbacks, their data and threads are numbers. The build with
    NABTO_DEVICE_NO_FUTURE_QUEUE, which uses an event in place of the queue, is not modelled. *)
From Coq Require Import List Bool Arith.
Import ListNotations.

(** nabto_device_future.h 16-33 struct nabto_device_future. *)
Record fut := { f_ready : bool; f_ec : nat; f_cb : option nat; f_data : nat; f_freed : bool }.

(** A thread in nabto_device_future_wait or _timed_wait; [w_signal]: the condition variable has chosen it. *)
Record waiter := { w_thread : nat; w_fut : nat; w_timed : bool; w_signal : bool }.

(** nabto_device_future_queue.c 67-89 execution_thread, where it is. *)
Inductive qthr := QIdle | QPopped (f : nat) | QCall (f c : nat) | QDone.

Record st := { s_futs : nat -> fut; s_queue : list nat; s_thr : qthr; s_stop : bool; s_wait : list waiter }.

(** nabto_device_future_new 16-48: zeroed memory. All futures are there from the start. *)
Definition init : st :=
  {| s_futs := fun _ => {| f_ready := false; f_ec := 0; f_cb := None; f_data := 0; f_freed := false |};
     s_queue := []; s_thr := QIdle; s_stop := false; s_wait := [] |}.

Definition upd (m : nat -> fut) (f : nat) (v : fut) : nat -> fut := fun x => if Nat.eqb x f then v else m x.
Definition set_fut (s : st) (f : nat) (v : fut) : st :=
  {| s_futs := upd (s_futs s) f v; s_queue := s_queue s; s_thr := s_thr s; s_stop := s_stop s; s_wait := s_wait s |}.
Definition set_queue (s : st) (q : list nat) : st :=
  {| s_futs := s_futs s; s_queue := q; s_thr := s_thr s; s_stop := s_stop s; s_wait := s_wait s |}.
Definition set_thr (s : st) (t : qthr) : st :=
  {| s_futs := s_futs s; s_queue := s_queue s; s_thr := t; s_stop := s_stop s; s_wait := s_wait s |}.
Definition set_wait (s : st) (w : list waiter) : st :=
  {| s_futs := s_futs s; s_queue := s_queue s; s_thr := s_thr s; s_stop := s_stop s; s_wait := w |}.

Inductive op :=
| Reset (f : nat)                   (* an operation is started with the future *)
| Resolve (f ec : nat)              (* the operation is done *)
| SetCb (f c d : nat)
| ErrorCode (f : nat)               (* also nabto_device_future_ready *)
| Wait (t f : nat)                  (* thread t calls wait *)
| TimedWait (t f : nat)
| Wake (t : nat)                    (* thread t comes out of the condition wait: signalled, timed out or spurious *)
| Free (f : nat)
| QStep                             (* the queue thread *)
| QStop.

Inductive out :=
| Code (ec : nat)                   (* nabto_device_future_error_code returns *)
| Ret (t ec : nat)                  (* a wait of thread t returns *)
| Call (f c ec d : nat).            (* the callback c of future f is called with code ec and data d *)

(** NABTO_DEVICE_EC_FUTURE_NOT_RESOLVED (np_error_code.h 28); 0 is NABTO_DEVICE_EC_OK. The number does not matter. *)
Definition not_resolved : nat := 11.

(** nabto_device_future_queue.c 59-65 nabto_device_future_queue_post; None: the node is in the list already and
    appending it again corrupts the list. *)
Definition queue_post (s : st) (f : nat) : option st :=
  if existsb (Nat.eqb f) (s_queue s) then None else Some (set_queue s (s_queue s ++ [f])).

(** nabto_device_threads_cond_signal: one thread which waits on the condition and is not chosen yet. *)
Fixpoint signal (f : nat) (l : list waiter) : list waiter :=
  match l with
  | [] => []
  | w :: l => if (Nat.eqb (w_fut w) f && negb (w_signal w))%bool
              then {| w_thread := w_thread w; w_fut := f; w_timed := w_timed w; w_signal := true |} :: l
              else w :: signal f l
  end.

Fixpoint get_waiter (t : nat) (l : list waiter) : option (waiter * list waiter) :=
  match l with
  | [] => None
  | w :: l => if Nat.eqb (w_thread w) t then Some (w, l)
              else match get_waiter t l with Some (w', l') => Some (w', w :: l') | None => None end
  end.

(** nabto_device_future.c 142-151 nabto_device_future_reset. *)
Definition reset (v : fut) : fut :=
  {| f_ready := false; f_ec := 0; f_cb := None; f_data := 0; f_freed := f_freed v |}.

(** nabto_device_future.c 165-183 nabto_device_future_resolve. *)
Definition resolve (s : st) (f ec : nat) : option st :=
  let v := s_futs s f in
  let s := set_fut s f {| f_ready := true; f_ec := ec; f_cb := f_cb v; f_data := f_data v; f_freed := f_freed v |} in
  match f_cb v with
  | Some _ => queue_post s f
  | None => Some (set_wait s (signal f (s_wait s)))
  end.

(** nabto_device_future.c 71-90 nabto_device_future_set_callback. *)
Definition set_callback (s : st) (f c d : nat) : option st :=
  let v := s_futs s f in
  let s := set_fut s f {| f_ready := f_ready v; f_ec := f_ec v; f_cb := Some c; f_data := d; f_freed := f_freed v |} in
  if f_ready v then queue_post s f else Some s.

(** nabto_device_future.c 127-140 nabto_device_future_error_code. *)
Definition error_code (v : fut) : nat := if f_ready v then f_ec v else not_resolved.

(** Out of the condition wait: nabto_device_future.c 98-103 (wait) and 110-122 (timed wait). *)
Definition wait_result (timed : bool) (v : fut) : nat :=
  if timed then (if f_ready v then f_ec v else not_resolved) else f_ec v.

(** One step; None: undefined behaviour (a freed future is used, a list is corrupted). *)
Definition step (s : st) (o : op) : option (st * list out) :=
  let alive f k := if f_freed (s_futs s f) then None else k in
  match o with
  | Reset f => alive f (Some (set_fut s f (reset (s_futs s f)), []))
  | Resolve f ec => alive f (match resolve s f ec with Some s => Some (s, []) | None => None end)
  | SetCb f c d => alive f (match set_callback s f c d with Some s => Some (s, []) | None => None end)
  | ErrorCode f => alive f (Some (s, [Code (error_code (s_futs s f))]))
  | Wait t f =>
    alive f (if f_ready (s_futs s f) then Some (s, [Ret t (f_ec (s_futs s f))])
             else Some (set_wait s (s_wait s ++ [{| w_thread := t; w_fut := f; w_timed := false; w_signal := false |}]), []))
  | TimedWait t f =>
    alive f (if f_ready (s_futs s f) then Some (s, [Ret t (f_ec (s_futs s f))])
             else Some (set_wait s (s_wait s ++ [{| w_thread := t; w_fut := f; w_timed := true; w_signal := false |}]), []))
  | Wake t =>
    match get_waiter t (s_wait s) with
    | None => Some (s, [])
    | Some (w, l) => alive (w_fut w) (Some (set_wait s l, [Ret t (wait_result (w_timed w) (s_futs s (w_fut w)))]))
    end
  | Free f =>                                                        (* 51-64 *)
    alive f (Some (set_fut s f (let v := s_futs s f in
      {| f_ready := f_ready v; f_ec := f_ec v; f_cb := f_cb v; f_data := f_data v; f_freed := true |}), []))
  | QStep =>
    match s_thr s with
    | QIdle =>                                                       (* nabto_device_future_queue.c 71-85 *)
      match s_queue s with
      | f :: q => alive f (Some (set_thr (set_queue s q) (QPopped f), []))
      | [] => Some (if s_stop s then set_thr s QDone else s, [])     (* returns, or waits *)
      end
    | QPopped f =>                                                   (* nabto_device_future.c 154-159 *)
      let v := s_futs s f in
      alive f (Some (set_thr (set_fut s f {| f_ready := f_ready v; f_ec := f_ec v; f_cb := None;
                                             f_data := f_data v; f_freed := f_freed v |})
                             (match f_cb v with Some c => QCall f c | None => QIdle end), []))
    | QCall f c =>                                                   (* 160-162, without the mutex *)
      alive f (Some (set_thr s QIdle, [Call f c (f_ec (s_futs s f)) (f_data (s_futs s f))]))
    | QDone => Some (s, [])
    end
  | QStop => Some ({| s_futs := s_futs s; s_queue := s_queue s; s_thr := s_thr s; s_stop := true; s_wait := s_wait s |}, [])
  end.

Fixpoint run (s : st) (h : list op) : option (st * list (op * list out)) :=
  match h with
  | [] => Some (s, [])
  | o :: h => match step s o with
              | None => None
              | Some (s1, l) => match run s1 h with Some (s2, t) => Some (s2, (o, l) :: t) | None => None end
              end
  end.
