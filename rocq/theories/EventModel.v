(** The event queue and its thread: src/modules/event_queue/nm_event_queue.c,
    src/modules/event_queue/thread_event_queue.c, src/platform/np_timestamp_wrapper.c.

    An event is a number. The linked lists of nn/llist (in a submodule which is not part of the
    repository) are lists; a node is in at most one of the two lists, as
    there is one node per event. The clock is the unbounded [st_now]; the code only
    sees its value modulo 2^32. Every operation runs under the queue mutex and is therefore one
    step, except for the queue thread which lets go of the mutex between taking an event and
    running it. *)
From Coq Require Import List Bool Arith NArith.
Import ListNotations.

Definition u32 (n : N) : N := (n mod 2 ^ 32)%N.
(** uint32_t subtraction. *)
Definition sub32 (a b : N) : N := u32 (u32 a + 2 ^ 32 - u32 b).

(** np_timestamp_wrapper.c 16-19 np_timestamp_less_or_equal: the difference as a
    signed number is not positive. *)
Definition less_or_equal (t1 t2 : N) : bool :=
  (N.eqb (sub32 t1 t2) 0 || N.leb (2 ^ 31) (sub32 t1 t2))%bool.

(** thread_event_queue.c 184-223 queue_thread, where the thread is. *)
Inductive thr :=
| TIdle                                  (* at the top of the loop *)
| TLook (t : N)                          (* has read the clock, will lock the queue *)
| TWait (until : option N) (lag : N)     (* in a condition wait; lag: time between reading the clock
                                            and going to sleep, a ghost *)
| TRun (e : nat)                         (* has an event, waits for the core mutex *)
| TBusy                                  (* in a callback *)
| TDone.                                 (* has returned *)

(** nm_event_queue.h 7-19. [st_freed]: destroyed events. *)
Record st := { st_now : N; st_events : list nat; st_timed : list (nat * N); st_freed : list nat;
               st_stopped : bool; st_thr : thr }.
Definition init (now : N) : st :=
  {| st_now := now; st_events := []; st_timed := []; st_freed := []; st_stopped := false; st_thr := TIdle |}.

Inductive op :=
| Post (e : nat)
| PostMaybe (e : nat)
| PostTimed (e : nat) (ms : N)
| Cancel (e : nat)
| Destroy (e : nat)
| Stop
| Advance (ms : N)                       (* time passes *)
| Wake                                   (* the condition wait returns without a reason *)
| Tick.                                  (* the queue thread takes its next step *)

Inductive out :=
| Accepted (b : bool)                    (* result of post_maybe_double *)
| ReadClock (t : N)
| Taken (e : nat)                        (* e is off the queue *)
| Sleeps                                 (* nothing to do *)
| Exits
| Ran (e : nat).                         (* the callback of e is called *)

Inductive res := Undef | Ok (s : st) (o : list out).

Definition memb (e : nat) (l : list nat) : bool := existsb (Nat.eqb e) l.
Definition in_list (s : st) (e : nat) : bool := (memb e (st_events s) || memb e (map fst (st_timed s)))%bool.

Definition with_queue (s : st) (ev : list nat) (ti : list (nat * N)) : st :=
  {| st_now := st_now s; st_events := ev; st_timed := ti; st_freed := st_freed s;
     st_stopped := st_stopped s; st_thr := st_thr s |}.
Definition with_thr (s : st) (t : thr) : st :=
  {| st_now := st_now s; st_events := st_events s; st_timed := st_timed s; st_freed := st_freed s;
     st_stopped := st_stopped s; st_thr := t |}.

Definition drop (e : nat) (l : list nat) : list nat := filter (fun x => negb (Nat.eqb e x)) l.
Definition drop_timed (e : nat) (l : list (nat * N)) : list (nat * N) :=
  filter (fun x => negb (Nat.eqb e (fst x))) l.

(** nm_event_queue.c 53-58 nm_event_queue_cancel_event. *)
Definition erase (s : st) (e : nat) : st :=
  with_queue s (drop e (st_events s)) (drop_timed e (st_timed s)).

(** nm_event_queue.c 34-51 nm_event_queue_post_event and
    nm_event_queue_post_event_maybe_double. *)
Definition append (s : st) (e : nat) : st :=
  if in_list s e then s else with_queue s (st_events s ++ [e]) (st_timed s).

(** nm_event_queue.c 67-79: the loop of nm_event_queue_post_timed_event. *)
Fixpoint insert (e : nat) (ts : N) (l : list (nat * N)) : list (nat * N) :=
  match l with
  | [] => [(e, ts)]
  | (f, x) :: l' => if less_or_equal ts x then (e, ts) :: l else (f, x) :: insert e ts l'
  end.

(** nm_event_queue.c 60-80 nm_event_queue_post_timed_event. *)
Definition post_timed (s : st) (e : nat) (ts : N) : st :=
  let s := erase s e in with_queue s (st_events s) (insert e ts (st_timed s)).

(** cond_signal: the waiting thread returns and starts over. *)
Definition signal (s : st) : st :=
  match st_thr s with TWait _ _ => with_thr s TIdle | _ => s end.

(** thread_event_queue.c 187-214: what the thread does with the queue. *)
Definition look (s : st) (t : N) : st * list out :=
  match st_events s with
  | e :: ev => (with_thr (with_queue s ev (st_timed s)) (TRun e), [Taken e])
  | [] =>
      match st_timed s with
      | (e, x) :: ti =>
          if less_or_equal x t then (with_thr (with_queue s [] ti) (TRun e), [Taken e])
          else if st_stopped s then (with_thr s TDone, [Exits])
          else (with_thr s (TWait (Some (st_now s + sub32 x t)%N) (st_now s - t)), [Sleeps])
      | [] => if st_stopped s then (with_thr s TDone, [Exits])
              else (with_thr s (TWait None (st_now s - t)), [Sleeps])
      end
  end.

(** thread_event_queue.c 184-223 queue_thread, one step. *)
Definition tick (s : st) : res :=
  match st_thr s with
  | TIdle => Ok (with_thr s (TLook (st_now s))) [ReadClock (st_now s)]
  | TLook t => let (s', o) := look s t in Ok s' o
  | TWait (Some d) _ => if N.leb d (st_now s) then Ok (with_thr s TIdle) [] else Ok s []
  | TWait None _ => Ok s []
  | TRun e => if memb e (st_freed s) then Undef else Ok (with_thr s TBusy) [Ran e]
  | TBusy => Ok (with_thr s TIdle) []
  | TDone => Ok s []
  end.

(** thread_event_queue.c 87-161: the operations of other threads and of callbacks. The memory of a
    destroyed event must not be used again. The second call of
    thread_event_queue_stop_blocking is not modelled here (it returns with the mutex locked). *)
Definition step (s : st) (o : op) : res :=
  match o with
  | Post e => if memb e (st_freed s) then Undef else Ok (signal (append s e)) []
  | PostMaybe e => if memb e (st_freed s) then Undef else Ok (signal (append s e)) [Accepted (negb (in_list s e))]
  | PostTimed e ms => if memb e (st_freed s) then Undef else Ok (signal (post_timed s e (u32 (st_now s + ms)))) []
  | Cancel e => if memb e (st_freed s) then Undef else Ok (erase s e) []
  | Destroy e =>
      if memb e (st_freed s) then Undef else
      Ok {| st_now := st_now s; st_events := drop e (st_events s); st_timed := drop_timed e (st_timed s);
            st_freed := e :: st_freed s; st_stopped := st_stopped s; st_thr := st_thr s |} []
  | Stop => Ok (signal {| st_now := st_now s; st_events := st_events s; st_timed := st_timed s;
                          st_freed := st_freed s; st_stopped := true; st_thr := st_thr s |}) []
  | Advance ms => Ok {| st_now := st_now s + ms; st_events := st_events s; st_timed := st_timed s;
                        st_freed := st_freed s; st_stopped := st_stopped s; st_thr := st_thr s |} []
  | Wake => Ok (signal s) []
  | Tick => tick s
  end.

(** A run and what was seen: each operation with its outputs. *)
Fixpoint run (s : st) (h : list op) : option (st * list (op * list out)) :=
  match h with
  | [] => Some (s, [])
  | o :: h' => match step s o with
               | Undef => None
               | Ok s1 o1 => match run s1 h' with
                             | Some (s2, t) => Some (s2, (o, o1) :: t)
                             | None => None
                             end
               end
  end.
