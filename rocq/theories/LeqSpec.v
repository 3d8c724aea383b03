(** * C107: what an event queue is to do, from /repo/src/platform/interfaces/np_event_queue.h:33-95 *)
From Coq Require Import List NArith.
From Verif Require Import LeqModel.
Import ListNotations.

Definition reached (s : st) : Prop := exists l, run start l = Some s.

(** The callback is on its way, without another post: the loop has the event in hand, or
    two steps of the loop, once the application does not hold the mutex, run it. *)
Definition scheduled (s : st) : Prop :=
  lp s = Taken \/ exists s1, step (set_threads s Free Out) Take = Some s1 /\ exists s2, step s1 Enter = Some s2 /\ runs s2 = S (runs s).

(** How long a list of steps takes. *)
Definition time (l : list op) : N := fold_right (fun o n => match o with Tick ms => ms + n | _ => n end)%N 0%N l.

(** Reached without cancelling an event between a post and its callback. *)
Inductive calm : st -> Prop :=
| calm_start : calm start
| calm_step : forall s o s', calm s -> (o = Cancel -> posted s = false) -> step s o = Some s' -> calm s'.
