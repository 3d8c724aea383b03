(** The lock skeletons of the API: src/api, modules/event_queue/thread_event_queue.c and nabto_device_libevent/nabto_platform_libevent.c. A function is a command which keeps what the
    code does with locks, condition variables, threads and the core, and the structure of its control flow; conditions are choices. The skeletons are in LockCode.v.
    This file has the commands and their executions. *)
From Coq Require Import List Bool Arith String.
Import ListNotations.

(** The kinds of mutexes: dev->eventMutex which is queue->coreMutex, fut->mutex of a future, queue->mutex of the future queue, queue->queueMutex of the event queue. *)
Inductive lock := Core | Fut | FQ | EvQ.
Inductive cmd :=
| Skip
| Lock (l : lock)      (* nabto_device_threads_mutex_lock *)
| Unlock (l : lock)    (* nabto_device_threads_mutex_unlock *)
| Wait (l : lock)      (* nabto_device_threads_cond_wait, nabto_device_threads_cond_timed_wait *)
| Join                 (* nabto_device_threads_join *)
| User                 (* a callback of the user is called: fut->cb in nabto_device_future_popped *)
| Ext                  (* a function of the core is called: it uses the state of the core, and calls callbacks of the API *)
| Listener             (* listener->cb of nabto_device_listener.c *)
| Touch                (* a list of the device or of a listener is used: nn_llist functions in nabto_device_listener.c *)
| Call (f : string)    (* a function which has a skeleton *)
| Seq (a b : cmd) | If (a b : cmd) | Loop (a : cmd) | Block (a : cmd) (* switch *) | Ret | Brk | Cont.
Notation "a ;; b" := (Seq a b) (at level 60, right associativity).

(** What is seen of an execution. *)
Inductive act := ALock (l : lock) | AUnlock (l : lock) | AWait (l : lock) | AJoin | AUser | ATouch.
(** How an execution ends; Cut: it has not ended. *)
Inductive exit := Norm | Returned | Broke | Continued | CutOff.

(** A program: the functions, those which users call (api), the callbacks which the core calls (callbacks), those which listeners call. *)
Record program := { code : list (string * cmd); api : list string; callbacks : list string; listeners : list string }.
Definition body (p : program) (f : string) : option cmd := option_map snd (find (fun x => String.eqb (fst x) f) (code p)).

Inductive exec (p : program) : cmd -> list act -> exit -> Prop :=
| e_cut : forall c, exec p c [] CutOff
| e_skip : exec p Skip [] Norm
| e_lock : forall l, exec p (Lock l) [ALock l] Norm
| e_unlock : forall l, exec p (Unlock l) [AUnlock l] Norm
| e_wait : forall l, exec p (Wait l) [AWait l] Norm
| e_join : exec p Join [AJoin] Norm
| e_touch : exec p Touch [ATouch] Norm
| e_ret : exec p Ret [] Returned
| e_brk : exec p Brk [] Broke
| e_cont : exec p Cont [] Continued
| e_if_l : forall a b t e, exec p a t e -> exec p (If a b) t e
| e_if_r : forall a b t e, exec p b t e -> exec p (If a b) t e
| e_seq_end : forall a b t e, exec p a t e -> e <> Norm -> exec p (Seq a b) t e
| e_seq : forall a b t t' e, exec p a t Norm -> exec p b t' e -> exec p (Seq a b) (t ++ t') e
| e_loop_end : forall a, exec p (Loop a) [] Norm
| e_loop_out : forall a t e, exec p a t e -> e = Returned \/ e = CutOff -> exec p (Loop a) t e
| e_loop_brk : forall a t, exec p a t Broke -> exec p (Loop a) t Norm
| e_loop : forall a t t' e e', exec p a t e -> e = Norm \/ e = Continued -> exec p (Loop a) t' e' -> exec p (Loop a) (t ++ t') e'
| e_block : forall a t e, exec p a t e -> e <> Broke -> exec p (Block a) t e
| e_block_brk : forall a t, exec p a t Broke -> exec p (Block a) t Norm
| e_call : forall f c t e, body p f = Some c -> exec p c t e -> e = Norm \/ e = Returned -> exec p (Call f) t Norm
| e_call_cut : forall f c t, body p f = Some c -> exec p c t CutOff -> exec p (Call f) t CutOff
| e_ext : forall t e, some p (callbacks p) t e -> exec p Ext (ATouch :: t) e
| e_listener : forall f t e, In f (listeners p) -> exec p (Call f) t e -> exec p Listener t e
| e_user : forall t e, some p (api p) t e -> exec p User (AUser :: t) e
(** Any number of calls of functions of a list. *)
with some (p : program) : list string -> list act -> exit -> Prop :=
| s_nil : forall fs, some p fs [] Norm
| s_cut : forall fs f t, In f fs -> exec p (Call f) t CutOff -> some p fs t CutOff
| s_cons : forall fs f t t' e, In f fs -> exec p (Call f) t Norm -> some p fs t' e -> some p fs (t ++ t') e.
Scheme exec_mind := Minimality for exec Sort Prop with some_mind := Minimality for some Sort Prop.
Combined Scheme exec_both from exec_mind, some_mind.
