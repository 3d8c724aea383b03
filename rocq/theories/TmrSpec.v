(** * What the timers are for *)
From Coq Require Import List Bool NArith ZArith.
From Verif Require Import TmrModel.
Import ListNotations.
Open Scope N_scope.

(** The time which passes in a history. *)
Definition elapsed (l : list op) : N := fold_right (fun o n => match o with Tick d => d + n | _ => n end) 0 l.
(** No delay is set in it. *)
Definition unset (l : list op) : Prop := forall i f, ~ In (SetDelay i f) l.

Definition welapsed (l : list wop) : N := fold_right (fun o n => match o with WTick d => d + n | _ => n end) 0 l.
(** The state of the attacher does not change and the watchdog is neither made nor
    removed. *)
Definition still (l : list wop) : Prop := forall o, In o l -> match o with WTimeout _ | WTick _ | WRun => True | _ => False end.

(** The timeout of the watchdog after a history, [None] when there is none: ten
    minutes unless it was set. *)
Definition timeout_after (l : list wop) : option N :=
  fold_left (fun t o => match o with
                        | WInit => Some 600000
                        | WDeinit => None
                        | WTimeout ms => match t with Some _ => Some ms | None => None end
                        | _ => t
                        end) l None.
(** The state of the attacher after a history. *)
Definition phase_after (l : list wop) : phase :=
  fold_left (fun p o => match o with WChange q => q | _ => p end) l POther.
