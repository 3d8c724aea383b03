(** * Specification of the descriptor properties of the mDNS sockets (C96) *)
From Coq Require Import List Arith Bool.
From Verif Require Import MdbModel.
Import ListNotations.

Definition count (f : out -> bool) (o : list out) : nat := length (filter f o).
Definition is_opened (k : nat) (x : out) : bool := match x with Opened j => j =? k | _ => false end.
Definition is_closed (k : nat) (x : out) : bool := match x with Closed j => j =? k | _ => false end.

(** Nothing which belongs to somebody else, or is not open, is touched. *)
Definition Harmless (o : list out) : Prop :=
  forall k, ~ In (ClosedOther k) o /\ ~ In (ClosedNone k) o /\ ~ In (SentOther k) o.

(** No bind failed after its socket had been created. *)
Definition NoLateFailure (o : list out) : Prop :=
  (exists k, In (Opened k) o) -> In (Bound EOk) o.
