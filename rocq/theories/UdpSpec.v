(** * Specification of the UDP socket properties (C92)

    Everything here speaks of what can be observed: descriptors opened and
    closed, answers to bind calls, packets delivered to the device and
    platform failures reported to the application. *)
From Coq Require Import List Arith Bool.
From Verif Require Import UdpModel.
Import ListNotations.

Definition is_opened (k : nat) (x : out) : bool :=
  match x with Opened j => Nat.eqb j k | _ => false end.
Definition is_closed (k : nat) (x : out) : bool :=
  match x with Closed j => Nat.eqb j k | _ => false end.
Definition count (f : out -> bool) (o : list out) : nat := length (filter f o).

(** Nothing which belongs to somebody else, or is not open, is touched. *)
Definition Harmless (o : list out) : Prop :=
  forall k, ~ In (ClosedOther k) o /\ ~ In (ClosedNone k) o /\ ~ In (ReadOther k) o.

(** Every descriptor is closed as often as it was opened. *)
Definition Balanced (o : list out) : Prop :=
  forall k, count (is_opened k) o = count (is_closed k) o.

(** At most one descriptor more is open than was closed. *)
Definition OneOpen (o : list out) : Prop :=
  forall k, count (is_opened k) o <= S (count (is_closed k) o).

(** The socket is not bound again once it has been bound, i.e. the device
    is not started again. *)
Definition NoRebind (o : list out) : Prop :=
  forall a b e, o = a ++ Bound EOk :: b -> ~ In (Bound e) b.

(** No bind failed because the operating system refused something. *)
Definition AllBound (o : list out) : Prop :=
  forall e, In (Bound e) o -> e = EOk \/ e = EAborted.

(** Packets given to the device, packets read from the socket. *)
Definition delivered (o : list out) : list nat :=
  flat_map (fun x => match x with Deliver q => [q] | _ => [] end) o.
Definition arrived (l : list op) : list nat :=
  flat_map (fun i => match i with Dispatch true (RPacket q) => [q] | _ => [] end) l.

Inductive Sub {A} : list A -> list A -> Prop :=
  | Sub_nil : Sub [] []
  | Sub_skip : forall x a b, Sub a b -> Sub a (x :: b)
  | Sub_take : forall x a b, Sub a b -> Sub (x :: a) (x :: b).

(** Number of times reception was started. *)
Definition starts (l : list op) : nat :=
  length (filter (fun i => match i with StartRecv => true | _ => false end) l).
