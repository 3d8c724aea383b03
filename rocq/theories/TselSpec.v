(** * Specification of the TCP socket properties (C93) *)
From Coq Require Import List Arith Bool.
From Verif Require Import TselModel.
Import ListNotations.

(** How often something was asked for and completed. *)
Definition is_asked (k : kind) (x : out) : bool :=
  match x with Asked j => kind_eqb j k | _ => false end.
Definition is_done (k : kind) (x : out) : bool :=
  match x with Done j _ => kind_eqb j k | _ => false end.
Definition count (f : out -> bool) (o : list out) : nat := length (filter f o).

(** No request is completed more often than it was made. *)
Definition Once (o : list out) : Prop :=
  forall k a b, o = a ++ b -> count (is_done k) a <= count (is_asked k) a.

(** Every request is completed. *)
Definition AllDone (o : list out) : Prop :=
  forall k, count (is_done k) o = count (is_asked k) o.

(** The trace of writes, read from left to right.  [w] is what is left of
    the write in progress.  The kernel is given exactly the bytes of that
    write, in order; a write is reported OK only when all of them were
    given to the kernel. *)
Fixpoint Writes (w : option (list nat)) (o : list out) : Prop :=
  match o with
  | [] => True
  | Accepted d :: o' => w = None /\ Writes (Some d) o'
  | Sent x :: o' => exists rest, w = Some (x ++ rest) /\ Writes (Some rest) o'
  | Done Write EOk :: o' => w = Some [] /\ Writes None o'
  | Done Write EInProgress :: o' => w <> None /\ Writes w o'
  | Done Write _ :: o' => Writes None o'
  | _ :: o' => Writes w o'
  end.

(** Every connection which is reported was established by the kernel
    before, and each of them is reported once at most. *)
Definition is_established (x : out) : bool :=
  match x with Established => true | _ => false end.
Definition is_connected (x : out) : bool :=
  match x with Done Connect EOk => true | _ => false end.
Definition Connected (o : list out) : Prop :=
  forall a b, o = a ++ b -> count is_connected a <= count is_established a.

(** Histories in which the functions called by the core hold the lock of
    the select context: the network thread does not run inside a call, and
    no call runs while the network thread handles the result of select. *)
Definition allowed (s : st) (i : op) : bool :=
  match i with
  | Call _ | CStep _ => negb (locked s)
  | NStep _ => match cpc s with CIdle => true | _ => false end
  | _ => true
  end.

Fixpoint excl (s : st) (l : list op) : bool :=
  match l with
  | [] => true
  | i :: l' => allowed s i && excl (fst (step s i)) l'
  end.

Definition Exclusive (l : list op) : Prop := excl init l = true.

(** select never fails. *)
Definition SelectOk (l : list op) : Prop := forall i, In (NStep i) l -> err i = false.

(** The socket is readable and writable; nothing else happens which could
    wake the network thread. *)
Definition ready : net_in := NI false true true false RData (SBytes 1).
