(** What requests for endpoints should see. *)
From Coq Require Import List Bool Arith.
From Verif Require Import StunModel.
Import ListNotations.

Definition asked (id : nat) (o : list out) : nat := List.length (filter (fun x => match x with Asked j => Nat.eqb j id | _ => false end) o).
Definition responses (id : nat) (o : list out) : nat := List.length (filter (fun x => match x with Response j _ => Nat.eqb j id | _ => false end) o).
Definition answers (id : nat) (o : list out) : nat := List.length (filter (fun x => match x with Answered j _ => Nat.eqb j id | _ => false end) o).
Definition Fine (o : list out) : Prop := ~ In Crash o.
(** What the protocol wants, in an operation. *)
Definition wants (v : op) : option next := match v with DnsCb n | SendCb n | Timeout n | Packet n => Some n | _ => None end.
(** While it runs the protocol always wants something. *)
Definition Active (l : list (op * sys)) : Prop := forall v y, In (v, y) l -> wants v <> Some NoEvent /\ wants v <> Some Invalid.
(** Nothing is left to happen by itself: no lookup, no callback of a send, no timer. *)
Definition Quiet (s : st) : Prop := dns s = NoLookup /\ sendp s = false /\ timer s = false.
(** The endpoints of a response: at most two local addresses of that moment, and at most one external endpoint, found by an analysis. *)
Definition Endpoints (l : list (op * sys)) (le : list endpoint) : Prop :=
  exists v y p, In (v, y) l /\ (p = port y \/ p = 0) /\
    (le = map (fun a => Local a p) (firstn 2 (locals y)) \/ exists v' y' r, In (v', y') l /\ wants v' = Some (Completed r) /\ le = map (fun a => Local a p) (firstn 2 (locals y)) ++ [Extern r]).
(** The name is never replaced while a lookup is under way. *)
Definition Calm (thread : bool) (l : list (op * sys)) : Prop := forall l1 al y l2, l = l1 ++ (SetHost al, y) :: l2 -> dns (fst (run thread init l1)) <> Looking.
