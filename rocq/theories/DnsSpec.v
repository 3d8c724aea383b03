(** What resolving a hostname should do. *)
From Coq Require Import List Bool Arith.
From Verif Require Import DnsModel.
Import ListNotations.

(** The alternation of two lists; what is left of the longer one comes last. *)
Fixpoint alternate {A : Type} (l m : list A) : list A :=
  match l, m with
  | [], m => m
  | l, [] => l
  | x :: l, y :: m => x :: y :: alternate l m
  end.
Definition requested (id : nat) (l : list op) : nat := List.length (filter (fun v => match v with Resolve j _ _ _ _ => Nat.eqb j id | _ => false end) l).
Definition completed (id : nat) (o : list out) : nat := List.length (filter (fun x => match x with Completed j _ _ => Nat.eqb j id | _ => false end) o).
(** Nothing is left to happen by itself: no lookup runs and no callback waits. *)
Definition Quiet (s : st) : Prop := lk (s4 s) = Idle /\ lk (s6 s) = Idle /\ posted s = [].
(** What came of the lookups of the request started last. *)
Definition note (w : option (nat * nat) * option (ec * list addr) * option (ec * list addr)) (x : out) :=
  match x, w with
  | Started id n, _ => (Some (id, n), None, None)
  | Looked F4 e a, (c, _, r6) => (c, Some (e, a), r6)
  | Looked F6 e a, (c, r4, _) => (c, r4, Some (e, a))
  | _, w => w
  end.
Definition view (o : list out) := fold_left note o (None, None, None).
(** The result for two lookups. *)
Definition outcome (n : nat) (e4 : ec) (a4 : list addr) (e6 : ec) (a6 : list addr) (e : ec) (a : list addr) : Prop :=
  (e4 <> Ok /\ e6 <> Ok /\ e = e4) \/ ((e4 = Ok \/ e6 = Ok) /\ e = Ok /\ a = firstn n (alternate a4 a6)).
(** The system never has more addresses for a name than the array holds. *)
Definition Short (l : list op) : Prop := forall f a, In (Answer f (Some a)) l -> List.length a <= cap.
