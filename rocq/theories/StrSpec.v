(** What is seen of the operations of a stream. *)
From Coq Require Import List Bool Arith.
From Verif Require Import StrModel.
Import ListNotations.

Definition trace : Type := list (move * list out).
Definition outs (t : trace) : list out := flat_map snd t.

(** There are four kinds of operations, the two reads are one kind. *)
Inductive kind := KAccept | KRead | KWrite | KClose.
Definition started1 (o : op) : option (kind * nat) :=
  match o with Accept e => Some (KAccept, e) | Read _ e _ => Some (KRead, e) | Write e _ => Some (KWrite, e) | Close e => Some (KClose, e) | _ => None end.
Definition begins (m : move) : list nat := match started1 (fst m) with Some (_, e) => [e] | None => [] end.
(** The completion events of the operations of a history. *)
Definition begun (h : list move) : list nat := flat_map begins h.
Definition is_complete (e : nat) (x : out) : bool := match x with Complete e' _ => e =? e' | _ => false end.
Definition count {A} (f : A -> bool) (l : list A) : nat := length (filter f l).
Definition completions (e : nat) (t : trace) : nat := count (is_complete e) (outs t).
(** An operation of this kind has begun and has not completed. *)
Definition outstanding (k : kind) (e : nat) (t : trace) : Prop :=
  (exists m l, In (m, l) t /\ started1 (fst m) = Some (k, e)) /\ completions e t = 0.
Definition is_stop (m : move) : bool := match fst m with Stop | Disconnect => true | _ => false end.
(** No completion event is used twice. *)
Definition lawful (h : list move) : Prop := NoDup (begun h).

(** The parts of the buffer of a read which were filled, and of a write which were taken. *)
Definition filled (e : nat) (t : trace) : list (nat * nat) := flat_map (fun x => match x with Filled e' a n => if e =? e' then [(a, n)] else [] | _ => [] end) (outs t).
Definition taken (e : nat) (t : trace) : list (nat * nat) := flat_map (fun x => match x with Taken e' a n => if e =? e' then [(a, n)] else [] | _ => [] end) (outs t).
(** They follow on each other from 0 to n. *)
Fixpoint cover (a : nat) (l : list (nat * nat)) (n : nat) : Prop :=
  match l with [] => a = n | (b, k) :: l => b = a /\ 0 < k /\ cover (a + k) l n end.
(** What *readLength is. *)
Definition lengths (e : nat) (t : trace) : list nat := flat_map (fun x => match x with Length e' n => if e =? e' then [n] else [] | _ => [] end) (outs t).
