(** What is seen of a connection of the DTLS server: calls, completions, packets and reports. *)
From Coq Require Import List Bool Arith.
From Verif Require Import SrvModel.
Import ListNotations.

Definition trace : Type := list (move * list out).
Definition outs (t : trace) : list out := flat_map snd t.

(** The sends which were accepted, in the order of the calls. *)
Definition accepted1 (x : move * list out) : list nat :=
  match fst (fst x), snd x with SendData t, [Return Ok] => [t] | _, _ => [] end.
Definition accepted (t : trace) : list nat := flat_map accepted1 t.
(** The sends which completed, and the ones whose data went out. *)
Definition completed1 (x : out) : list nat := match x with Completed t _ => [t] | _ => [] end.
Definition completed (t : trace) : list nat := flat_map completed1 (outs t).
Definition wired1 (x : out) : list nat := match x with Wire (Some t) => [t] | _ => [] end.
Definition wired (t : trace) : list nat := flat_map wired1 (outs t).
(** [a] is [b] with some elements left out. *)
Inductive left_out : list nat -> list nat -> Prop :=
| LoNil : left_out [] []
| LoKeep : forall x a b, left_out a b -> left_out (x :: a) (x :: b)
| LoSkip : forall x a b, left_out a b -> left_out a (x :: b).

Definition is_wire (x : out) : bool := match x with Wire _ => true | _ => false end.
Definition is_completed (x : out) : bool := match x with Completed _ _ => true | _ => false end.
Definition is_sent (m : move) : bool := match fst m with Sent => true | _ => false end.
(** A packet is on its way: handed to the sender, which has not completed it. *)
Fixpoint flying_from (b : bool) (t : trace) : bool :=
  match t with
  | [] => b
  | (m, l) :: t => flying_from (existsb is_wire l || (b && negb (is_sent m))) t
  end.
Definition flying (t : trace) : bool := flying_from false t.

(** A write which put no packet on its way: too large a packet, an error, no buffer. *)
Definition fizzled (x : move * list out) : bool := existsb is_completed (snd x) && negb (existsb is_wire (snd x)).

Definition count {A} (f : A -> bool) (l : list A) : nat := length (filter f l).
Definition is_ended (x : out) : bool := match x with Ended => true | _ => false end.
Definition is_freed (x : out) : bool := match x with Freed => true | _ => false end.
Definition is_destroy (m : move) : bool := match fst m with Destroy => true | _ => false end.
(** The owner has closed the connection. *)
Definition closes (x : move * list out) : bool := match fst (fst x) with Close _ => true | _ => false end.
(** The connection ends in this step: it is reported, or the owner destroys it. *)
Definition ends (x : move * list out) : bool := existsb is_ended (snd x) || is_destroy (fst x).
(** The ends which the module handles: no packet is on its way then, or the owner has closed the connection, and the end is not found while the
    completion of a packet is handled. *)
Definition orderly (t : trace) : Prop := forall t1 x t2, t = t1 ++ x :: t2 -> ends x = true ->
  is_sent (fst x) = false /\ (flying (t1 ++ [x]) = false \/ existsb closes t1 = true).
