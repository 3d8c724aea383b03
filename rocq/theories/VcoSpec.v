(** What is said of the histories of virtual CoAP requests: calls (op) and what they show (out). *)
From Coq Require Import List Bool Arith Ascii String.
From Verif Require Import VcoModel.
Import ListNotations.
Local Open Scope list_scope.

Definition count {A : Type} (f : A -> bool) (l : list A) : nat := List.length (filter f l).
(** The times the future of the request k is resolved, and the times k is freed. *)
Definition resolutions (k : nat) (o : list out) : nat := count (fun x => match x with Resolved j _ _ => Nat.eqb j k | _ => false end) o.
Definition releases (k : nat) (o : list out) : nat := count (fun x => match x with Freed j => Nat.eqb j k | _ => false end) o.
(** Each request is executed at most once. *)
Definition execs (l : list op) : list nat := flat_map (fun v => match v with Execute n _ _ _ => [n] | _ => [] end) l.
Definition Single (l : list op) : Prop := NoDup (execs l).
Definition Fine (o : list out) : Prop := ~ In Crash o.
Definition Handed_to (k : nat) (o : list out) : Prop := exists p d f, In (Handed k p d f) o.
(** The device side has answered k: with a response or an error. *)
Definition Answered (k : nat) (l : list op) : Prop := In (RReady k) l \/ exists c m a, In (RError k c m a) l.

(** What the request n has been given, at last. *)
Definition path_of (l : list op) (n : nat) : option (list ascii) := nth_error (flat_map (fun v => match v with New p true => [p] | _ => [] end) l) n.
Definition payload_of (n : nat) (l : list op) : list nat := fold_left (fun p v => match v with SetPayload m d true => if Nat.eqb m n then d else p | _ => p end) l [].
Definition format_of (n : nat) (l : list op) : nat := fold_left (fun p v => match v with SetFormat m f => if Nat.eqb m n then f else p | _ => p end) l 0.
(** What the response to k has been given, at last. *)
Definition code_of (k : nat) (b : nat) (l : list op) : nat := fold_left (fun p v => match v with RCode j c => if Nat.eqb j k then c else p | RError j c _ _ => if Nat.eqb j k then c else p | _ => p end) l b.
Definition rformat_of (k : nat) (l : list op) : nat := fold_left (fun p v => match v with RFormat j f => if Nat.eqb j k then f else p | _ => p end) l 0.
Definition rpayload_of (k : nat) (b : option (list nat)) (l : list op) : option (list nat) :=
  fold_left (fun p v => match v with RPayload j d a => if Nat.eqb j k then (if a then Some d else None) else p
                        | RError j _ (Some m) a => if Nat.eqb j k then (if a then Some m else None) else p | _ => p end) l b.

(** A careful application: it uses what it has, keeps a request until it is resolved and the connection until all requests are freed, executes a request once, and gives its payload once. *)
Definition Have (n : nat) (l : list op) (o : list out) : Prop := In (Created n) o /\ ~ In (Free n) l.
Definition Holds (k : nat) (l : list op) (o : list out) : Prop := Handed_to k o /\ ~ In (RFree k) l.
Definition Allowed (l : list op) (o : list out) (v : op) : Prop :=
  match v with
  | New p _ => p <> [] /\ ~ In ConnFree l
  | SetPayload n _ _ => Have n l o /\ forall d a, ~ In (SetPayload n d a) l
  | SetFormat n _ => Have n l o
  | Execute n _ _ _ => Have n l o /\ ~ In n (execs l)
  | GetCode n | GetFormat n | GetPayload n => Have n l o
  | Free n => Have n l o /\ forall k, In (Executed n k) o -> exists f e, In (Resolved k f e) o
  | RCode k _ | RPayload k _ _ | RFormat k _ | RReady k | RError k _ _ _ | RFree k => Holds k l o
  | ConnFree => ~ In ConnFree l /\ forall n, In (Created n) o -> In (Free n) l
  end.
Inductive Careful : list op -> Prop :=
| Careful_nil : Careful []
| Careful_app l v : Careful l -> Allowed l (snd (run init l)) v -> Careful (l ++ [v]).
