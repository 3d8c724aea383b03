(** Words for property C34. *)
From Coq Require Import List Bool Arith.
From Verif Require Import ListenerModel AuthModel.
Import ListNotations.

Definition trace := list (op * list out).

(** The listener takes the request, hands it to the application, gives it up; the answer arrives. *)
Definition taken (r : nat) (l : list out) : bool := existsb (fun x => match x with L (Accepted e) => Nat.eqb e r | _ => false end) l.
Definition handed (r : nat) (l : list out) : bool := existsb (fun x => match x with L (Write _ e) => Nat.eqb e r | _ => false end) l.
Definition given_up (r : nat) (l : list out) : bool := existsb (fun x => match x with L (Released e _) => Nat.eqb e r | _ => false end) l.
Definition told (r : nat) (l : list out) : bool := existsb (fun x => match x with Told e _ => Nat.eqb e r | _ => false end) l.
Definition freed (r : nat) (l : list out) : nat := length (filter (fun x => match x with Freed e => Nat.eqb e r | _ => false end) l).

(** What has become of a request: it has been made, checked; the platform has finished with it (discarded or
    answered); the application has it; the first decision which was made about it. *)
Record view := { made : bool; checked : bool; over : bool; held : bool; decision : option bool }.
Definition nothing : view := {| made := false; checked := false; over := false; held := false; decision := None |}.
Definition is (r : nat) (x : nat) : bool := Nat.eqb x r.
Definition decide (r : nat) (o : op) (l : list out) : option bool :=
  match o with
  | Verdict x b => if is r x then Some b else None
  | FreeReq x => if is r x then Some false else None
  | Check x => if is r x then (if taken r l then None else Some false) else None
  | _ => if given_up r l then Some false else None
  end.
Definition look (r : nat) (v : view) (x : op * list out) : view :=
  let (o, l) := x in
  {| made := made v || match o with Create x => is r x | _ => false end;
     checked := checked v || match o with Check x => is r x | _ => false end;
     over := over v || match o with Discard x => is r x | _ => false end || told r l;
     held := match o with FreeReq x => if is r x then false else held v | _ => held v || handed r l end;
     decision := match decision v with Some b => Some b | None => decide r o l end |}.
Definition view_of (r : nat) (t : trace) : view := fold_left (look r) t nothing.

(** What the platform and the application may do. The platform checks or discards each request it makes, once. The
    application uses the requests it has. Nobody uses the listener after it has been freed; this includes the
    platform, which the application cannot influence. *)
Definition listener_freed (t : trace) : bool := existsb (fun x => match fst x with FreeListener => true | _ => false end) t.
Definition allowed (t : trace) (o : op) : Prop :=
  match o with
  | Create r => made (view_of r t) = false
  | Discard r => made (view_of r t) = true /\ checked (view_of r t) = false /\ over (view_of r t) = false
  | Check r => made (view_of r t) = true /\ checked (view_of r t) = false /\ over (view_of r t) = false /\ listener_freed t = false
  | Verdict r _ | FreeReq r => held (view_of r t) = true
  | Ask _ _ | StopListener | FreeListener => listener_freed t = false
  | RunVerdict _ | InitListener => True
  end.

Fixpoint obeys (s : st) (t : trace) (h : list op) : Prop :=
  match h with
  | [] => True
  | o :: h => allowed t o /\ match step s o with Some (s', l) => obeys s' (t ++ [(o, l)]) h | None => True end
  end.
