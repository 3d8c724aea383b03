(** Words for the future properties C31 and C32. *)
From Coq Require Import List Bool Arith.
From Verif Require Import FutureModel.
Import ListNotations.

(** The result of the operation the future was last used for. *)
Fixpoint result (f : nat) (r : option nat) (t : list (op * list out)) : option nat :=
  match t with
  | [] => r
  | (Reset g, _) :: t => result f (if Nat.eqb f g then None else r) t
  | (Resolve g ec, _) :: t => result f (if Nat.eqb f g then Some ec else r) t
  | _ :: t => result f r t
  end.
Definition code_of (r : option nat) : nat := match r with Some ec => ec | None => not_resolved end.

(** How a future is used. [Used cb res]: an operation is started, with the callback and the result so
    far; [Due]: it has both and the callback has not been called. *)
Inductive phase := Unused | Used (cb : option (nat * nat)) (res : option nat) | Due (c d ec : nat) | Freed.
Definition phases := nat -> phase.
Definition fresh : phases := fun _ => Unused.
Definition become (p : phases) (f : nat) (x : phase) : phases := fun g => if Nat.eqb g f then x else p g.

(** What a correct application and a correct device do: a future is used for one operation at a time, it is
    resolved once per operation, a callback is set at most once per operation and after its start; it is reused or freed
    when it has been resolved and its callback, if it has one, has been called; not while a thread waits. *)
Definition finished (x : phase) : Prop :=
  match x with Unused | Used None (Some _) => True | _ => False end.
Definition waited (s : st) (f : nat) : bool := existsb (fun w => Nat.eqb (w_fut w) f) (s_wait s).
Definition allowed (s : st) (p : phases) (o : op) : Prop :=
  match o with
  | Reset f => finished (p f)
  | Free f => finished (p f) /\ waited s f = false
  | Resolve f _ => match p f with Used _ None => True | _ => False end
  | SetCb f _ _ => match p f with Used None _ => True | _ => False end
  | ErrorCode f | Wait _ f | TimedWait _ f => p f <> Freed
  | Wake _ | QStep | QStop => True
  end.
Definition next (p : phases) (o : op) (l : list out) : phases :=
  match o with
  | Reset f => become p f (Used None None)
  | Free f => become p f Freed
  | Resolve f ec => match p f with
                    | Used (Some (c, d)) None => become p f (Due c d ec)
                    | Used None None => become p f (Used None (Some ec))
                    | _ => p
                    end
  | SetCb f c d => match p f with
                   | Used None (Some ec) => become p f (Due c d ec)
                   | Used None None => become p f (Used (Some (c, d)) None)
                   | _ => p
                   end
  | QStep => match l with Call f _ _ _ :: _ => become p f Unused | _ => p end
  | _ => p
  end.

(** A history in which everything is allowed. *)
Fixpoint obeys (s : st) (p : phases) (h : list op) : Prop :=
  match h with
  | [] => True
  | o :: h => allowed s p o /\ match step s o with Some (s', l) => obeys s' (next p o l) h | None => True end
  end.

(** The calls which are due, in the order in which they become due: future, callback, result, data. *)
Definition due_now (p : phases) (o : op) : list (nat * nat * nat * nat) :=
  match o with
  | Resolve f ec => match p f with Used (Some (c, d)) None => [(f, c, ec, d)] | _ => [] end
  | SetCb f c d => match p f with Used None (Some ec) => [(f, c, ec, d)] | _ => [] end
  | _ => []
  end.
Fixpoint due (p : phases) (t : list (op * list out)) : list (nat * nat * nat * nat) :=
  match t with [] => [] | (o, l) :: t => due_now p o ++ due (next p o l) t end.
Definition call_of (x : out) : list (nat * nat * nat * nat) :=
  match x with Call f c ec d => [(f, c, ec, d)] | _ => [] end.
Definition calls (t : list (op * list out)) : list (nat * nat * nat * nat) :=
  flat_map (fun x => flat_map call_of (snd x)) t.

(** No callback is set on the future and no two threads wait for it at once. *)
Fixpoint calm (f : nat) (s : st) (h : list op) : Prop :=
  match h with
  | [] => True
  | o :: h => (match o with
               | SetCb g _ _ => g <> f
               | Wait _ g | TimedWait _ g => g = f -> waited s f = false
               | _ => True
               end) /\
              match step s o with Some (s', _) => calm f s' h | None => True end
  end.
