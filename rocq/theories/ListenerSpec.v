(** Words for property C33. *)
From Coq Require Import List Bool Arith.
From Verif Require Import ListenerModel.
Import ListNotations.

Definition trace := list (op * list out).
Definition outs (t : trace) : list out := flat_map snd t.

(** The events the listener has taken, the ones the application got and the ones which were released. *)
Definition accepted (t : trace) : list nat := flat_map (fun o => match o with Accepted e => [e] | _ => [] end) (outs t).
Definition got (t : trace) : list nat := flat_map (fun o => match o with Write _ e => [e] | _ => [] end) (outs t).
Definition released (t : trace) : list nat := flat_map (fun o => match o with Released e _ => [e] | _ => [] end) (outs t).

(** The error the listener has been given, if any. *)
Fixpoint failed (r : option nat) (t : trace) : option nat :=
  match t with
  | [] => r
  | (SetError ec, _) :: t => failed (Some ec) t
  | (Stop, _) :: t => failed (match r with None => Some stopped | r => r end) t
  | _ :: t => failed r t
  end.

(** The future, with its place, which has been given and has not been resolved. *)
Definition resolves (o : out) : bool := match o with Resolved _ _ => true | _ => false end.
Fixpoint waiting (w : option (nat * nat)) (t : trace) : option (nat * nat) :=
  match t with
  | [] => w
  | (NewFuture f p, []) :: t => waiting (Some (f, p)) t
  | (NewFuture _ _, _) :: t => waiting w t
  | (_, l) :: t => waiting (if existsb resolves l then None else w) t
  end.

(** Events the application has not got and which have not been released. *)
Definition queued (t : trace) : list nat := skipn (length (got t) + length (released t)) (accepted t).

(** What the listener answers, given what it did before. *)
Definition answer (p : trace) (o : op) : list out :=
  match o with
  | Init => []
  | Event e => match failed None p, waiting None p with
               | Some ec, _ => [Refused e ec]
               | None, Some (f, pl) => [Accepted e; Write pl e; Resolved f ok]
               | None, None => [Accepted e]
               end
  | NewFuture f pl => match failed None p, waiting None p, queued p with
                      | Some ec, _, _ => [Resolved f ec]
                      | None, Some _, _ => [Resolved f in_progress]
                      | None, None, e :: _ => [Write pl e; Resolved f ok]
                      | None, None, [] => []
                      end
  | SetError ec => match failed None p with
                   | Some _ => []
                   | None => map (fun e => Released e (if Nat.eqb ec aborted then stopped else ec)) (queued p) ++
                             match waiting None p with Some (f, _) => [Resolved f ec] | None => [] end ++ [Done]
                   end
  | Stop => match failed None p with
            | Some _ => []
            | None => map (fun e => Released e stopped) (queued p) ++
                      match waiting None p with Some (f, _) => [Resolved f stopped] | None => [] end ++ [Done]
            end
  end.

(** Histories of a listener which has been initialised once; OK is not an error. *)
Definition proper (o : op) : Prop := match o with Init => False | SetError ec => ec <> ok | _ => True end.
