(** What the drivers should do for the protocol. *)
From Coq Require Import List Bool ZArith.
From Verif Require Import CdrModel.
Import ListNotations.
Local Open Scope Z_scope.

(** About three days, in ms. *)
Definition three_days : Z := 268435456.
(** A time to wait for is at most three days away. *)
Definition Near (n : Z) (w : want) : Prop := match w with WaitUntil t => n - three_days <= t < n + three_days | _ => True end.
(** What a stopped protocol wants. *)
Definition Ending (w : want) : Prop := match w with Callback | Nothing => True | _ => False end.
Definition told (v : op * env) : list want :=
  cw (snd v) :: after (sd (snd v)) :: match fst v with Packet w | App w | Gone w | Timer w | Stop w => [w] | _ => [] end.
(** Taking a connection away does not add anything to do. *)
Definition Fewer (w w' : want) : Prop := w' = w \/ w' = Nothing \/ match w, w' with WaitUntil t, WaitUntil t' => t <= t' | Send, WaitUntil _ => True | _, _ => False end.
Definition is_stop (v : op * env) : bool := match fst v with Stop _ => true | _ => false end.
(** A good moment: DTLS takes packets, what the protocol wants is near, the timer has fired in the last three days, and a stopped protocol only calls back. *)
Definition Okay (stopped : bool) (s : st) (v : op * env) : Prop :=
  took (sd (snd v)) = true /\ (forall w, In w (told v) -> Near (now s) w) /\ now s - last s <= three_days /\
  (forall w, fst v = Gone w -> Fewer (wants s) w) /\ (stopped || is_stop v = true -> forall w, In w (told v) -> Ending w).
Definition Valid (t0 : Z) (l : list (op * env)) : Prop := forall l1 v l2, l = l1 ++ v :: l2 -> Okay (existsb is_stop l1) (fst (run (init t0) l1)) v.
(** Something is outstanding which will do what is wanted, and not too late. *)
Definition Taken (s : st) : Prop :=
  match wants s with
  | Nothing => True
  | Callback | Send => ev s = true \/ buf s = InFlight
  | WaitUntil t => ev s = true \/ buf s = InFlight \/ exists due, timer s = Some due /\ due <= Z.max t (now s)
  end.
Definition sent (o : list out) : nat := List.length (filter (fun x => match x with Sent => true | _ => false end) o).
Definition released (o : list out) : nat := List.length (filter (fun x => match x with Released => true | _ => false end) o).
