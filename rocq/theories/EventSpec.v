(** What an event queue is, with an unbounded clock. *)
From Coq Require Import List Bool Arith NArith.
From Verif Require Import EventModel.
Import ListNotations.

(** What is pending for an event: nothing, the k-th post, or a due time. *)
Inductive status := Nothing | Posted (k : nat) | Due (t : N).

Record agenda := { a_now : N; a_read : N; a_posts : nat; a_status : nat -> status }.
Definition start (now : N) : agenda :=
  {| a_now := now; a_read := now; a_posts := 0; a_status := fun _ => Nothing |}.

Definition set_status (a : agenda) (e : nat) (x : status) : agenda :=
  {| a_now := a_now a; a_read := a_read a; a_posts := a_posts a;
     a_status := fun f => if Nat.eqb f e then x else a_status a f |}.

(** Posting something pending is absorbed. *)
Definition post (a : agenda) (e : nat) : agenda :=
  match a_status a e with
  | Nothing =>
      let a := set_status a e (Posted (a_posts a)) in
      {| a_now := a_now a; a_read := a_read a; a_posts := S (a_posts a); a_status := a_status a |}
  | _ => a
  end.

Definition observe_out (a : agenda) (o : out) : agenda :=
  match o with
  | Taken e => set_status a e Nothing
  | ReadClock t => {| a_now := a_now a; a_read := t; a_posts := a_posts a; a_status := a_status a |}
  | _ => a
  end.

Definition observe (a : agenda) (x : op * list out) : agenda :=
  let a :=
    match fst x with
    | Post e | PostMaybe e => post a e
    | PostTimed e ms => set_status a e (Due (a_now a + ms)%N)
    | Cancel e | Destroy e => set_status a e Nothing
    | Advance ms => {| a_now := (a_now a + ms)%N; a_read := a_read a; a_posts := a_posts a; a_status := a_status a |}
    | _ => a
    end in
  fold_left observe_out (snd x) a.

Definition agenda_after (now : N) (t : list (op * list out)) : agenda := fold_left observe t (start now).

(** What may be taken: the oldest post, or if there is none, a timed event
    which is due at the time the clock was read and which no other one precedes. *)
Definition may_take (a : agenda) (e : nat) : Prop :=
  match a_status a e with
  | Nothing => False
  | Posted k => forall f j, a_status a f = Posted j -> k <= j
  | Due t => (t <= a_read a)%N /\ (forall f j, a_status a f <> Posted j) /\
             (forall f u, a_status a f = Due u -> (t <= u)%N)
  end.

(** There is nothing to take. *)
Definition quiet (a : agenda) : Prop :=
  (forall f j, a_status a f <> Posted j) /\ (forall f u, a_status a f = Due u -> (a_read a < u)%N).

Definition allowed (a : agenda) (x : op * list out) : Prop :=
  forall o, In o (snd x) ->
  match o with
  | Taken e => may_take a e
  | Sleeps | Exits => quiet a
  | Accepted b => exists e, fst x = PostMaybe e /\ (b = true <-> a_status a e = Nothing)
  | ReadClock t => t = a_now a
  | Ran _ => True
  end.

(** The outputs of looking at the queue. *)
Definition is_look (o : out) : bool :=
  match o with Taken _ | Sleeps | Exits => true | _ => false end.

(** The assumption on time: delays are below 2^30 ms (12 days), nothing is overdue by 2^30 ms,
    and the thread does not take 2^30 ms from reading the clock to looking at the queue. *)
Definition timely (now : N) (t : list (op * list out)) : Prop :=
  forall p x q, t = p ++ x :: q ->
  (forall e ms, fst x = PostTimed e ms -> (ms < 2 ^ 30)%N) /\
  (forall e u, a_status (agenda_after now p) e = Due u -> (a_now (agenda_after now p) < u + 2 ^ 30)%N) /\
  (existsb is_look (snd x) = true -> (a_now (agenda_after now p) < a_read (agenda_after now p) + 2 ^ 30)%N).

Definition takes (t : list (op * list out)) : list nat :=
  flat_map (fun x => flat_map (fun o => match o with Taken e => [e] | _ => [] end) (snd x)) t.
Definition runs (t : list (op * list out)) : list nat :=
  flat_map (fun x => flat_map (fun o => match o with Ran e => [e] | _ => [] end) (snd x)) t.

(** Operations which take an event off the agenda without running it. *)
Definition revokes (e : nat) (o : op) : bool :=
  match o with Cancel f | Destroy f | PostTimed f _ => Nat.eqb e f | _ => false end.
Definition posts (e : nat) (o : op) : bool :=
  match o with Post f | PostMaybe f | PostTimed f _ => Nat.eqb e f | _ => false end.
