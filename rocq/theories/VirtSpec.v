(** What the two users of a virtual stream see. *)
From Coq Require Import List Bool Arith.
From Verif Require Import VirtModel.
Import ListNotations.

Definition outs (t : list (op * list out)) : list out := flat_map snd t.
Definition other (w : who) : who := match w with Server => Client | Client => Server end.
(** The event of an operation. *)
Definition event1 (o : op) : option nat :=
  match o with SAccept e | SRead _ e _ | SWrite e _ | SClose e | CRead _ e _ | CWrite e _ | CClose e => Some e | SStop | CStop => None end.
(** Who begins it. *)
Definition by1 (o : op) : who := match o with SAccept _ | SRead _ _ _ | SWrite _ _ | SClose _ | SStop => Server | _ => Client end.
Definition begun (h : list op) : list nat := flat_map (fun o => match event1 o with Some e => [e] | None => [] end) h.
(** No event is used twice; e0 is the event of the open. *)
Definition lawful (e0 : nat) (h : list op) : Prop := NoDup (e0 :: begun h).
Definition count {A} (f : A -> bool) (l : list A) : nat := length (filter f l).
Definition is_complete (e : nat) (x : out) : bool := match x with Complete e' _ => e =? e' | _ => false end.
Definition completions (e : nat) (t : list (op * list out)) : nat := count (is_complete e) (outs t).

(** The operation is refused: completed by its own call with an error. *)
Definition refused (o : op) (l : list out) : bool :=
  match event1 o with Some e => existsb (fun x => match x with Complete e' Ok => false | Complete e' _ => e =? e' | _ => false end) l | None => false end.
Definition bytes (w : who) (o : op) : list nat := match w, o with Server, SWrite _ b => b | Client, CWrite _ b => b | _, _ => [] end.
(** The bytes of the writes of one side which were not refused, in order. *)
Definition written (w : who) (t : list (op * list out)) : list nat := flat_map (fun x => if refused (fst x) (snd x) then [] else bytes w (fst x)) t.
(** The bytes which were copied into buffers of reads of one side, in order. *)
Definition received (w : who) (t : list (op * list out)) : list nat := flat_map (fun x => match x with Copied w' _ b => match w, w' with Server, Server | Client, Client => b | _, _ => [] end | _ => [] end) (outs t).
(** The bytes in the buffer of a read. *)
Definition content (e : nat) (t : list (op * list out)) : list nat := flat_map (fun x => match x with Copied _ e' b => if e =? e' then b else [] | _ => [] end) (outs t).
Definition lengths (e : nat) (t : list (op * list out)) : list nat := flat_map (fun x => match x with Length e' n => if e =? e' then [n] else [] | _ => [] end) (outs t).
Definition is_read (w : who) (all : bool) (e n : nat) : op := match w with Server => SRead all e n | Client => CRead all e n end.
Definition is_write (w : who) (e : nat) (b : list nat) : op := match w with Server => SWrite e b | Client => CWrite e b end.
Definition is_close (w : who) (e : nat) : op := match w with Server => SClose e | Client => CClose e end.
Definition is_stop (w : who) : op := match w with Server => SStop | Client => CStop end.
(** A side has closed the stream: a close of it was not refused. *)
Definition has_closed (w : who) (t : list (op * list out)) : Prop := exists e l, In (is_close w e, l) t /\ refused (is_close w e) l = false.
(** Nobody has aborted. *)
Definition live (h : list op) : Prop := ~ In SStop h /\ ~ In CStop h.
(** An operation which was begun and is not completed. *)
Definition waits (o : op) (t : list (op * list out)) : Prop := exists e l, event1 o = Some e /\ In (o, l) t /\ completions e t = 0.
(** The client does not close again before its close has completed; nabto_device_virtual_stream_close answers that itself. *)
Definition closes_once (e0 : nat) (h : list op) : Prop := forall h1 h2 e e', h = h1 ++ CClose e :: h2 -> ~ waits (CClose e') (snd (run (init e0) h1)).
