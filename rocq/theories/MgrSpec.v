(** What is seen of the stream manager. *)
From Coq Require Import List Bool Arith NArith.
From Verif Require Import MgrModel.
Import ListNotations.

Definition trace (n : nat) (h : list op) : list (op * list out) := snd (run (Some (init n)) h).
Definition crashed (n : nat) (h : list op) : Prop := fst (run (Some (init n)) h) = None.
Definition outs (t : list (op * list out)) : list out := flat_map snd t.
Definition ops (t : list (op * list out)) : list op := map fst t.
(** The streams which clients have opened and which have not ended: address, connection and id. *)
Definition ended (k : nat) (l : list out) : bool := existsb (fun x => match x with Ended k' => k' =? k | _ => false end) l.
Definition opened (l : list out) : list (nat * (nat * N)) := flat_map (fun x => match x with Opened k c id => [(k, (c, id))] | _ => [] end) l.
Definition live (t : list (op * list out)) : list (nat * (nat * N)) := filter (fun x => negb (ended (fst x) (outs t))) (opened (outs t)).
(** The listeners: who listens on which port. *)
Definition ports1 (ps : list (nat * N)) (x : op * list out) : list (nat * N) :=
  match fst x with Unlisten l => filter (fun y => negb (fst y =? l)) ps | _ => ps ++ flat_map (fun y => match y with Listening l p => [(l, p)] | _ => [] end) (snd x) end.
Definition ports (t : list (op * list out)) : list (nat * N) := fold_left ports1 t [].
(** The number of streams which exist: opened and not freed. *)
Definition count {A} (f : A -> bool) (l : list A) : nat := length (filter f l).
Definition is_new (x : out) : bool := match x with Opened _ _ _ | VNew _ => true | _ => false end.
Definition is_freed (x : out) : bool := match x with Freed _ => true | _ => false end.
Definition allocated (t : list (op * list out)) : nat := count is_new (outs t) - count is_freed (outs t).
(** The limit which is in force; n is the first one. *)
Definition limit_of (n : nat) (t : list (op * list out)) : nat := fold_left (fun n x => match fst x with SetMax n' => n' | _ => n end) t n.
(** The application has got the stream and has not given it back. The same for the user of a virtual stream. *)
Definition is_destroy (k : nat) (o : op) : bool := match o with Destroy k' _ => k' =? k | _ => false end.
Definition is_vfree (k : nat) (o : op) : bool := match o with VFree k' => k' =? k | _ => false end.
Definition owned (k : nat) (t : list (op * list out)) : Prop := In (Taken k) (outs t) /\ existsb (is_destroy k) (ops t) = false.
Definition held (k : nat) (t : list (op * list out)) : Prop := In (VOpened k) (outs t) /\ existsb (is_vfree k) (ops t) = false.
(** How applications and the protocol behave: an application uses a stream while it owns it, a user of a virtual stream while it holds it; a stream is offered while
    a packet, a posted event or the end of a send is handled, not by the timer. *)
Definition offers (e : ev) : bool := match e with EAccept _ _ _ => true | _ => false end.
Definition fair (o : op) (t : list (op * list out)) : Prop :=
  match o with
  | Use k | Abort k _ | Destroy k _ => owned k t
  | VUse k | VFree k => held k t
  | Timer _ evs => existsb offers evs = false
  | _ => True
  end.
Definition lawful (n : nat) (h : list op) : Prop := forall h1 o h2, h = h1 ++ o :: h2 -> fair o (trace n h1).
(** Virtual streams are opened only to ports on which somebody listens who takes them. *)
Definition served (n : nat) (h : list op) : Prop := forall h1 c p a t h2, h = h1 ++ VOpen c p a t :: h2 -> t = true /\ In p (map snd (ports (trace n h1))).
(** DTLS refuses to take a packet. *)
Definition bad_ev (e : ev) : bool := match e with EAccept _ _ (Some Failed) | ESend _ false => true | _ => false end.
Definition bad_r (r : option rst) : bool := match r with Some Failed => true | _ => false end.
Definition bad_op (o : op) : bool :=
  match o with
  | Packet _ _ _ _ _ r evs => bad_r (Some r) || existsb bad_ev evs
  | Timer _ evs | Posted _ evs | SendDone _ evs => existsb bad_ev evs
  | Abort _ r | Destroy _ r => bad_r r
  | _ => false
  end.
(** DTLS never refuses to take a packet. *)
Definition calm (h : list op) : Prop := forall o, In o h -> bad_op o = false.
Definition accepts (p : N) (e : ev) : bool := match e with EAccept p' _ _ => (p' =? p)%N | _ => false end.
(** The ports of the streams which are offered in a step. *)
Definition offered_ports (o : op) (p : N) : bool :=
  match o with
  | Packet _ _ _ _ _ _ evs | Timer _ evs | Posted _ evs | SendDone _ evs => existsb (accepts p) evs
  | VOpen _ p' _ _ => (p' =? p)%N
  | _ => false
  end.
(** What is seen of h' when it comes after h. *)
Definition new_outs (n : nat) (h h' : list op) : list out := outs (skipn (length h) (trace n (h ++ h'))).
