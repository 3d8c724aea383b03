(** What an application sees of the life of a device: its calls, the futures which are resolved, and the attempts to attach. *)
From Coq Require Import String List Bool Arith NArith.
From Verif Require Import DevModel.
Import ListNotations.

Definition trace : Type := list (op * list out).
Definition outs (t : trace) : list out := flat_map snd t.

(** How often a future is resolved, and to how many calls it was given. *)
Definition resolves (f : nat) (x : out) : bool := match x with Resolved g _ => Nat.eqb g f | _ => false end.
Definition times (f : nat) (l : list out) : nat := length (filter (resolves f) l).
Definition future (o : op) : list nat := match o with Start f _ | Close f _ => [f] | _ => [] end.
Definition futures (h : list op) : list nat := flat_map future h.

Definition is_call (o : op) : bool := match o with Bound _ | ConnsClosed | AttachClosed | PlatClosed _ | Attempt | Stop _ => false | _ => true end.
Definition is_start (o : op) : bool := match o with Start _ _ => true | _ => false end.
Definition is_close (o : op) : bool := match o with Close _ _ => true | _ => false end.
Definition is_stop (o : op) : bool := match o with Stop _ => true | _ => false end.
Definition is_set_str (o : op) : bool := match o with SetStr _ _ _ => true | _ => false end.
Definition is_set_attach (o : op) : bool := match o with SetAttach _ _ => true | _ => false end.

(** Every call has its own future, and nothing is called after nabto_device_stop. *)
Definition lawful (h : list op) : Prop := NoDup (futures h) /\ forall h1 o h2, h = h1 ++ o :: h2 -> is_call o = true -> existsb is_stop h1 = false.
(** nabto_device_start is not called while another one is in progress. *)
Definition orderly (h : list op) : Prop := forall h1 f k h2, h = h1 ++ Start f k :: h2 -> forall g k', In (Start g k') h1 -> 1 <= times g (outs (snd (run init h1))).
(** The device is not started again after a close. *)
Definition one_life (h : list op) : Prop := forall h1 f k h2, h = h1 ++ Start f k :: h2 -> existsb is_close h1 = false.
(** nabto_device_stop finds no client connections. *)
Definition calm (h : list op) : Prop := ~ In (Stop true) h.
(** Everything which the platform has to complete is completed. *)
Definition settle (c1 c2 c3 c4 : code) : list op := [Bound c1; Bound c2; Bound c3; ConnsClosed; AttachClosed; PlatClosed c4].

(** The configured strings: what the last accepted call has set. *)
Definition conf1 (f : field) (x : op * list out) (v : option string) : option string :=
  match x with
  | (SetStr g s _, [Returned Ok]) => if field_eqb g f then Some s else v
  | (SetStr g _ _, [Returned OutOfMemory]) => if field_eqb g f then None else v
  | _ => v
  end.
Definition conf (t : trace) (f : field) : option string := fold_left (fun v x => conf1 f x v) t None.
Definition host (t : trace) : option string :=
  match conf t Url, conf t Product with Some u, _ => Some u | None, Some p => Some (p ++ ".devices.nabto.net")%string | None, None => None end.
Definition or_empty (v : option string) : string := match v with Some s => s | None => ""%string end.

(** The configured ports. *)
Definition ports1 (p : N * N) (x : op * list out) : N * N := match x with (SetPorts a b, [Returned Ok]) => (a, b) | _ => p end.
Definition ports (t : trace) : N * N := fold_left ports1 t (5593, 5592)%N.

(** The last setting of attach which was accepted. *)
Definition enabled1 (b : bool) (x : op * list out) : bool :=
  match x with
  | (SetAttach b _, [Returned Ok]) => b
  | (DisableRemote, [Returned Ok]) => false
  | _ => b
  end.
Definition enabled (t : trace) : bool := fold_left enabled1 t true.
(** A start is in progress. *)
Definition starting (t : trace) : Prop := exists f k, In (Start f k) (map fst t) /\ times f (outs t) = 0.
(** The attach setting is not changed while a start is in progress. *)
Definition unhurried (h : list op) : Prop := forall h1 b k h2, h = h1 ++ SetAttach b k :: h2 -> ~ starting (snd (run init h1)).
