(** The API of streams, nabto_device_stream.c, over the operations of nc_stream.c ([StrModel]). It is called with the lock of the device, so a call is a step; the
    event queue runs the completion events in any order ([Fire]). Creating an event is assumed to succeed (np_completion_event_init is not checked by the code).
    [Crash]: an event which was destroyed, or no future, is used. *)
From Coq Require Import List Bool Arith.
From Verif Require Import StrModel StrSpec.
Import ListNotations.

(** struct np_completion_event, np_completion_event.c: [k_live]: initialized; [k_posted]: its event is in the queue; [k_ec]: the code; [k_stale]: events which were in the queue
    when it was initialized again: they are never destroyed, and they run the same callback. *)
Record slot := { k_live : bool; k_posted : bool; k_ec : code; k_stale : nat }.
(** struct nabto_device_stream: the four futures and the four completion events. *)
Record api := { p_core : stream; p_fut : kind -> option nat; p_slot : kind -> slot; p_dead : bool }.
Definition kind_eqb (a b : kind) : bool := match a, b with KAccept, KAccept | KRead, KRead | KWrite, KWrite | KClose, KClose => true | _, _ => false end.
Definition upd {A} (f : kind -> A) (k : kind) (x : A) : kind -> A := fun k' => if kind_eqb k k' then x else f k'.
Definition set_core (x : stream) (p : api) : api := {| p_core := x; p_fut := p_fut p; p_slot := p_slot p; p_dead := p_dead p |}.
Definition set_fut (k : kind) (x : option nat) (p : api) : api := {| p_core := p_core p; p_fut := upd (p_fut p) k x; p_slot := p_slot p; p_dead := p_dead p |}.
Definition set_slot (k : kind) (x : slot) (p : api) : api := {| p_core := p_core p; p_fut := p_fut p; p_slot := upd (p_slot p) k x; p_dead := p_dead p |}.
Definition die (p : api) : api := {| p_core := p_core p; p_fut := p_fut p; p_slot := p_slot p; p_dead := true |}.

(** nabto_device_stream_core_callback 376-397: zeroed memory. *)
Definition start : api := {| p_core := StrModel.init; p_fut := fun _ => None; p_slot := fun _ => {| k_live := false; k_posted := false; k_ec := Ok; k_stale := 0 |}; p_dead := false |}.

(** The addresses of acceptEv, readEv, writeEv, closeEv. *)
Definition id (k : kind) : nat := match k with KAccept => 0 | KRead => 1 | KWrite => 2 | KClose => 3 end.
Definition kind_of (e : nat) : kind := match e with 0 => KAccept | 1 => KRead | 2 => KWrite | _ => KClose end.

(** np_completion_event_init. *)
Definition ready (x : slot) : slot := {| k_live := true; k_posted := false; k_ec := Ok; k_stale := k_stale x + (if k_posted x then 1 else 0) |}.
(** np_completion_event_deinit. *)
Definition gone (x : slot) : slot := {| k_live := false; k_posted := false; k_ec := k_ec x; k_stale := k_stale x |}.

Inductive call :=
| AAccept (f : nat) | ARead (all : bool) (f n : nat) | AWrite (f n : nat) | AClose (f : nat) | AAbort
| Under (x : option event)  (* an event of the stream, or the connection is closed *)
| Fire (k : kind) (stale : bool).
(** [Done k c]: the core completes the operation with this code. *)
Inductive reply := Resolved (f : nat) (c : code) | Done (k : kind) (c : code) | Crash.

(** np_completion_event_resolve for every completion of the core. *)
Fixpoint post (l : list out) (p : api) : api * list reply :=
  match l with
  | [] => (p, [])
  | Complete e c :: l =>
    let k := kind_of e in
    let x := p_slot p k in
    if k_live x then
      let (p, r) := post l (set_slot k {| k_live := true; k_posted := true; k_ec := c; k_stale := k_stale x |} p) in (p, Done k c :: r)
    else (die p, [Crash])
  | _ :: l => post l p
  end.
Definition core (v : env) (o : op) (p : api) : api * list reply :=
  let (s, l) := step v o (p_core p) in post l (set_core s p).
(** nabto_device_stream_accept 136-151, read_all and read_some 240-280, write 292-310: reject, or start the operation. *)
Definition begin (v : env) (k : kind) (f : nat) (o : op) (p : api) : api * list reply :=
  match p_fut p k with
  | Some _ => (p, [Resolved f InProgress])
  | None => core v o (set_slot k (ready (p_slot p k)) (set_fut k (Some f) p))
  end.
(** The callbacks 128-134, 230-238, 282-290, 312-320; those of accept and close leave the future in place. *)
Definition callback (k : kind) (p : api) : api * list reply :=
  match p_fut p k with
  | None => (die p, [Crash])
  | Some f =>
    let c := k_ec (p_slot p k) in
    let p := set_slot k (gone (p_slot p k)) p in
    (match k with KRead | KWrite => set_fut k None p | _ => p end, [Resolved f c])
  end.
Definition act (v : env) (a : call) (p : api) : api * list reply :=
  if p_dead p then (p, []) else
  match a with
  | AAccept f => begin v KAccept f (Accept (id KAccept)) p
  | ARead all f n => begin v KRead f (Read all (id KRead) n) p
  | AWrite f n => begin v KWrite f (Write (id KWrite) n) p
  | AClose f => (* 322-334: no check *) core v (Close (id KClose)) (set_slot KClose (ready (p_slot p KClose)) (set_fut KClose (Some f) p))
  | AAbort => (* 118-125 *) core v Stop p
  | Under (Some x) => core v (Event x) p
  | Under None => core v Disconnect p
  | Fire k false => if k_posted (p_slot p k) then callback k (set_slot k {| k_live := k_live (p_slot p k); k_posted := false; k_ec := k_ec (p_slot p k); k_stale := k_stale (p_slot p k) |} p) else (p, [])
  | Fire k true =>
    match k_stale (p_slot p k) with
    | 0 => (p, [])
    | S n => callback k (set_slot k {| k_live := k_live (p_slot p k); k_posted := k_posted (p_slot p k); k_ec := k_ec (p_slot p k); k_stale := n |} p)
    end
  end.
Definition doing : Type := call * env.
Fixpoint play (p : api) (h : list doing) : api * list (doing * list reply) :=
  match h with
  | [] => (p, [])
  | m :: h => let (p, l) := act (snd m) (fst m) p in let (p, t) := play p h in (p, (m, l) :: t)
  end.
