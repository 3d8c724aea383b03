(** What the user of the stream API sees: futures. *)
From Coq Require Import List Bool Arith.
From Verif Require Import StrModel StrSpec SapModel.
Import ListNotations.

Definition replies (t : list (doing * list reply)) : list reply := flat_map snd t.
Definition future1 (m : doing) : option (kind * nat) :=
  match fst m with AAccept f => Some (KAccept, f) | ARead _ f _ => Some (KRead, f) | AWrite f _ => Some (KWrite, f) | AClose f => Some (KClose, f) | _ => None end.
Definition gives_future (m : doing) : list nat := match future1 m with Some (_, f) => [f] | None => [] end.
(** The futures which were given to the API. *)
Definition futures (h : list doing) : list nat := flat_map gives_future h.
(** No future is used twice. *)
Definition proper (h : list doing) : Prop := NoDup (futures h).
Definition is_resolved (f : nat) (x : reply) : bool := match x with Resolved f' _ => f =? f' | _ => false end.
Definition resolved (f : nat) (t : list (doing * list reply)) : nat := count (is_resolved f) (replies t).
(** The future of an earlier operation of this kind is not resolved. *)
Definition unresolved (k : kind) (f : nat) (t : list (doing * list reply)) : Prop := (exists m l, In (m, l) t /\ future1 m = Some (k, f)) /\ resolved f t = 0.
(** The stream is not closed again before the future of the close before is resolved. *)
Definition patient (h : list doing) : Prop :=
  forall h1 h2 m f, h = h1 ++ m :: h2 -> future1 m = Some (KClose, f) -> forall f', ~ unresolved KClose f' (snd (play start h1)).
(** The codes with which the stream completed the operations of a kind. *)
Definition codes (k : kind) (t : list (doing * list reply)) : list code := flat_map (fun x => match x with Done k' c => if kind_eqb k k' then [c] else [] | _ => [] end) (replies t).
(** The event queue runs everything. *)
Definition drain (v : env) : list doing := [(Fire KAccept false, v); (Fire KRead false, v); (Fire KWrite false, v); (Fire KClose false, v)].
(** The stream is aborted or its connection is closed. *)
Definition ends (m : doing) : bool := match fst m with AAbort => true | Under None => true | _ => false end.
