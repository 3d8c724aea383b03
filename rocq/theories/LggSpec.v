(** * C106: what the log is to do, from /repo/include/nabto/nabto_device.h:1990-2100 *)
From Coq Require Import String List NArith.
From Verif Require Import LggModel.
Import ListNotations.

(** The order of the severities and of the levels. *)
Definition rank (s : severity) : nat := match s with Error => 0 | Warn => 1 | Info => 2 | Trace => 3 end.
Inductive named : string -> severity -> Prop :=
| nm_error : named "error" Error | nm_warn : named "warn" Warn
| nm_info : named "info" Info | nm_trace : named "trace" Trace.

(** The last valid level set, by whatever device; info before. *)
Definition level_of (h : list op) (s : severity) : Prop :=
  (exists a d n b, h = a ++ SetLevel d n :: b /\ named n s /\ forall d' n' s', In (SetLevel d' n') b -> ~ named n' s') \/
  (s = Info /\ forall d' n' s', In (SetLevel d' n') h -> ~ named n' s').

(** The last callback set, by whatever device. *)
Definition sets (o : op) : option (callback * nat) :=
  match o with
  | SetCallback _ (Some c) data => Some (App c, data)
  | SetCallback _ None data => Some (Default, data)
  | SetStdOut _ => Some (StdOut, 0)
  | _ => None
  end.
Definition callback_of (h : list op) (c : callback) (data : nat) : Prop :=
  (exists a o b, h = a ++ o :: b /\ sets o = Some (c, data) /\ forall o', In o' b -> sets o' = None) \/
  (c = Default /\ data = 0 /\ forall o', In o' h -> sets o' = None).

(** UTF-8, without the finer rules about forms which are too long. *)
Definition tail (b : N) : Prop := (128 <= b < 192)%N.
Inductive utf8 : list N -> Prop :=
| u_nil : utf8 []
| u_1 : forall a l, (a < 128)%N -> utf8 l -> utf8 (a :: l)
| u_2 : forall a b l, (194 <= a < 224)%N -> tail b -> utf8 l -> utf8 (a :: b :: l)
| u_3 : forall a b c l, (224 <= a < 240)%N -> tail b -> tail c -> utf8 l -> utf8 (a :: b :: c :: l)
| u_4 : forall a b c d l, (240 <= a < 245)%N -> tail b -> tail c -> tail d -> utf8 l -> utf8 (a :: b :: c :: d :: l).
