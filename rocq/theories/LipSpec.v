(** * What the local addresses are *)
From Coq Require Import List Bool NArith.
From Verif Require Import LipModel.
Import ListNotations.

(** The address the system would send from, unless it is the unspecified one. *)
Definition usable (a : answer) (ip : list N) : Prop := a = Name ip /\ exists b, In b ip /\ b <> 0%N.
(** The descriptors a list of calls opens and closes. *)
Definition opened (l : list call) : list nat := flat_map (fun c => match c with Socket _ fd => [fd] | _ => [] end) l.
Definition closed (l : list call) : list nat := flat_map (fun c => match c with Close fd => [fd] | _ => [] end) l.

(** A host: the addresses of its interfaces, and the one its default route starts from,
    for each family. *)
Record host := { h_v4 : list (list N); h_v6 : list (list N); h_route4 : option (list N); h_route6 : option (list N) }.
Definition from (r : option (list N)) : answer := match r with Some ip => Name ip | None => NoRoute end.
