(** What a tunnel connection has to do with bytes and with ends. *)
From Coq Require Import List Bool Arith.
From Verif Require Import RlyModel.
Import ListNotations.

(** The bytes which arrived from the service and from the client, and those which were passed to them. *)
Definition from_service (o : list out) : bytes := flat_map (fun x => match x with GotTcp b => b | _ => [] end) o.
Definition from_client (o : list out) : bytes := flat_map (fun x => match x with GotStr b => b | _ => [] end) o.
Definition to_service (o : list out) : bytes := flat_map (fun x => match x with ToTcp b => b | _ => [] end) o.
Definition to_client (o : list out) : bytes := flat_map (fun x => match x with ToStr b => b | _ => [] end) o.
Definition prefix (a b : bytes) : Prop := exists r, b = a ++ r.
Definition releases (o : list out) : nat := length (filter (fun x => match x with Released => true | _ => false end) o).
(** No operation of the socket or of the stream has been started which has not completed. *)
Definition idle (s : st) : Prop := sk_conn s = false /\ sk_read s = false /\ sk_write s = false /\ st_read s = false /\ st_write s = false /\ st_close s = false.
