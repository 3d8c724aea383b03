(** Authorization requests: src/api/nabto_device_authorization.c and nabto_device_authorization_events.c.

    A request is a number. Every function is one step: it runs with the device lock. Failures to allocate in
    create_request (NULL, no request) and the attributes of requests are not modelled here. *)
From Coq Require Import List Bool Arith.
From Verif Require Import ListenerModel.
Import ListNotations.

(** nabto_device_authorization.h 32-62 struct nabto_device_authorization_request; [q_posted]: the verdict event
    is in the event queue. *)
Record req := { q_ref : nat; q_done : bool; q_verdict : bool; q_posted : bool; q_checked : bool; q_freed : bool }.

(** nabto_device_authorization.h 64-69 struct nabto_device_authorization_module; [a_gone]: the listener has been
    freed, module->listener is not changed by that. *)
Record st := { a_reqs : nat -> option req; a_listener : option lst; a_gone : bool }.

(** nabto_device_authorization_init_module 278-295. *)
Definition init : st := {| a_reqs := fun _ => None; a_listener := None; a_gone := false |}.

Definition set_req (s : st) (r : nat) (v : req) : st :=
  {| a_reqs := fun x => if Nat.eqb x r then Some v else a_reqs s x; a_listener := a_listener s; a_gone := a_gone s |}.
Definition set_listener (s : st) (l : lst) : st :=
  {| a_reqs := a_reqs s; a_listener := Some l; a_gone := a_gone s |}.

Inductive op :=
| Create (r : nat) | Discard (r : nat) | Check (r : nat)  (* the platform *)
| RunVerdict (r : nat)                                    (* the event loop runs the verdict event of r *)
| InitListener | Ask (f p : nat)                          (* the application *)
| Verdict (r : nat) (v : bool) | FreeReq (r : nat)
| StopListener | FreeListener.

Inductive out :=
| L (o : ListenerModel.out)                   (* the listener; L (Write p r): the application gets the request *)
| InUse                                       (* nabto_device_authorization_request_init_listener gives IN_USE *)
| Told (r : nat) (v : bool)                   (* the callback given to check_access is called *)
| Freed (r : nat).                            (* the memory is released *)

(** None: memory which is not there is used. *)
Definition get (s : st) (r : nat) : option req :=
  match a_reqs s r with
  | Some v => if q_freed v then None else Some v
  | None => None
  end.

(** create_request 31-53. A number is used once. *)
Definition create (s : st) (r : nat) : option st :=
  match a_reqs s r with
  | Some _ => None
  | None => Some (set_req s r {| q_ref := 1; q_done := false; q_verdict := false; q_posted := false; q_checked := false; q_freed := false |})
  end.

(** nabto_device_authorization_request_ref_inc 298-301. *)
Definition ref_inc (s : st) (r : nat) : option st :=
  match get s r with
  | None => None
  | Some v => Some (set_req s r {| q_ref := S (q_ref v); q_done := q_done v; q_verdict := q_verdict v; q_posted := q_posted v;
                                   q_checked := q_checked v; q_freed := false |})
  end.

(** nabto_device_authorization_request_ref_dec 303-320. *)
Definition ref_dec (s : st) (r : nat) : option (st * list out) :=
  match get s r with
  | None => None
  | Some v => match q_ref v with
              | O => None
              | S n => Some (set_req s r {| q_ref := n; q_done := q_done v; q_verdict := q_verdict v; q_posted := q_posted v;
                                            q_checked := q_checked v; q_freed := Nat.eqb n 0 |},
                             if Nat.eqb n 0 then [Freed r] else [])
              end
  end.

(** nabto_device_authorization_do_verdict 98-106. *)
Definition do_verdict (s : st) (r : nat) (b : bool) : option st :=
  match get s r with
  | None => None
  | Some v => if q_done v then Some s
              else Some (set_req s r {| q_ref := q_ref v; q_done := true; q_verdict := b; q_posted := true;
                                        q_checked := q_checked v; q_freed := false |})
  end.

(** nabto_device_authorization_listener_callback 37-53 of nabto_device_authorization_events.c, for what the listener
    does with its events. *)
Fixpoint callbacks (s : st) (l : list ListenerModel.out) : option st :=
  match l with
  | [] => Some s
  | Write _ r :: l => match ref_inc s r with Some s => callbacks s l | None => None end
  | Released r _ :: l => match do_verdict s r false with Some s => callbacks s l | None => None end
  | _ :: l => callbacks s l
  end.
Definition listen (s : st) (x : lst * list ListenerModel.out) : option (st * list out) :=
  match callbacks (set_listener s (fst x)) (snd x) with Some s => Some (s, map L (snd x)) | None => None end.

(** The application has the listener from the beginning, module->listener is set when it is initialised. *)
Definition the_listener (s : st) : lst := match a_listener s with Some l => l | None => fresh_listener end.

(** check_access 70-95. *)
Definition check (s : st) (r : nat) : option (st * list out) :=
  match get s r with
  | None => None
  | Some v =>
    let s := set_req s r {| q_ref := q_ref v; q_done := q_done v; q_verdict := q_verdict v; q_posted := q_posted v;
                            q_checked := true; q_freed := false |} in
    match a_listener s with
    | None => match do_verdict s r false with Some s => Some (s, []) | None => None end
    | Some l =>
      if a_gone s then None else
      let (l', o) := add_event l r in
      match listen s (l', o) with
      | None => None
      | Some (s, o') => match o with
                        | Refused _ _ :: _ => match do_verdict s r false with Some s => Some (s, o') | None => None end
                        | _ => Some (s, o')
                        end
      end
    end
  end.

(** handle_verdict 63-68. Without a callback (the request has not been checked) it would call NULL. *)
Definition handle_verdict (s : st) (r : nat) : option (st * list out) :=
  match get s r with
  | None => None
  | Some v => if q_checked v
              then match ref_dec s r with Some (s, o) => Some (s, Told r (q_verdict v) :: o) | None => None end
              else None
  end.

(** The event queue: runs an event which is posted, once. *)
Definition run_verdict (s : st) (r : nat) : option (st * list out) :=
  match a_reqs s r with
  | Some v => if q_posted v
              then handle_verdict (set_req s r {| q_ref := q_ref v; q_done := q_done v; q_verdict := q_verdict v; q_posted := false;
                                                  q_checked := q_checked v; q_freed := q_freed v |}) r
              else Some (s, [])
  | None => Some (s, [])
  end.

Definition step (s : st) (o : op) : option (st * list out) :=
  match o with
  | Create r => match create s r with Some s => Some (s, []) | None => None end
  | Discard r => ref_dec s r                                              (* 55-61 *)
  | Check r => check s r
  | RunVerdict r => run_verdict s r
  | InitListener =>                                                       (* nabto_device_authorization_events.c 55-74 *)
    match a_listener s with
    | Some _ => Some (s, [InUse])
    | None => Some (set_listener s (listener_init fresh_listener), [])
    end
  | Ask f p =>                                                            (* 79-111 *)
    if a_gone s then None else
    match a_listener s with
    | Some l => listen s (new_future l f p)
    | None => Some (s, map L (snd (new_future fresh_listener f p)))
    end
  | Verdict r v => match do_verdict s r v with Some s => Some (s, []) | None => None end   (* 132-141 *)
  | FreeReq r => match do_verdict s r false with Some s => ref_dec s r | None => None end  (* 111-126 *)
  | StopListener =>
    if a_gone s then None else
    match a_listener s with
    | Some l => listen s (stop l)
    | None => Some (s, [])
    end
  | FreeListener => if a_gone s then None
                    else Some ({| a_reqs := a_reqs s; a_listener := a_listener s; a_gone := true |}, [])
  end.

Fixpoint run (s : st) (h : list op) : option (st * list (op * list out)) :=
  match h with
  | [] => Some (s, [])
  | o :: h => match step s o with
              | None => None
              | Some (s1, l) => match run s1 h with Some (s2, t) => Some (s2, (o, l) :: t) | None => None end
              end
  end.
