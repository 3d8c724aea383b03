(** Vocabulary of the password authentication properties: everything is said
    about the operations and the observations they produce. *)
From Coq Require Import String Ascii List Bool Arith NArith.
From Verif Require Import PwAuthModel.
Import ListNotations.

(** Milliseconds that pass during a list of operations. *)
Definition elapsed (l : list op) : N :=
  fold_right (fun o n => match o with Tick ms => (ms + n)%N | _ => n end) 0%N l.

(** Number of observations satisfying a test. *)
Definition count (f : out -> bool) (l : list out) : nat := List.length (filter f l).
Definition is_rejected_proof (o : out) : bool :=
  match o with Checked _ _ false => true | _ => false end.
Definition answers_request (r : nat) (o : out) : bool :=
  match o with Answer r' _ => Nat.eqb r r' | _ => false end.
Definition has_code (code : nat) (o : out) : bool :=
  match o with Answer _ c => Nat.eqb code c | _ => false end.

(** No key was computed on connection c. *)
Definition no_exchange (c : nat) (l : list out) : Prop :=
  forall x k ok, ~ In (Exchanged c x k ok) l.

(** In the observations l the client of connection c presented the confirmation
    of the key k computed in exchange x, which was the latest key computed on that
    connection at that time. *)
Definition proved_key (C : crypto) (c : nat) (x : exchange) (k : string) (ok : bool)
    (l : list out) : Prop :=
  exists l1 l2 l3,
    l = (l1 ++ Exchanged c x k ok :: l2 ++ Checked c (confirmation C k) true :: l3)%list
    /\ no_exchange c l2.

(** The client of connection c proved a key which was computed for user u. *)
Definition proved_as (C : crypto) (c : nat) (u : string) (l : list out) : Prop :=
  exists x k, proved_key C c x k true l /\ x_user x = u.

(** The application still owns an unanswered request object for r, or it is
    waiting in the listener. *)
Definition outstanding (s : state) (r : nat) : Prop :=
  exists q, In q (st_queue s ++ st_app s) /\ rq_id q = r /\ rq_handled q = false.

(** Number of CoAP requests in a history; they are numbered in this order. *)
Definition is_request (o : op) : bool :=
  match o with Step1 _ _ => true | Step2 _ _ => true | _ => false end.
Definition requests_in (h : list op) : nat := List.length (filter is_request h).

(** The history contains, as CoAP request number r, a password request on
    connection c for user u with client share T. *)
Definition asked (h : list op) (r c : nat) (u T : string) : Prop :=
  exists h1 h2, h = (h1 ++ Step1 c (BRequest u T) :: h2)%list /\ requests_in h1 = r.

(** Where the inputs of a key exchange on connection c come from: the connection's
    fingerprints, a password request on this connection, and the password the
    application set for that request (or the dummy password). *)
Definition exchange_origin (h : list op) (c : nat) (x : exchange) : Prop :=
  In (Connect c (x_cfp x) (x_dfp x)) h /\
  exists r, asked h r c (x_user x) (x_T x) /\
    (x_password x = None \/ exists rnd, In (SetPassword r (x_password x) rnd) h).
