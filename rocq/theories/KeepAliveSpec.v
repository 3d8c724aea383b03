(** Words for the keep alive properties C29, C30 and C72. *)
From Coq Require Import List Bool Arith NArith String.
From Verif Require Import KeepAliveModel.
Import ListNotations.

(** What a history gives out. *)
Definition outs (c : conn) (h : list op) : list out := snd (run c h).
Definition after (c : conn) (h : list op) : conn := fst (run c h).

(** The connection is a new one, the last settings of the server are i, r, m and keep alive is started.
    [pre] is whatever happened with earlier connections. *)
Definition started (pre : list op) (i r m : N) : conn :=
  after conn_init (pre ++ [Reconnect; Settings i r m; Attached]).

Definition is_tick (o : op) : bool := match o with Tick => true | _ => false end.
Definition is_recv (o : op) : bool := match o with Recv _ => true | _ => false end.
Definition is_sent (o : op) : bool := match o with Sent => true | _ => false end.
Definition count (f : op -> bool) (h : list op) : nat := List.length (filter f h).

(** The connection stays the same, with the same settings. *)
Definition same_conn (o : op) : bool := match o with Settings _ _ _ | Reconnect => false | _ => true end.
(** Nothing is received. *)
Definition quiet (o : op) : bool := match o with Sent | Done | Tick => true | _ => false end.
(** What happens between two ticks. *)
Definition between (o : op) : bool := match o with Recv _ | Sent | Done => true | _ => false end.

(** A history as the pieces between the ticks. *)
Fixpoint with_ticks (segs : list (list op)) : list op :=
  match segs with [] => [] | g :: t => g ++ Tick :: with_ticks t end.

(** Something is both received and sent. *)
Definition lively (g : list op) : Prop :=
  forallb between g = true /\ existsb is_recv g = true /\ existsb is_sent g = true.

(** The peer answers: something is received in every piece, and a piece which starts with a keep alive packet
    on its way has that packet (or some other) written. *)
Fixpoint answered (c : conn) (segs : list (list op)) : Prop :=
  match segs with
  | [] => True
  | g :: t => forallb between g = true /\ existsb is_recv g = true /\
              (ka_sending (c_ka c) = true -> existsb is_sent g = true) /\
              answered (after c (g ++ [Tick])) t
  end.

(** Steps with what they give out. *)
Fixpoint trace (c : conn) (h : list op) : list (op * list out) :=
  match h with [] => [] | o :: h => let (c1, o1) := step c o in (o, o1) :: trace c1 h end.
Definition sends (o : list out) : bool := existsb (fun x => match x with OSend _ => true | _ => false end) o.
(** A keep alive packet has been handed over and its completion has not come. *)
Fixpoint on_its_way (b : bool) (t : list (op * list out)) : bool :=
  match t with
  | [] => b
  | (o, l) :: t => on_its_way (match o with Done => false | _ => if sends l then true else b end) t
  end.
Definition the_request : list N := 4%N :: 3%N :: repeat 0%N 16.
Definition the_response (q : list N) : list N := 4%N :: 4%N :: firstn 16 (skipn 2 q).

(** The keep alive settings of a response: all three are numbers. *)
Definition settings_of (root : cv) : option (N * N * N) :=
  match find "KeepAlive"%string root with
  | CMap l => match assoc "Interval"%string l, assoc "RetryInterval"%string l, assoc "MaxRetries"%string l with
              | CUint i, CUint r, CUint m => Some (i, r, m)
              | _, _, _ => None
              end
  | _ => None
  end.
