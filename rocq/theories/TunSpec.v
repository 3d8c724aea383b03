(** What users of TCP tunnels rely on, in terms of the calls made and what is seen. *)
From Coq Require Import List Bool Arith NArith String.
From Verif Require Import TunModel.
Import ListNotations.

(** The connections which are open and have not been told to stop: those opened, without those which ended or were stopped. *)
Definition ledger1 (l : list (nat * string)) (x : op + out) : list (nat * string) :=
  match x with
  | inr (Opened c t _ _) => l ++ [(c, t)]
  | inr (Stopped c) => filter (fun e => negb (Nat.eqb (fst e) c)) l
  | inl (ConnEnd c) => filter (fun e => negb (Nat.eqb (fst e) c)) l
  | _ => l
  end.
(** A history: each call followed by what is seen. *)
Fixpoint history (s : st) (l : list op) : list (op + out) :=
  match l with [] => [] | v :: l => let (s', o) := step s v in inl v :: map inr o ++ history s' l end.
Definition ledger (h : list (op + out)) : list (nat * string) := fold_left ledger1 h [].
Definition of_type (t : string) (l : list (nat * string)) : nat := List.length (filter (fun e => String.eqb (snd e) t) l).
(** Every connection opened which has not ended, including those told to stop. *)
Definition alive1 (l : list (nat * string)) (x : op + out) : list (nat * string) :=
  match x with
  | inr (Opened c t _ _) => l ++ [(c, t)]
  | inl (ConnEnd c) => filter (fun e => negb (Nat.eqb (fst e) c)) l
  | _ => l
  end.
Definition alive (h : list (op + out)) : list (nat * string) := fold_left alive1 h [].
(** The limit the application set last for a type; a limit above INT_MAX, or a call which failed, leaves none. *)
Definition limit1 (t : string) (m : option nat) (v : op) : option nat :=
  match v with
  | Limit t' n a => if String.eqb t' t then (if (int_max <? n)%N then None else if a then Some (N.to_nat n) else None) else m
  | Deinit => None
  | _ => m
  end.
Definition limit_of (t : string) (l : list op) : option nat := fold_left (limit1 t) l None.
(** What happened to an incoming stream or to a request. *)
Definition settled (x : nat) (o : list out) : nat := List.length (filter (fun e => match e with Opened c _ _ _ | Destroyed c => Nat.eqb c x | _ => false end) o).
Definition answers (r : nat) (o : list out) : nat := List.length (filter (fun e => match e with Answer q _ => Nat.eqb q r | _ => false end) o).
Definition streams (l : list op) : list nat := flat_map (fun v => match v with Incoming _ _ x _ => [x] | _ => [] end) l.
Definition requests (l : list op) : list nat := flat_map (fun v => match v with ListServices _ r _ | GetService _ _ _ r _ => [r] | _ => [] end) l.
(** It waits for a verdict. *)
Definition waits_stream (x : nat) (s : st) : nat := List.length (filter (fun e => match snd e with ForStream _ c => Nat.eqb c x | _ => false end) (pend s)).
Definition waits_request (r : nat) (s : st) : nat := List.length (filter (fun e => match snd e with ForList q | ForGet _ q => Nat.eqb q r | _ => false end) (pend s)).
(** The services there are: those added with success, without those removed with success; a removal takes the oldest with that identifier. *)
Fixpoint drop_first (i : string) (l : list string) : list string := match l with [] => [] | j :: l => if String.eqb j i then l else j :: drop_first i l end.
Definition succeeded (o : list out) : bool := existsb (fun x => match x with Result Ok => true | _ => false end) o.
Definition present1 (l : list string) (x : op * list out) : list string :=
  match x with
  | (AddService i _ _ _ _ _ _, o) => if succeeded o then l ++ [i] else l
  | (RemoveService i, o) => if succeeded o then drop_first i l else l
  | (Deinit, _) => []
  | _ => l
  end.
Fixpoint calls (s : st) (l : list op) : list (op * list out) := match l with [] => [] | v :: l => let (s', o) := step s v in (v, o) :: calls s' l end.
Definition present (l : list op) : list string := fold_left present1 (calls init l) [].
(** The identifiers used for services. *)
Definition added (l : list op) : list string := flat_map (fun v => match v with AddService i _ _ _ _ _ _ => [i] | _ => [] end) l.
(** The numbers of the requests for authorisation. *)
Definition asked (o : list out) : list nat := flat_map (fun x => match x with Ask n _ => [n] | _ => [] end) o.
(** What the application is asked about a service. *)
Definition about (i t : string) : list (string * string) := [("TcpTunnel:ServiceId"%string, i); ("TcpTunnel:ServiceType"%string, t)].
