(** Specification for the properties C42 to C45 and C73 to C76, on traces: what happened and what came out. *)
From Coq Require Import List NArith Bool.
From Verif Require Import NetModel.
Import ListNotations.
Local Open Scope N_scope.

Definition trace := list (move * list out).
Definition outs (t : trace) : list out := flat_map snd t.

(** C42: the references which the application or the core has been given for new connections, the ones which are open, the limit which
    is in force. *)
Definition new_ref (x : out) : list N := match x with Created r | Ref (Some r) => [r] | _ => [] end.
Definition refs (t : trace) : list N := flat_map new_ref (outs t).
Definition change (l : list N) (x : out) : list N :=
  match x with
  | Created r | Ref (Some r) => l ++ [r]
  | Gone r => filter (fun y => negb (N.eqb y r)) l
  | _ => l
  end.
Definition opened (t : trace) : list N := fold_left change (outs t) [].
Definition limit (t : trace) : N := fold_left (fun n x => match fst (fst x) with Limit m => m | _ => n end) t u64_max.

(** C44: who gets a packet. *)
Inductive target := Stun | Attacher | Clients | RendezvousPart.
Definition target_of (h : handlers) (p : list N) : option target :=
  match p with
  | [] => None
  | x :: _ => if h_stun h && N.leb x 1 then Some Stun
              else if h_attacher h && N.leb 20 x && N.leb x 64 then Some Attacher
              else if h_clients h && N.eqb x 240 then Some Clients
              else if h_rendezvous h && N.eqb x 241 then Some RendezvousPart
              else None
  end.
(** The connection id of a packet: the 14 bytes after the first one. *)
Definition id_of (p : list N) : list N := firstn 14 (skipn 1 p).
(** The DTLS module hands over data which is not empty. *)
Definition data_ok (m : move) : Prop :=
  (forall n, ~ In (Data n []) (a_dtls (snd m))) /\ match fst m with DtlsEvent _ (Data _ []) => False | _ => True end.
(** A client hello in a DTLS record: handshake (22), the type of the handshake message (after 13 bytes of record header) is 1. *)
Definition client_hello (p : list N) : Prop := nth_error p 16 = Some 22 /\ nth_error p 29 = Some 1.

(** C43: where the next packet for the client goes, and whether the connection is local. *)
Definition endpoint (r : N) (s : net) : option (nat * nat) :=
  match from_ref r s with Some {| n_impl := Some k |} => Some (ch_sock (k_cur k), ch_ep (k_cur k)) | _ => None end.
Definition is_local (r : N) (s : net) : bool := match endpoint r s with Some (k, _) => Nat.eqb k 1 | None => false end.
Definition channel (r : N) (s : net) : option N :=
  match from_ref r s with Some {| n_impl := Some k |} => Some (ch_id (k_cur k)) | _ => None end.
Definition conn_id (r : N) (s : net) : option (list N) :=
  match from_ref r s with Some {| n_impl := Some k |} => Some (id_of (k_id k)) | _ => None end.
(** Data which DTLS has authenticated. *)
Definition authentic (v : dtls) : bool := match v with Data _ _ => true | _ => false end.

(** C45: a response and the request for it. Packets which start with 241 are rendezvous packets; the last byte is the kind: 1 and 4 are requests,
    2 and 5 the responses for them, 3 is the packet which the device sends to find a way to the client. *)
Definition count {A} (f : A -> bool) (l : list A) : nat := length (filter f l).
Definition is_packet (k ep : nat) (q : list N) (x : out) : bool :=
  match x with Udp k' ep' q' => Nat.eqb k k' && Nat.eqb ep ep' && bytes_eqb q q' | _ => false end.
Definition response (q : list N) : Prop := nth_error q 0 = Some 241 /\ (last q 0 = 2 \/ last q 0 = 5).
Definition answer (p : list N) : list N := 241 :: id_of p ++ [nth 15 p 0; if N.eqb (nth 16 p 0) 1 then 2 else 5].
Definition asks (k ep : nat) (q : list N) (m : move) : bool :=
  match fst m with
  | Packet h k' ep' p => match target_of h p with Some RendezvousPart => true | _ => false end && Nat.eqb k k' && Nat.eqb ep ep' && Nat.leb 17 (length p) &&
      (N.eqb (nth 16 p 0) 1 || N.eqb (nth 16 p 0) 4) && bytes_eqb q (answer p)
  | _ => false
  end.

(** C73: the application is told that everything is closed. *)
Definition is_cb (x : out) : bool := match x with CloseCb => true | _ => false end.
Definition is_close (m : move) : bool := match fst m with CloseAll _ => true | _ => false end.
(** C74: steps in which an error is sent for a packet, and in which it has been sent. *)
Definition error_reply (x : move * list out) : bool :=
  match fst (fst x) with Packet _ _ _ _ => existsb (fun y => match y with Udp _ _ (b :: _) => N.eqb b 240 | _ => false end) (snd x) | _ => false end.
Definition error_sent (x : move * list out) : bool := match fst (fst x) with ErrorSent => true | _ => false end.
(** C76: the send of a connection which has not completed. *)
Definition pending_after (r : N) (p : option nat) (x : move * list out) : option nat :=
  match fst (fst x) with
  | Send r' _ _ tok => if N.eqb r r' && existsb (fun y => match y with Return Ok => true | _ => false end) (snd x) then Some tok else p
  | Sent r' _ => if N.eqb r r' then None else p
  | _ => p
  end.
Definition pending (r : N) (t : trace) : option nat := fold_left (pending_after r) t None.
(** C75: the sequence numbers of the data which DTLS has authenticated so far. *)
Definition seq_of (v : dtls) : list N := match v with Data n _ => [n] | _ => [] end.
Definition seqs (h : list move) : list N := flat_map (fun m => flat_map seq_of (a_dtls (snd m)) ++ match fst m with DtlsEvent _ v => seq_of v | _ => [] end) h.
