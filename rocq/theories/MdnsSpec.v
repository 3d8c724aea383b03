(** * Specification of the mDNS server properties (C96)

    In terms of the calls of the device (publish, close, stop), the results
    of the operating system, and the packets which leave the device. *)
From Coq Require Import List Arith NArith Bool.
From Verif Require Import MdnsModel.
Import ListNotations.

(** What the application has asked for so far: nothing, a service (with the
    port and description last published), the same service being withdrawn,
    or an unconditional stop.  Publishing is only heard while nobody closed
    or stopped the server; closing only matters once something is
    published. *)
Inductive wish :=
  | Nothing | Serve (p n : nat) | Withdrawn (p n : nat) | Over (s : option (nat * nat)).

Definition wish1 (w : wish) (o : op) : wish :=
  match o, w with
  | Publish p n, (Nothing | Serve _ _) => Serve p n
  | Close _ _, Serve p n => Withdrawn p n
  | Stop, Nothing => Over None
  | Stop, Serve _ _ => Over None
  | Stop, Withdrawn p n => Over (Some (p, n))
  | _, _ => w
  end.
Definition wish_of (l : list op) : wish := fold_left wish1 l Nothing.

(** A packet is faithful to the wish: an announcement or answer carries what
    is published now; a goodbye carries what was published when the server
    was closed. *)
Definition Faithful (w : wish) (p : packet) : Prop :=
  if p_goodbye p
  then w = Withdrawn (p_port p) (p_info p) \/ w = Over (Some (p_port p, p_info p))
  else w = Serve (p_port p) (p_info p).

(** The local addresses the operating system reported at this moment. *)
Definition ips_of (o : op) : list nat :=
  match o with
  | OpenDone _ _ v | RecvDone _ _ _ _ v | Close _ v | InstClosed v => e_ips v
  | _ => []
  end.

(** The packets of a family in an execution, by kind. *)
Definition fam_eqb (f g : fam) : bool :=
  match f, g with V4, V4 | V6, V6 => true | _, _ => false end.
Definition is_sent (f : fam) (x : out) : bool :=
  match x with Sent g _ _ => fam_eqb f g | _ => false end.
Definition is_bye (f : fam) (x : out) : bool :=
  match x with Sent g _ p => fam_eqb f g && p_goodbye p | _ => false end.
Definition count (h : out -> bool) (o : list out) : nat := length (filter h o).

(** How often the closed event [c] was given to close, and resolved. *)
Definition asked (c : nat) (l : list op) : nat :=
  length (filter (fun o => match o with Close d _ => d =? c | _ => false end) l).
Definition answered (c : nat) (o : list out) : nat :=
  count (fun x => match x with Resolved d _ => d =? c | _ => false end) o.

(** The operating system refused a socket of this family, or reported an
    error other than "try again" when receiving on it. *)
Definition broken1 (f : fam) (o : op) : bool :=
  match o with
  | OpenDone g e _ => fam_eqb f g && match e with EOk => false | _ => true end
  | RecvDone g e _ r _ =>
      fam_eqb f g && match e, r with
                     | EOk, (RPacket _ _ _ | RAgain) => false
                     | _, _ => true
                     end
  | _ => false
  end.
Definition broken (f : fam) (l : list op) : bool := existsb (broken1 f) l.

(** Memory is available and the packet fits into the buffer. *)
Definition good (v : env) : Prop := e_mem v = true /\ e_fits v = true.

(** The reply to a query: to the multicast group when the query came from
    the mDNS port, otherwise to the asker alone. *)
Definition reply_dest (ep : nat) (sport : N) : dest :=
  if (sport =? 5353)%N then Group else Peer ep.

(** Operations still outstanding on a family at the platform. *)
Definition outstanding (s : st) (f : fam) : nat :=
  (if opening (get s f) then 1 else 0) +
  (match sending (get s f) with Some _ => 1 | None => 0 end) +
  (if waiting (get s f) then 1 else 0).

(** The platform has delivered everything it owes to a close: all sends are
    complete, the close event has been dispatched. *)
Definition Settled (s : st) : Prop :=
  sending (i4 s) = None /\ sending (i6 s) = None /\ inst_closed s = None.
