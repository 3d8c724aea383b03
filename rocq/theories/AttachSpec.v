(** Words for the properties C37 to C41. *)
From Coq Require Import List Bool Arith.
From Verif Require Import AttachModel.
Import ListNotations.

Definition trace := list (move * list out).
Definition outs (t : trace) : list out := flat_map snd t.

(** What has happened to the outside: the DTLS connection which exists, whether its handshake is done, whether it is
    told to close; the connections for which a request has been sent which is not answered; what the server has got
    as tokens on this connection. *)
Record world := {
  w_live : option nat; w_hand : bool; w_closing : bool;
  w_start : option nat; w_end : option nat; w_up : option (option nat * list nat); w_acked : list nat }.
Definition outside : world :=
  {| w_live := None; w_hand := false; w_closing := false; w_start := None; w_end := None; w_up := None; w_acked := [] |}.

Definition hear (w : world) (o : op) : world :=
  match o with
  | Dtls _ Handshake => {| w_live := w_live w; w_hand := true; w_closing := w_closing w; w_start := w_start w; w_end := w_end w; w_up := w_up w; w_acked := w_acked w |}
  | StartAnswer _ => {| w_live := w_live w; w_hand := w_hand w; w_closing := w_closing w; w_start := None; w_end := w_end w; w_up := w_up w; w_acked := w_acked w |}
  | EndAnswer _ => {| w_live := w_live w; w_hand := w_hand w; w_closing := w_closing w; w_start := w_start w; w_end := None; w_up := w_up w; w_acked := w_acked w |}
  | UploadAnswer ok => {| w_live := w_live w; w_hand := w_hand w; w_closing := w_closing w; w_start := w_start w; w_end := w_end w; w_up := None;
                          w_acked := match ok, w_up w with true, Some (_, l) => l | _, _ => w_acked w end |}
  | _ => w
  end.
Definition look (w : world) (x : out) : world :=
  match x with
  | Connect c => {| w_live := Some c; w_hand := false; w_closing := false; w_start := w_start w; w_end := w_end w; w_up := w_up w; w_acked := [] |}
  | Destroy c => {| w_live := None; w_hand := w_hand w; w_closing := w_closing w; w_start := w_start w; w_end := w_end w; w_up := w_up w; w_acked := [] |}
  | AsyncClose c => {| w_live := w_live w; w_hand := w_hand w; w_closing := true; w_start := w_start w; w_end := w_end w; w_up := w_up w; w_acked := w_acked w |}
  | SendStart c => {| w_live := w_live w; w_hand := w_hand w; w_closing := w_closing w; w_start := c; w_end := w_end w; w_up := w_up w; w_acked := w_acked w |}
  | SendEnd c => {| w_live := w_live w; w_hand := w_hand w; w_closing := w_closing w; w_start := w_start w; w_end := c; w_up := w_up w; w_acked := w_acked w |}
  | Upload c l => {| w_live := w_live w; w_hand := w_hand w; w_closing := w_closing w; w_start := w_start w; w_end := w_end w; w_up := Some (c, l); w_acked := w_acked w |}
  | _ => w
  end.
Definition see (w : world) (x : move * list out) : world := fold_left look (snd x) (hear w (fst (fst x))).
Definition world_of (t : trace) : world := fold_left see t outside.

(** What the DTLS and the CoAP client do. Events come from the connection which exists, which does one handshake. An answer
    of the server comes on the connection which exists; requests of connections which do not exist any more fail
    at any later time. *)
Definition allowed (w : world) (o : op) : Prop :=
  match o with
  | Dtls c v => w_live w = Some c /\ (v = Handshake -> w_hand w = false)
  | StartAnswer a => a = Nothing \/ (w_live w <> None /\ w_start w = w_live w)
  | EndAnswer ok => ok = false \/ (w_live w <> None /\ w_end w = w_live w)
  | UploadAnswer ok => ok = false \/ (w_live w <> None /\ exists l, w_up w = Some (w_live w, l))
  | _ => True
  end.
Fixpoint obeys (s : st) (w : world) (h : list move) : Prop :=
  match h with
  | [] => True
  | (o, e) :: h => allowed w o /\ let (s1, l) := step e o s in obeys s1 (see w ((o, e), l)) h
  end.

Definition reached (h : list move) : Prop := obeys init outside h.

(** C37: the redirects which have been followed since the configured server was tried. *)
Fixpoint hops (n : nat) (l : list out) : nat :=
  match l with
  | [] => n
  | Resolve Configured :: l => hops 0 l
  | Resolve (Other _) :: l => hops (S n) l
  | _ :: l => hops n l
  end.
(** The target of the last redirect answer. *)
Fixpoint last_goto (x : option nat) (t : trace) : option nat :=
  match t with
  | [] => x
  | ((StartAnswer (Goto n), _), _) :: t => last_goto (Some n) t
  | _ :: t => last_goto x t
  end.

(** C38: attached and detached in turns; [b]: the application believes that it is attached. *)
Fixpoint turns (b : bool) (l : list out) : Prop :=
  match l with
  | [] => True
  | News NewsAttached :: l => b = false /\ turns true l
  | News NewsDetached :: l => b = true /\ turns false l
  | _ :: l => turns b l
  end.
Fixpoint is_attached (b : bool) (l : list out) : bool :=
  match l with
  | [] => b
  | News NewsAttached :: l => is_attached true l
  | News NewsDetached :: l => is_attached false l
  | _ :: l => is_attached b l
  end.
(** The events without the DETACHED which goes with the end of a detach request of the application. *)
Fixpoint own (l : list out) : list out :=
  match l with
  | ClosedCb Disable :: News NewsDetached :: l => own l
  | x :: l => x :: own l
  | [] => []
  end.
Definition events (t : trace) : list out := flat_map (fun x => own (snd x)) t.
Definition disables (m : move) : bool := match fst m with Close Disable => true | _ => false end.

(** C39. *)
Definition begins (m : move) : bool := match fst m with Start | Restart => true | _ => false end.
Definition closes (m : move) : bool := match fst m with Close _ | Stop => true | _ => false end.
Definition asks (m : move) : bool := match fst m with Close _ => true | _ => false end.
Definition attempt (x : out) : bool :=
  match x with Resolve _ | Connect _ | SendStart _ | SendEnd _ | News NewsAttached => true | _ => false end.
Definition asked (k : closer) (t : trace) : nat :=
  length (filter (fun x => match fst (fst x), k with Close DeviceClose, DeviceClose | Close Disable, Disable => true | _, _ => false end) t).
Definition answered (k : closer) (t : trace) : nat :=
  length (filter (fun x => match x, k with ClosedCb DeviceClose, DeviceClose | ClosedCb Disable, Disable => true | _, _ => false end) (outs t)).
(** The host names which are being resolved. *)
Definition busy (t : trace) : nat :=
  fold_left (fun n x => match fst (fst x) with Resolved _ => pred n | _ => n end +
                        length (filter (fun y => match y with Resolve _ => true | _ => false end) (snd x))) t 0.

(** C40: what happens without the application. *)
Definition environment (m : move) : bool :=
  match fst m with Start | Restart | Close _ | Stop | AddToken _ | Synchronized => false | _ => true end.

Definition started (t : trace) : bool :=
  fold_left (fun b x => match fst (fst x) with
                        | Start | Restart => b || existsb (fun y => match y with Return Ok => true | _ => false end) (snd x)
                        | Close _ | Stop => false
                        | _ => b
                        end) t false.
Definition tries (x : out) : bool := match x with Resolve _ | Connect _ | News NewsAttached => true | _ => false end.
(** The attacher does something. *)
Definition reacts (o : op) (s : st) : bool :=
  match o with
  | Resolved _ => negb (Nat.eqb (p_dns s) 0)
  | Run => match p_queue s with [] => false | _ => true end
  | Timer => p_timer s
  | StartAnswer _ => match p_start s with Some _ => true | None => false end
  | UploadAnswer _ => match p_sct s with Some _ => true | None => false end
  | EndAnswer _ => match p_end s with Some _ => true | None => false end
  | KeepAliveLost => p_ka s
  | _ => true
  end.
Fixpoint reactions (s : st) (h : list move) : nat :=
  match h with
  | [] => 0
  | (o, e) :: h => (if reacts o s then 1 else 0) + reactions (fst (step e o s)) h
  end.
(** Something is outstanding: the resolver, an event in the event queue, the timer, or the connection which is doing its
    handshake or is closing or has a request which is not answered. *)
Definition outstanding (s : st) (w : world) : Prop :=
  p_dns s > 0 \/ p_queue s <> [] \/ p_timer s = true \/
  exists c, w_live w = Some c /\
    (w_hand w = false \/ w_closing w = true \/ w_start w = Some c \/ w_end w = Some c \/ exists l, w_up w = Some (Some c, l)).
(** No memory runs out when the resolver or a connection is started. *)
Definition memory (m : move) : bool := e_dns (snd m) && e_create (snd m).

(** C41: the tokens which were added. *)
Definition added (t : trace) : list nat :=
  flat_map (fun x => match fst (fst x) with
                     | AddToken n => if existsb (fun y => match y with Return Ok => true | _ => false end) (snd x) then [n] else []
                     | _ => []
                     end) t.
