(** * Specification of requests to the basestation (C94) *)
From Coq Require Import List ZArith NArith String Ascii Bool.
From Verif Require Import CloModel.
Import ListNotations.
Open Scope list_scope.

Definition count {A} (p : A -> bool) (l : list A) : nat := List.length (filter p l).

Definition is_asked (f : nat) (x : out) : bool := match x with Asked g => Nat.eqb f g | _ => false end.
Definition is_resolved (f : nat) (x : out) : bool := match x with Resolved g _ => Nat.eqb f g | _ => false end.
Definition is_created (x : out) : bool := match x with Created => true | _ => false end.
Definition is_released (x : out) : bool := match x with Released => true | _ => false end.

(** A future is resolved at most as often as it was given to the object, at
    every moment. *)
Definition Once (o : list out) : Prop :=
  forall f a b, o = a ++ b -> count (is_resolved f) a <= count (is_asked f) a.

(** The operations of the application on the object are finished: a request
    which was handed to the CoAP client has been answered. *)
Definition is_posted (x : out) : bool := match x with Posted _ _ => true | _ => false end.
Definition is_given (x : out) : bool := match x with Given _ => true | _ => false end.
Definition Quiet (o : list out) : Prop := count is_posted o = count is_given o.

(** Nothing undefined happens. *)
Definition Safe (o : list out) : Prop := ~ In UseAfterFree o /\ ~ In NullRead o.

(** The entry of a map under a text key. *)
Definition Entry (m : list (cbor * cbor)) (k : string) (v : cbor) : Prop :=
  exists a b, m = a ++ (CText k, v) :: b /\ forall w, ~ In (CText k, w) a.

(** The payload of a successful response. *)
Definition Payload (a : answer) (c : cbor) : Prop := a = AResponse 201 (Some 60) (Some (Some c)).

(** What the application is told is what the answer has. *)
Definition ToldFcm (a : answer) (v : view) : Prop :=
  exists m b, Payload a (CMap m) /\ Entry m "Body" (CText b) /\ body v = Some b /\
              Entry m "StatusCode" (CInt (status v)).

Definition NoInt (m : list (cbor * cbor)) (k : string) : Prop := forall z, ~ Entry m k (CInt z).

Definition ToldSvc (a : answer) (v : view) : Prop :=
  exists m, Payload a (CMap m) /\ Entry m "StatusCode" (CInt (status v)) /\
    ((Entry m "MessageFormat" (CInt (format v)) /\ (format v = 0 \/ format v = 2)%Z /\ Entry m "Message" (CBytes (message v))) \/
     (Entry m "MessageFormat" (CInt (format v)) /\ format v = 1%Z /\ message v = []) \/
     (NoInt m "MessageFormat" /\ format v = 0%Z /\ Entry m "Message" (CBytes (message v)))).

(** All the integers the functions of the API look at fit in 32 bits. *)
Definition Small (a : answer) : Prop :=
  forall m z, Payload a (CMap m) ->
    (Entry m "StatusCode" (CInt z) \/ Entry m "MessageFormat" (CInt z)) -> (- 2^31 <= z < 2^31)%Z.

(** A server of the list: the URLs are those of the answer; a name or a
    credential which is told is that of the answer. *)
Definition ServerOf (c : cbor) (s : server) : Prop :=
  exists m us, c = CMap m /\ Entry m "Urls" (CArr us) /\ us = map CText (urls s) /\
    (forall u, user s = Some u -> Entry m "Username" (CText u)) /\
    (forall p, cred s = Some p -> Entry m "Credential" (CText p)).

Definition ToldIce (a : answer) (v : view) : Prop :=
  exists l, Payload a (CArr l) /\ Forall2 ServerOf l (servers v).

(** Names and credentials which are in the answer and short enough are told. *)
Definition Complete (c : cbor) (s : server) : Prop :=
  exists m, c = CMap m /\
    (forall u, Entry m "Username" (CText u) -> (N.of_nat (String.length u) <= 4096)%N -> user s = Some u) /\
    (forall p, Entry m "Credential" (CText p) -> (N.of_nat (String.length p) <= 4096)%N -> cred s = Some p).

(** Each server has a name which is short enough. *)
Definition Named (a : answer) : Prop :=
  forall l c, Payload a (CArr l) -> In c l ->
    exists m u, c = CMap m /\ Entry m "Username" (CText u) /\ (N.of_nat (String.length u) <= 4096)%N.

(** What the application is told after an answer.  The integers of CBOR have
    64 bits: those which are told have to be [Small]. *)
Definition Told (k : kind) (a : answer) (v : view) : Prop :=
  match k with
  | Fcm => Small a -> ToldFcm a v
  | Svc => Small a -> ToldSvc a v
  | Ice => ToldIce a v
  end.

(** An answer which is a success: everything is there and short enough. *)
Definition Short (s : string) : Prop := (N.of_nat (String.length s) <= 4096)%N.
Definition Good (k : kind) (a : answer) : Prop :=
  match k with
  | Fcm => exists m b z, Payload a (CMap m) /\ Entry m "Body" (CText b) /\ Short b /\
             Entry m "StatusCode" (CInt z) /\ (0 <= z < 2^16)%Z
  | Svc => exists m z b, Payload a (CMap m) /\ Entry m "StatusCode" (CInt z) /\ (0 <= z < 2^16)%Z /\
             (Entry m "MessageFormat" (CInt 1) \/
              (Entry m "MessageFormat" (CInt 0) \/ Entry m "MessageFormat" (CInt 2) \/ NoInt m "MessageFormat") /\
              Entry m "Message" (CBytes b) /\ (N.of_nat (List.length b) <= 65536)%N)
  | Ice => exists l, Payload a (CArr l) /\
             forall c, In c l -> exists m us, c = CMap m /\ Entry m "Urls" (CArr (map CText us)) /\ Forall Short us
  end.

(** Every element of the list of servers is a map. *)
Definition Maps (a : answer) : Prop :=
  forall l c, Payload a (CArr l) -> In c l -> exists m, c = CMap m.

(** The values set last, successfully. *)
Fixpoint last_set {A} (f : op -> option (option A)) (l : list op) (x : option A) : option A :=
  match l with
  | [] => x
  | i :: l' => last_set f l' (match f i with Some y => y | None => x end)
  end.
Definition ident_of (i : op) : option (option string) :=
  match i with SetIdent v al => Some (if al then Some v else None) | _ => None end.
Definition payload_of (i : op) : option (option string) :=
  match i with SetPayload v al => Some (if al then Some v else None) | _ => None end.
Definition message_of (i : op) : option (option (list nat)) :=
  match i with SetMessage v al => Some (if al then Some v else None) | _ => None end.

(** The request which has to be sent after these operations. *)
Definition Wanted (k : kind) (l : list op) (id : string) (q : request) : Prop :=
  match k with
  | Fcm => exists i p, last_set ident_of l None = Some i /\ last_set payload_of l None = Some p /\ q = QFcm i p
  | Svc => exists i m, last_set ident_of l None = Some i /\ q = QSvc i m /\
                       (last_set message_of l None = Some m \/ (last_set message_of l None = None /\ m = []))
  | Ice => q = QIce id
  end.

(** What the application has to do: set what is needed before it sends, not
    stop or free the object when the request was answered, not free it
    before. *)
Definition ready (k : kind) (l : list op) : Prop :=
  match k with
  | Fcm => last_set ident_of l None <> None /\ last_set payload_of l None <> None
  | Svc => last_set ident_of l None <> None /\
           (last_set message_of l None <> None \/ forall v al, ~ In (SetMessage v al) l)
  | Ice => True
  end.

Definition Careful (k : kind) (d : option nat) (b : bool) (l : list op) : Prop :=
  forall x i y, l = x ++ i :: y ->
    match i with
    | Send _ _ _ _ => ready k x
    | Stop => ~ exists a, In (Given a) (snd (run k d b x))
    | Free => Quiet (snd (run k d b x))
    | Answer a _ => Maps a
    | _ => True
    end.

(** An identifier of an ICE request as documented: only [a-zA-Z0-9-_]. *)
Definition id_char (n : nat) : bool :=
  (Nat.leb 97 n && Nat.leb n 122) || (Nat.leb 65 n && Nat.leb n 90) || (Nat.leb 48 n && Nat.leb n 57) || Nat.eqb n 45 || Nat.eqb n 95.
Definition valid_id (s : string) : Prop := Forall (fun c => id_char (Ascii.nat_of_ascii c) = true) (list_ascii_of_string s).
