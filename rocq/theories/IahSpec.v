(** * Specification of the IAM's answers to authorization requests (C97) *)
From Coq Require Import String List Bool Arith.
From Verif Require Import IamPolicyModel IamPolicySpec IamStateModel IamStateSpec IahModel.
Import ListNotations.
Open Scope string_scope.

(** There is memory for everything the decision needs. *)
Definition plenty (x : mem) : Prop :=
  m_fp x = true /\ m_name x = true /\ (forall n, m_take x n = true) /\ (forall n, m_copy x n = true) /\
  m_local x = true /\ m_user x = true.

(** The right answer to question [q] of connection [c], with the users and
    the configuration [j]: no without an identity; else what the role of the
    user (or the unpaired role) grants for the action of the question, with
    the service's id and type, the user's name and whether the connection is
    local as attributes. *)
Definition service_attrs (q : question) (m : attrs) : Prop :=
  forall k, attr_get k m =
    match q with
    | QList => None
    | QGet i t | QConnect i t =>
        if string_dec k "TcpTunnel:ServiceId" then Some i
        else if string_dec k "TcpTunnel:ServiceType" then Some t else None
    end.
(** The action a question is about: "TcpTunnel:ListServices" for the list of
    services, "TcpTunnel:GetService" for reading one and "TcpTunnel:Connect" for
    connecting to one. *)
Definition action_named (q : question) (a : string) : Prop :=
  match q with
  | QList => a = "TcpTunnel:ListServices"
  | QGet _ _ => a = "TcpTunnel:GetService"
  | QConnect _ _ => a = "TcpTunnel:Connect"
  end.
Definition Decision (E : env) (j : iam) (c : conn) (q : question) (b : bool) : Prop :=
  (cn_fp c = None /\ cn_virtual c = false /\ b = false) \/
  ((cn_fp c <> None \/ cn_virtual c = true) /\
   exists who m m', identity j c who /\ service_attrs q m /\ sees c who m m' /\
   (b = true <-> exists n r a, role_name j who = Some n /\ names_role (i_conf j) n r /\
                               action_named q a /\ grants (e_num E) (i_conf j) r a m')).

(** The question with number [r] was asked in history [l]: at that moment the
    device said so. *)
Definition asked_at (E : env) (i : iam) (p : list op) (ref : nat) (q : question) (x : amem) (r : nat) : Prop :=
  exists s o s' a, runs E (init i) p = Some (s, o) /\ step E s (OAsk ref q x) = Some (s', a) /\ In (Asked r) a.

Definition asked_in (E : env) (i : iam) (l : list op) (r ref : nat) (q : question) : Prop :=
  exists p x p', l = (p ++ OAsk ref q x :: p')%list /\ asked_at E i p ref q x r.

(** The module serves requests: its handler was initialised successfully the
    first time, and not stopped. *)
Fixpoint served (l : list op) : bool :=
  match l with
  | [] => false
  | OInit ok :: l => ok && negb (existsb (fun o => match o with OStop => true | _ => false end) l)
  | _ :: l => served l
  end.

(** The handler worked at some moment of history [l] after the question with
    number [r] was asked: with memory [y], connections [look], and the users
    and configuration [j]. *)
Definition consulted (E : env) (i : iam) (l : list op) (r ref : nat) (q : question) (y : mem) (look : nat -> conn) (j : iam) : Prop :=
  exists p p' s o, l = (p ++ OCallback y look :: p')%list /\ runs E (init i) p = Some (s, o) /\
    asked_in E i p r ref q /\ j = iamst s.

(** Where the answer [b] to the question with number [r] came from: the
    handler looked at it, after it was asked, with the users, configuration
    and connection of that moment; or at some moment after it was asked the
    module did not serve requests, and the answer is no. *)
Definition decided_by (E : env) (i : iam) (l : list op) (r ref : nat) (q : question) (b : bool) (y : mem) (j : iam) (c : conn) : Prop :=
  exists p look p' s o, l = (p ++ OCallback y look :: p')%list /\ runs E (init i) p = Some (s, o) /\
    asked_in E i p r ref q /\ j = iamst s /\ c = look ref /\
    verdict E y j look {| k_ref := ref; k_action := action_of q; k_attrs := rev (adds_of q) |} = Some b.
Definition unserved (E : env) (i : iam) (l : list op) (r ref : nat) (q : question) : Prop :=
  exists m rest, l = (m ++ rest)%list /\ asked_in E i m r ref q /\ served m = false.

(** A configuration which only allows, and only compares strings. *)
Definition mild (c : config) : Prop :=
  forall s p, In p (conf_policies c) -> In s (p_stmts p) ->
    s_effect s = Allow /\ Forall (fun k => c_op k = StringEquals \/ c_op k = StringNotEquals) (s_conds s).

(** How often the asker has been told. *)
Definition told (r : nat) (o : list out) : nat :=
  length (filter (fun x => match x with Told r' _ => Nat.eqb r' r | _ => false end) o).

(** Steps which the device makes by itself; [y], [look]: the memory there is
    and the connections when the handler decides. *)
Definition internal (y : mem) (look : nat -> conn) (o : op) : Prop :=
  match o with
  | ORun _ | OFree | OListen => True
  | OCallback y' look' => y' = y /\ look' = look
  | _ => False
  end.
