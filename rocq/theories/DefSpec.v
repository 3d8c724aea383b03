(** * Vocabulary for the statements about the setups of the TCP tunnel device *)
From Coq Require Import String Ascii List Bool Arith NArith.
From Verif Require Import JsonModel IamPolicyModel IamStateModel IamStateSpec IamJsonModel IamJsonSpec PerModel PerSpec DefModel.
Import ListNotations.
Open Scope string_scope.
Open Scope list_scope.
Open Scope nat_scope.

(** ** What a role may do, in the words of the setup program *)

(** "only allowed pairing actions" *)
Definition pairing (a : string) : Prop :=
  In a ["IAM:GetPairing"; "IAM:PairingPasswordInvite"; "IAM:PairingLocalInitial"; "IAM:PairingLocalOpen"; "IAM:PairingPasswordOpen"].
(** "manage own user actions": [own] says that the request is about the user who
    sends it. *)
Definition own_user (own : Prop) (a : string) : Prop :=
  In a ["IAM:ListRoles"; "IAM:ListUsers"] \/
  (In a ["IAM:GetUser"; "IAM:DeleteUser"; "IAM:SetUserDisplayName"] /\ own).
(** "Tunnelling" *)
Definition tunnelling (a : string) : Prop :=
  In a ["TcpTunnel:GetService"; "TcpTunnel:Connect"; "TcpTunnel:ListServices"].
(** "management of users and pairing modes" *)
Definition management (a : string) : Prop :=
  In a ["IAM:ListUsers"; "IAM:GetUser"; "IAM:DeleteUser"; "IAM:SetUserRole"; "IAM:ListRoles"; "IAM:CreateUser";
        "IAM:SetUserPassword"; "IAM:SetUserDisplayName"; "IAM:SetSettings"; "IAM:GetSettings"; "IAM:SetDeviceInfo"].

Definition may (own : Prop) (role : option string) (a : string) : Prop :=
  (role = Some "Unpaired" /\ pairing a) \/
  (role = Some "Guest" /\ (pairing a \/ own_user own a)) \/
  (role = Some "Standard" /\ (pairing a \/ own_user own a \/ tunnelling a)) \/
  (role = Some "Administrator" /\ (pairing a \/ tunnelling a \/ management a)).

(** The request with attributes [m] is about the user who sends it. *)
Definition about_self (who : option user) (m : attrs) : Prop :=
  exists u, who = Some u /\ attr_get "IAM:Username" m = Some (u_name u).

(** ** Setups *)

(** A setup which does not give tunnelling to everybody who pairs. *)
Definition careful (s : setup) : Prop :=
  match s with SDefault => True | SCustom w => w_role w <= 1 | SDemo => False end.

(** What the setup program accepts: a role of the list and a name which fits its
    buffer. *)
Definition given (s : setup) : Prop :=
  match s with SCustom w => w_role w <= 3 /\ c_string (w_name w) /\ (strlen (w_name w) <= 63)%N | _ => True end.

(** ** Histories *)

(** The configuration comes from the file the setup wrote, or a beginning of it. *)
Definition default_boot (L : strtod_t) (o : op) : Prop :=
  match o with
  | Boot b => exists t, begins t (conf_dump default_conf) /\ conf_load L empty_conf t = Some (b_conf b)
  | _ => True
  end.

(** The connection knows the password of the administrator of the setup. *)
Definition as_admin (c : conn) : Prop := cn_pwauth c = true /\ cn_pwname c = Some "admin".

(** Nobody shows that they are the administrator: no request on a connection
    which is authenticated with that password, and no local initial pairing. *)
Definition stranger (o : op) : Prop :=
  match o with
  | Serve _ (Request c r) _ =>
      ~ as_admin c /\ ~ (cn_local c = true /\ exists p, r = RqPairLocalInitial p)
  | _ => True
  end.

(** The device after the setup: the state file has the first state, or a beginning
    of it when power was lost. *)
Definition set_up (s0 : istate) (d : dev) : Prop :=
  d_run d = None /\ exists t, d_state d = Some t /\ begins t (state_dump s0).

(** Every password and token comes from the generator, or is missing. *)
Definition drawn (s : option string) : Prop := exists ready bytes, s = random_password ready bytes.
Definition made (z : secrets) : Prop := drawn (z_pw z) /\ drawn (z_sct z) /\ drawn (z_open_pw z) /\ drawn (z_open_sct z).

(** The setup has an administrator who is invited with a password. *)
Definition invites (s : setup) : Prop :=
  match s with SDefault => True | SCustom w => w_pw_invite w = true | SDemo => False end.
(** The way a request pairs is one the answers switched on. *)
Definition switched_on (w : answers) (r : request) : Prop :=
  match r with
  | RqPairLocalInitial _ => w_local_initial w = true
  | RqPairLocalOpen _ => w_local_open w = true
  | RqPairPasswordInvite _ => w_pw_invite w = true
  | RqPairPasswordOpen _ => w_pw_open w = true
  | _ => True
  end.
