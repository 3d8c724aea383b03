(** * The setups of the TCP tunnel device

    What "tcp_tunnel_device --init" and "--demo-init" write: the IAM configuration
    and the first state, and the random passwords in it. *)
From Coq Require Import String Ascii List Bool Arith NArith.
From Verif Require Import IamPolicyModel IamStateModel.
Import ListNotations.
Open Scope string_scope.
Open Scope list_scope.
Open Scope nat_scope.

(** ** The configuration *)

Definition allow (actions : list string) (conds : list condition) : statement :=
  {| s_effect := Allow; s_actions := actions; s_conds := conds |}.

(** iam_config.c:38-47 *)
Definition pol_pairing : policy := {| p_id := "Pairing"; p_stmts :=
  [allow ["IAM:GetPairing"; "IAM:PairingPasswordInvite"; "IAM:PairingLocalInitial"; "IAM:PairingLocalOpen";
          "IAM:PairingPasswordOpen"] []] |}.
(** iam_config.c:49-56 *)
Definition pol_tunnelling : policy := {| p_id := "Tunnelling"; p_stmts :=
  [allow ["TcpTunnel:GetService"; "TcpTunnel:Connect"; "TcpTunnel:ListServices"] []] |}.
(** iam_config.c:58-73 *)
Definition pol_manage : policy := {| p_id := "ManageIAM"; p_stmts :=
  [allow ["IAM:ListUsers"; "IAM:GetUser"; "IAM:DeleteUser"; "IAM:SetUserRole"; "IAM:ListRoles"; "IAM:CreateUser";
          "IAM:SetUserPassword"; "IAM:SetUserDisplayName"; "IAM:SetSettings"; "IAM:GetSettings"; "IAM:SetDeviceInfo"] []] |}.
(** iam_config.c:82-83 *)
Definition own_condition : condition := {| c_op := StringEquals; c_key := "IAM:Username"; c_values := ["${Connection:Username}"] |}.
(** iam_config.c:75-91 *)
Definition pol_own : policy := {| p_id := "ManageOwnUser"; p_stmts :=
  [allow ["IAM:GetUser"; "IAM:DeleteUser"; "IAM:SetUserDisplayName"]
         [own_condition];
   allow ["IAM:ListRoles"; "IAM:ListUsers"] []] |}.

(** iam_config_create_default, iam_config.c:32-135 *)
Definition default_conf : config :=
  {| conf_policies := [pol_pairing; pol_tunnelling; pol_manage; pol_own];
     conf_roles := [{| r_id := "Unpaired"; r_policies := ["Pairing"] |};
                    {| r_id := "Administrator"; r_policies := ["ManageIAM"; "Tunnelling"; "Pairing"] |};
                    {| r_id := "Standard"; r_policies := ["Tunnelling"; "Pairing"; "ManageOwnUser"] |};
                    {| r_id := "Guest"; r_policies := ["Pairing"; "ManageOwnUser"] |}];
     conf_unpaired := Some "Unpaired" |}.

(** ** Random passwords *)

(** random_string.c:14 *)
Definition password_alphabet : string := "abcdefghijkmnopqrstuvwxyzACEFHJKLMNPRTUVWXY3479".

(** The loop of random_password, random_string.c:40-54: [bytes] is what the random
    generator gives, [None] that it fails, which gives NULL; so does the end of
    the list, where the C code would ask for more. *)
Fixpoint generate (n : nat) (bytes : list (option N)) : option string :=
  match n, bytes with
  | 0, _ => Some ""
  | S _, [] | S _, None :: _ => None
  | S n', Some b :: bytes' =>
      match String.get (N.to_nat b) password_alphabet with
      | Some c => match generate n' bytes' with Some s => Some (String c s) | None => None end
      | None => generate n bytes'
      end
  end.
(** random_password(12), random_string.c:24-58; [ready]: the generator is seeded
    and there is memory. *)
Definition random_password (ready : bool) (bytes : list (option N)) : option string :=
  if ready then generate 12 bytes else None.

(** ** The first state *)

(** The passwords and tokens of a setup; NULL when one could not be made. *)
Record secrets := { z_pw : option string; z_sct : option string; z_open_pw : option string; z_open_sct : option string }.

(** The user made at tcp_tunnel_init.c:168-172 and 198-202. *)
Definition admin_user (z : secrets) : user :=
  {| u_id := 0; u_name := "admin"; u_display := None; u_fps := []; u_password := z_pw z; u_role := Some "Administrator";
     u_sct := z_sct z; u_fcm_token := None; u_fcm_project := None; u_cats := []; u_oauth := None |}.

(** create_state_default, tcp_tunnel_init.c:192-215 *)
Definition default_state (z : secrets) : istate :=
  {| st_pw_open_password := z_open_pw z; st_pw_open_sct := z_open_sct z; st_pw_open := false; st_local_open := false;
     st_pw_invite := true; st_local_initial := false; st_open_role := Some "Guest"; st_initial_user := Some "admin";
     st_friendly := Some "Tcp Tunnel"; st_users := [admin_user z] |}.

(** The answers to create_state_interactive_custom, tcp_tunnel_init.c:117-162. *)
Record answers := { w_local_initial : bool; w_local_open : bool; w_pw_invite : bool; w_pw_open : bool; w_role : nat; w_name : string }.

(** roles, tcp_tunnel_init.c:118; the prompt at line 148 gives at most 3. *)
Definition role_of (n : nat) : string := nth n ["Unpaired"; "Guest"; "Standard"; "Administrator"] "".

(** create_state_interactive_custom, tcp_tunnel_init.c:150-188 *)
Definition custom_state (z : secrets) (w : answers) : istate :=
  let admin := (w_local_initial w || w_pw_invite w)%bool in
  {| st_pw_open_password := z_open_pw z; st_pw_open_sct := z_open_sct z; st_pw_open := w_pw_open w;
     st_local_open := w_local_open w; st_pw_invite := w_pw_invite w; st_local_initial := w_local_initial w;
     st_open_role := Some (role_of (w_role w)); st_initial_user := if admin then Some "admin" else None;
     st_friendly := Some (if String.eqb (w_name w) "" then "Tcp Tunnel" else w_name w);
     st_users := if admin then [admin_user z] else [] |}.

(** tcp_tunnel_demo_config, tcp_tunnel_init.c:305-316 *)
Definition demo_state (z : secrets) : istate :=
  {| st_pw_open_password := z_open_pw z; st_pw_open_sct := z_open_sct z; st_pw_open := true; st_local_open := true;
     st_pw_invite := false; st_local_initial := false; st_open_role := Some "Administrator"; st_initial_user := None;
     st_friendly := Some "Tcp Tunnel"; st_users := [] |}.

Inductive setup := SDefault | SCustom (w : answers) | SDemo.
Definition first_state (z : secrets) (s : setup) : istate :=
  match s with SDefault => default_state z | SCustom w => custom_state z w | SDemo => demo_state z end.
