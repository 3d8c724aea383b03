(** * The default configuration *)
From Coq Require Import String Ascii List Bool Arith NArith Lia.
From Verif Require Import JsonModel IamPolicyModel IamStateModel IamStateSpec IamStateProofs IamStateInv IamJsonModel IamJsonSpec IamJsonProofs
  PerModel PerSpec PerProofs DefModel DefSpec.
Import ListNotations.
Open Scope string_scope.
Open Scope list_scope.
Open Scope nat_scope.

Lemma sc_in : forall l a, set_contains l a = true <-> In a l.
Proof.
  intros l a. unfold set_contains. rewrite existsb_exists. split.
  - intros (x & H & E). apply String.eqb_eq in E. now subst.
  - intros H. exists a. split; [exact H|apply String.eqb_refl].
Qed.
Lemma sc_out : forall l a, set_contains l a = false <-> ~ In a l.
Proof. intros l a. rewrite <- sc_in. destruct (set_contains l a); split; congruence. Qed.

Definition self (m : attrs) : Prop :=
  exists n, attr_get "IAM:Username" m = Some n /\ attr_get "Connection:Username" m = Some n.

Lemma own_cond : forall L m,
  (match_conditions L [own_condition] m = CMatch /\ self m) \/
  (match_conditions L [own_condition] m = CNoMatch /\ ~ self m).
Proof.
  intros L m. unfold self. cbn [match_conditions]. unfold condition_matches, own_condition.
  cbn [IamPolicyModel.c_key IamPolicyModel.c_op IamPolicyModel.c_values match_values].
  change (resolve_value m "${Connection:Username}") with (attr_get "Connection:Username" m).
  destruct (attr_get "IAM:Username" m) as [a|]; [|right; split; [reflexivity|intros (n & H & _); discriminate]].
  destruct (attr_get "Connection:Username" m) as [b|]; [|right; split; [reflexivity|intros (n & _ & H); discriminate]].
  cbn [match_op]. destruct (String.eqb a b) eqn:E; cbn.
  - left. apply String.eqb_eq in E. subst. split; eauto.
  - right. split; [reflexivity|]. intros (n & H1 & H2). injection H1 as ->. injection H2 as ->. rewrite String.eqb_refl in E. discriminate.
Qed.

Ltac facts := repeat match goal with
  | H : set_contains _ _ = true |- _ => apply sc_in in H
  | H : set_contains _ _ = false |- _ => apply sc_out in H
  end.

Definition L_pair := ["IAM:GetPairing"; "IAM:PairingPasswordInvite"; "IAM:PairingLocalInitial"; "IAM:PairingLocalOpen"; "IAM:PairingPasswordOpen"].
Definition L_tun := ["TcpTunnel:GetService"; "TcpTunnel:Connect"; "TcpTunnel:ListServices"].
Definition L_man := ["IAM:ListUsers"; "IAM:GetUser"; "IAM:DeleteUser"; "IAM:SetUserRole"; "IAM:ListRoles"; "IAM:CreateUser";
        "IAM:SetUserPassword"; "IAM:SetUserDisplayName"; "IAM:SetSettings"; "IAM:GetSettings"; "IAM:SetDeviceInfo"].
Definition L_own := ["IAM:GetUser"; "IAM:DeleteUser"; "IAM:SetUserDisplayName"].
Definition L_lists := ["IAM:ListRoles"; "IAM:ListUsers"].

Definition eff (b : bool) : effect := if b then Allow else NoMatch.
Definition plus (st : effect) (b : bool) : effect := if b then Allow else st.
Definition okst (st : effect) : Prop := st = Allow \/ st = NoMatch.

Lemma ev_plain : forall L l a m st, okst st -> policy_statement_eval L a m st (allow l []) = plus st (set_contains l a).
Proof.
  intros L l a m st [-> | ->]; unfold policy_statement_eval, statement_eval, allow; cbn [s_actions s_conds s_effect match_conditions];
    destruct (set_contains l a); reflexivity.
Qed.
Lemma ev_own : forall L a m st, okst st -> exists b : bool,
  policy_statement_eval L a m st (allow L_own [own_condition]) = plus st b /\
  (b = true <-> In a L_own /\ self m).
Proof.
  intros L a m st Hs. exists (set_contains L_own a && match match_conditions L [own_condition] m with CMatch => true | _ => false end)%bool.
  destruct (own_cond L m) as [[H1 H2]|[H1 H2]]; unfold policy_statement_eval, statement_eval, allow; cbn [s_actions s_conds s_effect]; rewrite H1;
    (split; [destruct Hs as [-> | ->]; destruct (set_contains L_own a); reflexivity|]);
    rewrite andb_true_iff, sc_in; intuition congruence.
Qed.
Lemma okst_plus : forall st b, okst st -> okst (plus st b).
Proof. intros st [] H; [now left|exact H]. Qed.

Lemma pol_eval_pair : forall L st a m, okst st -> policy_eval L st pol_pairing a m = plus st (set_contains L_pair a).
Proof. intros. unfold policy_eval, pol_pairing. cbn [p_stmts fold_left]. now apply ev_plain. Qed.
Lemma pol_eval_tun : forall L st a m, okst st -> policy_eval L st pol_tunnelling a m = plus st (set_contains L_tun a).
Proof. intros. unfold policy_eval, pol_tunnelling. cbn [p_stmts fold_left]. now apply ev_plain. Qed.
Lemma pol_eval_man : forall L st a m, okst st -> policy_eval L st pol_manage a m = plus st (set_contains L_man a).
Proof. intros. unfold policy_eval, pol_manage. cbn [p_stmts fold_left]. now apply ev_plain. Qed.
Lemma pol_eval_own : forall L st a m, okst st -> exists b : bool,
  policy_eval L st pol_own a m = plus st b /\ (b = true <-> own_user (self m) a).
Proof.
  intros L st a m H. unfold policy_eval, pol_own. cbn [p_stmts fold_left].
  destruct (ev_own L a m st H) as (b & E1 & E2). unfold L_own in E1. rewrite E1. exists (set_contains L_lists a || b)%bool.
  split.
  - rewrite ev_plain by (now apply okst_plus). fold L_lists. destruct (set_contains L_lists a), b; reflexivity.
  - rewrite orb_true_iff, sc_in, E2. reflexivity.
Qed.

Lemma role_cases : forall r, (exists s, r = Some s /\ (s = "Unpaired" \/ s = "Administrator" \/ s = "Standard" \/ s = "Guest")) \/
  find_role default_conf r = None.
Proof.
  intros [s|]; [|now right]. unfold find_role. cbn [default_conf conf_roles find r_id].
  destruct (String.eqb "Unpaired" s) eqn:E1; [apply String.eqb_eq in E1; left; exists s; auto|].
  destruct (String.eqb "Administrator" s) eqn:E2; [apply String.eqb_eq in E2; left; exists s; auto|].
  destruct (String.eqb "Standard" s) eqn:E3; [apply String.eqb_eq in E3; left; exists s; auto|].
  destruct (String.eqb "Guest" s) eqn:E4; [apply String.eqb_eq in E4; left; exists s; auto 6|]. right. reflexivity.
Qed.

Lemma plus_allow : forall st b, plus st b = Allow <-> st = Allow \/ b = true.
Proof. intros st []; cbn; split; auto. intros [H|H]; [exact H|discriminate]. Qed.
Lemma allow_bool : forall e, match e with Allow => true | _ => false end = true <-> e = Allow.
Proof. intros []; split; congruence. Qed.

Lemma decide_may : forall L r a m, decide L default_conf r a m = true <-> may (self m) r a.
Proof.
  intros L r a m. unfold decide, may. destruct (role_cases r) as [(s & -> & Hs)|Hn].
  - assert (N : okst NoMatch) by now right.
    destruct Hs as [-> |[-> |[-> | ->]]].
    + change (find_role default_conf (Some "Unpaired")) with (Some {| r_id := "Unpaired"; r_policies := ["Pairing"] |}).
      unfold check_access_role. cbn [r_policies role_eval_loop].
      change (find_policy default_conf "Pairing") with (Some pol_pairing). cbv iota.
      rewrite pol_eval_pair by exact N. rewrite allow_bool, plus_allow, sc_in. fold (pairing a).
      split; [intros [H|H]; [discriminate|auto]|]. intros [[_ H]|[[H _]|[[H _]|[H _]]]]; try discriminate H. now right.
    + change (find_role default_conf (Some "Administrator")) with (Some {| r_id := "Administrator"; r_policies := ["ManageIAM"; "Tunnelling"; "Pairing"] |}).
      unfold check_access_role. cbn [r_policies role_eval_loop].
      change (find_policy default_conf "ManageIAM") with (Some pol_manage). change (find_policy default_conf "Tunnelling") with (Some pol_tunnelling).
      change (find_policy default_conf "Pairing") with (Some pol_pairing). cbv iota.
      rewrite pol_eval_man by exact N. rewrite pol_eval_tun by (now apply okst_plus). rewrite pol_eval_pair by (now apply okst_plus; apply okst_plus).
      rewrite allow_bool, !plus_allow, !sc_in. change (In a L_man) with (management a). change (In a L_tun) with (tunnelling a).
      change (In a L_pair) with (pairing a). intuition congruence.
    + change (find_role default_conf (Some "Standard")) with (Some {| r_id := "Standard"; r_policies := ["Tunnelling"; "Pairing"; "ManageOwnUser"] |}).
      unfold check_access_role. cbn [r_policies role_eval_loop].
      change (find_policy default_conf "ManageOwnUser") with (Some pol_own). change (find_policy default_conf "Tunnelling") with (Some pol_tunnelling).
      change (find_policy default_conf "Pairing") with (Some pol_pairing). cbv iota.
      rewrite pol_eval_tun by exact N. rewrite pol_eval_pair by (now apply okst_plus).
      destruct (pol_eval_own L (plus (plus NoMatch (set_contains L_tun a)) (set_contains L_pair a)) a m) as (b & -> & Hb); [now apply okst_plus, okst_plus|].
      rewrite allow_bool, !plus_allow, !sc_in, Hb. change (In a L_tun) with (tunnelling a).
      change (In a L_pair) with (pairing a). intuition congruence.
    + change (find_role default_conf (Some "Guest")) with (Some {| r_id := "Guest"; r_policies := ["Pairing"; "ManageOwnUser"] |}).
      unfold check_access_role. cbn [r_policies role_eval_loop].
      change (find_policy default_conf "ManageOwnUser") with (Some pol_own). 
      change (find_policy default_conf "Pairing") with (Some pol_pairing). cbv iota.
      rewrite pol_eval_pair by exact N.
      destruct (pol_eval_own L (plus NoMatch (set_contains L_pair a)) a m) as (b & -> & Hb); [now apply okst_plus|].
      rewrite allow_bool, !plus_allow, !sc_in, Hb. 
      change (In a L_pair) with (pairing a). intuition congruence.
  - rewrite Hn. split; [discriminate|]. intros H. exfalso.
    destruct H as [[-> _]|[[-> _]|[[-> _]|[-> _]]]]; discriminate Hn.
Qed.
