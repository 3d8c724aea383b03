(** Property C97: the IAM module answering the device's authorization requests. *)
From Coq Require Import String List Bool Arith Lia.
From Verif Require Import IamPolicyModel IamPolicySpec IamPolicyProofs IamStateModel IamStateSpec IamStateInv IahModel IahSpec.
From Verif Require ListenerModel AuthModel.
From Verif Require Import IahProofs IahProofs2 IahProofs3 IahProofs4 IahProofs5 IahProofs6.
Import ListNotations.
Open Scope string_scope.
Open Scope list_scope.
Open Scope nat_scope.

(** ** Concrete values *)
Definition ex_env := {| e_num := nolib; e_overwrite := false |}.
Definition ex_x := {| x_sct := Some "token0"; x_add := fun _ => true; x_mdns := true |}.
Definition connect_all := {| s_effect := Allow; s_actions := ["TcpTunnel:Connect"; "TcpTunnel:ListServices"]; s_conds := [] |}.
Definition no_ssh := {| s_effect := Deny; s_actions := ["TcpTunnel:Connect"];
  s_conds := [{| c_op := StringEquals; c_key := "TcpTunnel:ServiceId"; c_values := ["ssh"] |}] |}.
Definition only_http := {| s_effect := Allow; s_actions := ["TcpTunnel:Connect"];
  s_conds := [{| c_op := StringEquals; c_key := "TcpTunnel:ServiceId"; c_values := ["http"] |}] |}.
Definition conf_of (l : list statement) :=
  {| conf_roles := [{| r_id := "guest"; r_policies := ["tunnel"] |}; {| r_id := "none"; r_policies := [] |}];
     conf_policies := [{| p_id := "tunnel"; p_stmts := l |}]; conf_unpaired := Some "guest" |}.
Definition fp_a := "aaaaaaaaaaaaaaaaaaaaaaaaaaaaaaaaaaaaaaaaaaaaaaaaaaaaaaaaaaaaaaaa".
Definition conn_a := {| cn_ref := 7; cn_virtual := false; cn_fp := Some fp_a; cn_local := true; cn_pwauth := false; cn_pwname := None |}.
Definition look (n : nat) : conn := conn_a.
Definition conf_op (l : list statement) := OIam (ex_x, OpLoadConf (conf_of l)).
Definition api_op (a : api) := OIam (ex_x, OpApi a).
Definition bob := [api_op (ApCreateUser (Some "bob")); api_op (ApSetFp (Some "bob") (Some fp_a)); api_op (ApSetRole (Some "bob") (Some "none"))].
Definition much : mem := {| m_fp := true; m_name := true; m_take := fun _ => true; m_copy := fun _ => true; m_local := true; m_user := true |}.
Definition all : amem := {| am_req := true; am_add := fun _ => true |}.
Definition outputs (l : list op) : option (list out) := match runs ex_env (init iam_init) l with Some (_, o) => Some o | None => None end.
Lemma ex_much : plenty much.
Proof. repeat split. Qed.

(** ** The answer is the decision

    Whatever happens, in whatever order: an asker is told the decision for
    its question, its connection and the users and configuration at a moment
    when the handler worked, after the question was asked; or no, because at
    some moment after that the module did not serve requests. *)
Theorem C97_answer : forall E i l s o r b, runs E (init i) l = Some (s, o) ->
  (forall y look, In (OCallback y look) l -> plenty y) -> In (Told r b) o ->
  exists ref q, asked_in E i l r ref q /\
   ((exists y look j, consulted E i l r ref q y look j /\ Decision E j (look ref) q b) \/
    (b = false /\ unserved E i l r ref q)).
Proof.
  intros E i l s o r b R P Hin.
  destruct (told_because _ _ _ _ _ _ _ R Hin) as [(ref & q & y & j & c & p & look & p' & s1 & o1 & -> & R1 & A & -> & -> & V)|(-> & ref & q & m & rest & -> & A & S)].
  - exists ref, q. split; [now apply asked_in_app|]. left. exists y, look, (iamst s1). split.
    + exists p, p', s1, o1. auto.
    + apply verdict_decision with (y := y); [|exact V]. apply (P y look). apply in_or_app. right. now left.
  - exists ref, q. split; [now apply asked_in_app|]. right. split; [reflexivity|]. exists m, rest. auto.
Qed.
Print Assumptions C97_answer.

Example C97_ex_answer :
  outputs ([conf_op [connect_all; no_ssh]; OInit true; OAsk 7 (QConnect "ssh" "ssh") all; OAsk 7 (QConnect "http" "http") all;
            OCallback much look; ORun 0; OFree; OListen; OCallback much look; OFree; ORun 1])
  = Some [Asked 0; Asked 1; Told 0 false; Told 1 true].
Proof. vm_compute. reflexivity. Qed.

(** The user of the connection decides, and a stopped module says no. *)
Example C97_ex_user :
  outputs (conf_op [connect_all] :: bob ++ [OInit true; OAsk 7 (QConnect "http" "http") all; OCallback much look; ORun 0])
  = Some [Asked 0; Told 0 false]
  /\ outputs ([conf_op [connect_all]; OInit true; OAsk 7 (QConnect "http" "http") all; OAsk 7 QList all; OStop; OCallback much look; ORun 1; ORun 0])
  = Some [Asked 0; Asked 1; Told 1 false; Told 0 true].
Proof. vm_compute. split; reflexivity. Qed.

(** ** Yes only from the handler, even without memory *)
Theorem C97_yes : forall E i l s o r, runs E (init i) l = Some (s, o) -> In (Told r true) o ->
  exists ref q y look j, consulted E i l r ref q y look j /\
    verdict E y j look {| k_ref := ref; k_action := action_of q; k_attrs := rev (adds_of q) |} = Some true.
Proof.
  intros E i l s o r R Hin.
  destruct (told_because _ _ _ _ _ _ _ R Hin) as [(ref & q & y & j & c & p & look & p' & s1 & o1 & -> & R1 & A & -> & -> & V)|(K & _)]; [|discriminate].
  exists ref, q, y, look, (iamst s1). split; [exists p, p', s1, o1; auto|exact V].
Qed.
Print Assumptions C97_yes.

(** ** Every question asked is answered at most once, and only those *)
Theorem C97_once : forall E i l s o r, runs E (init i) l = Some (s, o) ->
  told r o <= 1 /\ (told r o = 1 -> In (Asked r) o).
Proof.
  intros E i l s o r R. assert (H := hist_run _ _ _ _ _ R). rewrite (H_told _ _ _ _ _ H r).
  destruct (le_lt_dec (next s) r) as [Hr|Hr].
  - destruct (J_new _ (H_inv _ _ _ _ _ H) r Hr) as (K & _). rewrite K. split; [lia|discriminate].
  - destruct (J_req _ (H_inv _ _ _ _ _ H) r Hr) as (g & G & _). rewrite G, done_told. split; [destruct g; cbn; lia|].
    intros T. apply (H_asked _ _ _ _ _ H). split; [exact Hr|]. rewrite G. intros K.
    assert (g = Dropped) by (apply rec_inj; congruence). subst g. discriminate.
Qed.
Print Assumptions C97_once.

(** Questions are passed on unless there is no memory for them. *)
Theorem C97_asked : forall E i l s o ref q x s' a, runs E (init i) l = Some (s, o) -> step E s (OAsk ref q x) = Some (s', a) ->
  (exists r, a = [Asked r] /\ ~ In (Asked r) o) \/ (a = [Unasked] /\ (am_req x = false \/ exists n, am_add x n = false)).
Proof.
  intros E i l s o ref q x s' a R St. assert (H := hist_run _ _ _ _ _ R). assert (I := H_inv _ _ _ _ _ H).
  cbn [step] in St. unfold do_ask in St. destruct (am_req x); [|injection St as <- <-; right; auto].
  destruct (add_all _ _ _ _) as [k|] eqn:A.
  - destruct (check_ok s k I) as (t & g & C & _). rewrite C in St. injection St as <- <-. left. exists (next s). split; [reflexivity|].
    intros K. apply (H_asked _ _ _ _ _ H) in K. lia.
  - match type of St with context [set_ask s ?k] => destruct (discard_ok s k I) as (t & C & _) end. rewrite C in St.
    injection St as <- <-. right. split; [reflexivity|]. right.
    assert (F : forall l n k, add_all (am_add x) n l k = None -> exists n, am_add x n = false).
    { clear. induction l as [|kv l IH]; intros n k H; cbn in H; [discriminate|]. unfold add_attribute in H.
      destruct (am_add x n) eqn:Hn; [eauto|eauto]. }
    exact (F _ _ _ A).
Qed.
Print Assumptions C97_asked.

Example C97_ex_asked :
  outputs [OInit true; OAsk 7 QList {| am_req := false; am_add := fun _ => true |};
           OAsk 7 (QGet "ssh" "ssh") {| am_req := true; am_add := fun n => Nat.eqb n 0 |}; OAsk 7 QList all]
  = Some [Unasked; Unasked; Asked 1].
Proof. vm_compute. reflexivity. Qed.

(** ** Every question is answered

    From any point the device's own steps tell the asker, with whatever
    memory there is, unless a user was freed under the handler (C17). *)
Theorem C97_answered : forall E i y look l s o r, runs E (init i) l = Some (s, o) ->
  (forall c, resolve_user (iamst s) c <> None) -> In (Asked r) o ->
  exists l' s' o', Forall (internal y look) l' /\ runs E s l' = Some (s', o') /\ told r (o ++ o') = 1.
Proof. exact reach_all. Qed.
Print Assumptions C97_answered.

Theorem C97_defined : forall E i l s o op, runs E (init i) l = Some (s, o) -> (forall c, resolve_user (iamst s) c <> None) ->
  (forall xo, op = OIam xo -> IamStateModel.step E (iamst s) xo <> None) -> step E s op <> None.
Proof. exact step_defined. Qed.
Print Assumptions C97_defined.

(** The hypotheses hold: three questions are waiting. *)
Example C97_ex_answered : exists s o,
  runs ex_env (init iam_init) ([conf_op [connect_all]; OInit true; OAsk 7 QList all; OAsk 7 QList all; OAsk 8 (QGet "a" "b") all]) = Some (s, o) /\
  o = [Asked 0; Asked 1; Asked 2] /\ (forall c, resolve_user (iamst s) c <> None).
Proof.
  eexists. eexists. split; [vm_compute; reflexivity|]. split; [reflexivity|].
  intros c. cbv beta iota delta [iamst]. destruct c as [re vi fp lo pa pn]. destruct fp, pa, pn; vm_compute; discriminate.
Qed.

(** ** Without memory *)

(** A denied service is granted: the deny statement's attribute could not be
    inserted. *)
Theorem C97_shortage_refuted : exists E i l s o r ref q y look j,
  runs E (init i) l = Some (s, o) /\ In (Told r true) o /\ consulted E i l r ref q y look j /\
  m_fp y = true /\ m_name y = true /\ asked_in E i l r ref q /\
  Decision E j (look ref) q false /\ ~ Decision E j (look ref) q true.
Proof.
  set (y := {| m_fp := true; m_name := true; m_take := fun n => Nat.eqb n 0; m_copy := fun _ => true; m_local := true; m_user := true |}).
  set (p := [conf_op [connect_all; no_ssh]; OInit true; OAsk 7 (QConnect "ssh" "ssh") all]).
  destruct (runs ex_env (init iam_init) p) as [[s1 o1]|] eqn:R1; [|vm_compute in R1; discriminate].
  destruct (runs ex_env (init iam_init) (p ++ [OCallback y look; ORun 0])) as [[s o]|] eqn:R; [|vm_compute in R; discriminate].
  assert (A : asked_in ex_env iam_init p 0 7 (QConnect "ssh" "ssh")).
  { exists [conf_op [connect_all; no_ssh]; OInit true], all, []. split; [reflexivity|]. do 4 eexists. 
    split; [vm_compute; reflexivity|]. split; [vm_compute; reflexivity|]. now left. }
  exists ex_env, iam_init, (p ++ [OCallback y look; ORun 0]), s, o, 0, 7, (QConnect "ssh" "ssh"), y, look, (iamst s1).
  split; [exact R|]. split; [vm_compute in R; injection R as <- <-; right; now left|].
  split; [exists p, [ORun 0], s1, o1; auto|]. split; [reflexivity|]. split; [reflexivity|]. split; [now apply asked_in_app|].
  split.
  - apply (verdict_decision ex_env much (iamst s1) look 7); [exact ex_much|]. vm_compute in R1. injection R1 as <- <-. vm_compute. reflexivity.
  - assert (Hc : i_conf (iamst s1) = conf_of [connect_all; no_ssh] /\ users (iamst s1) = [] /\ i_auth (iamst s1) = []).
    { vm_compute in R1. injection R1 as <- <-. vm_compute. auto. }
    destruct Hc as (Hc & Hu & Ha). intros [(_ & _ & K)|(_ & who & m & m' & W & S & V & G)]; [discriminate|].
    destruct (proj1 G eq_refl) as (n & ro & a & G1 & G2 & Ga & G3). cbn in Ga. subst a. rewrite Hc in *.
    assert (Hw : who = None).
    { inversion W as [f u K1 K2|n0 u K1 K2 K3 K4|u K1 K2 K3 K4|]; subst; auto; exfalso; rewrite ?Hu, ?Ha in *.
      - destruct K2 as (a & b & K2 & _). destruct a; discriminate.
      - destruct K4 as (a & b & K4 & _). destruct a; discriminate.
      - destruct K4. }
    subst who. cbn in G1. rewrite Hc in G1. injection G1 as <-.
    destruct G2 as (l1 & l2 & G2 & G4 & _). cbn in G2.
    assert (Hro : ro = {| r_id := "guest"; r_policies := ["tunnel"] |}).
    { destruct l1 as [|a [|b [|c l1]]]; cbn in G2; try discriminate; injection G2; intros; subst; auto; discriminate. }
    subst ro. destruct G3 as (_ & G3 & _).
    destruct (G3 no_ssh) as (_ & K).
    { exists "tunnel", {| p_id := "tunnel"; p_stmts := [connect_all; no_ssh] |}. split; [now left|]. split; [exists [], []; auto|].
      cbn. auto. }
    destruct K as (K & _); [|apply K; reflexivity]. split; [now left|]. constructor; [|constructor].
    exists "ssh", [], "ssh", [], "ssh". split; [rewrite (V _); cbn; rewrite (S _); reflexivity|].
    split; [reflexivity|]. split; [constructor|]. split; [apply den_lit; intros nm Hn; discriminate|reflexivity].
Qed.
Print Assumptions C97_shortage_refuted.

(** A paired user whose role grants nothing is granted what unpaired clients
    are: the fingerprint could not be written out. *)
Theorem C97_identity_refuted : exists E i l s o r ref q y look j,
  runs E (init i) l = Some (s, o) /\ In (Told r true) o /\ consulted E i l r ref q y look j /\
  (forall n, m_take y n = true /\ m_copy y n = true) /\ asked_in E i l r ref q /\
  Decision E j (look ref) q false /\ ~ Decision E j (look ref) q true.
Proof.
  set (y := {| m_fp := false; m_name := true; m_take := fun _ => true; m_copy := fun _ => true; m_local := true; m_user := true |}).
  set (p := (conf_op [connect_all] :: bob) ++ [OInit true; OAsk 7 QList all]).
  destruct (runs ex_env (init iam_init) p) as [[s1 o1]|] eqn:R1; [|vm_compute in R1; discriminate].
  destruct (runs ex_env (init iam_init) (p ++ [OCallback y look; ORun 0])) as [[s o]|] eqn:R; [|vm_compute in R; discriminate].
  assert (A : asked_in ex_env iam_init p 0 7 QList).
  { exists ((conf_op [connect_all] :: bob) ++ [OInit true]), all, []. split; [reflexivity|]. do 4 eexists. 
    split; [vm_compute; reflexivity|]. split; [vm_compute; reflexivity|]. now left. }
  exists ex_env, iam_init, (p ++ [OCallback y look; ORun 0]), s, o, 0, 7, QList, y, look, (iamst s1).
  split; [exact R|]. split; [vm_compute in R; injection R as <- <-; right; now left|].
  split; [exists p, [ORun 0], s1, o1; auto|]. split; [auto|]. split; [now apply asked_in_app|].
  split.
  - apply (verdict_decision ex_env much (iamst s1) look 7); [exact ex_much|]. vm_compute in R1. injection R1 as <- <-. vm_compute. reflexivity.
  - assert (Hc : i_conf (iamst s1) = conf_of [connect_all] /\ exists u, users (iamst s1) = [u] /\ fp_values u = [fp_a] /\ u_role u = Some "none").
    { vm_compute in R1. injection R1 as <- <-. split; [vm_compute; reflexivity|]. eexists. split; [vm_compute; reflexivity|]. vm_compute. auto. }
    destruct Hc as (Hc & u & Hu & Hf & Hr). intros [(_ & _ & K)|(_ & who & m & m' & W & S & V & G)]; [discriminate|].
    destruct (proj1 G eq_refl) as (n & ro & a & G1 & G2 & Ga & G3). cbn in Ga. subst a. rewrite Hc in *.
    assert (N : no_fp_user (iamst s1) conn_a -> False).
    { intros N. specialize (N fp_a eq_refl). rewrite Hu in N. inversion N as [|? ? K]; subst. apply K. unfold owns. rewrite Hf. now left. }
    assert (Hw : who = Some u).
    { inversion W as [f u' K1 K2|n0 u' K1 K2 K3 K4|u' K1 K2 K3 K4|K1]; subst; try (exfalso; auto; fail).
      rewrite Hu in K2. destruct K2 as (a & b & K2 & _). destruct a as [|x [|]]; cbn in K2; try discriminate. injection K2 as -> _. reflexivity. }
    subst who. cbn in G1. rewrite Hr in G1. injection G1 as <-.
    destruct G2 as (l1 & l2 & G2 & G4 & _). cbn in G2.
    assert (Hro : ro = {| r_id := "none"; r_policies := [] |}).
    { destruct l1 as [|a [|b [|c l1]]]; cbn in G2; try discriminate; injection G2; intros; subst; auto; discriminate. }
    subst ro. destruct G3 as (_ & _ & st0 & (nm & pl & K & _) & _). destruct K.
Qed.
Print Assumptions C97_identity_refuted.

(** What does hold: when the identity could be looked up and the
    configuration only allows and only compares strings, a yes is right
    however many attributes were lost. *)
Theorem C97_shortage_partial : forall E i l s o r, runs E (init i) l = Some (s, o) -> In (Told r true) o ->
  (forall y look, In (OCallback y look) l -> m_fp y = true /\ m_name y = true) ->
  exists ref q y look j, consulted E i l r ref q y look j /\ (mild (i_conf j) -> Decision E j (look ref) q true).
Proof.
  intros E i l s o r R Hin P. destruct (C97_yes E i l s o r R Hin) as (ref & q & y & look & j & C & V).
  exists ref, q, y, look, j. split; [exact C|]. intros M. destruct C as (p & p' & s1 & o1 & -> & _).
  destruct (P y look) as (P1 & P2); [apply in_or_app; right; now left|].
  exact (short_decision E y j look ref q M P1 P2 V).
Qed.
Print Assumptions C97_shortage_partial.

Example C97_ex_shortage : mild (conf_of [only_http]) /\
  outputs [conf_op [only_http]; OInit true; OAsk 7 (QConnect "http" "http") all; OAsk 7 (QConnect "http" "http") all;
           OCallback {| m_fp := true; m_name := true; m_take := fun n => Nat.eqb n 1; m_copy := fun _ => true; m_local := false; m_user := true |} look;
           ORun 0; OFree; OListen;
           OCallback {| m_fp := true; m_name := true; m_take := fun n => Nat.eqb n 0; m_copy := fun _ => true; m_local := true; m_user := true |} look;
           OFree; ORun 1]
  = Some [Asked 0; Asked 1; Told 0 true; Told 1 false].
Proof.
  split; [|vm_compute; reflexivity]. intros s p [<-|[]] [<-|[]]. split; [reflexivity|]. repeat constructor.
Qed.
