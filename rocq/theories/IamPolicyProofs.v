(** Proofs about IAM policy evaluation. *)
From Coq Require Import String Ascii List Bool Arith Lia Permutation.
From Verif Require Import IamPolicyModel IamPolicySpec.
Import ListNotations.
Open Scope string_scope.

(** ** Strings *)
Lemma str_app_length a b : String.length (a ++ b) = String.length a + String.length b.
Proof. induction a; simpl; auto. Qed.

Lemma sub_app a : forall k b, substring (String.length a) k (a ++ b) = substring 0 k b.
Proof. induction a; simpl; auto. Qed.

Lemma sub_prefix a : forall b, substring 0 (String.length a) (a ++ b) = a.
Proof. induction a; simpl; intros b; [destruct b; reflexivity | now rewrite IHa]. Qed.

Lemma sub_all a : substring 0 (String.length a) a = a.
Proof. induction a; simpl; [reflexivity | now rewrite IHa]. Qed.

Lemma sub_split v : forall i k l, i + k + l = String.length v ->
  v = substring 0 i v ++ substring i k v ++ substring (i + k) l v.
Proof.
  induction v as [|a v IH]; intros i k l H; simpl in H.
  - destruct i, k, l; try discriminate; reflexivity.
  - destruct i as [|i]; simpl.
    + destruct k as [|k]; simpl.
      * destruct l as [|l]; [discriminate|]. simpl in H. injection H as ->. now rewrite sub_all.
      * f_equal. specialize (IH 0 k l). simpl in IH.
        assert (E : k + l = String.length v) by lia. specialize (IH E).
        destruct v; [|exact IH]. destruct k, l; try discriminate; reflexivity.
    + f_equal. apply (IH i k l). lia.
Qed.

Definition is_var (v : string) : bool :=
  negb (Nat.ltb (String.length v) 3) &&
  (String.eqb (substring 0 2 v) "${" && String.eqb (substring (String.length v - 1) 1 v) "}").

Lemma is_var_spec v : is_var v = true <-> v = "${" ++ substring 2 (String.length v - 3) v ++ "}".
Proof.
  unfold is_var. split.
  - intros H. apply andb_prop in H as [H1 H]. apply andb_prop in H as [H2 H3].
    apply negb_true_iff, Nat.ltb_ge in H1.
    apply String.eqb_eq in H2, H3.
    rewrite (sub_split v 2 (String.length v - 3) 1) at 1 by lia.
    rewrite H2. replace (2 + (String.length v - 3)) with (String.length v - 1) by lia.
    now rewrite H3.
  - intros H. set (name := substring 2 (String.length v - 3) v) in *. clearbody name.
    subst v. apply andb_true_intro. rewrite !str_app_length. simpl String.length.
    split; [apply negb_true_iff, Nat.ltb_ge; lia|].
    apply andb_true_intro; split; [destruct name; reflexivity|].
    replace (2 + (String.length name + 1) - 1) with (String.length ("${" ++ name)) by (simpl; lia).
    change ("${" ++ name ++ "}") with (("${" ++ name) ++ "}").
    rewrite sub_app. reflexivity.
Qed.

Lemma is_var_name name : is_var ("${" ++ name ++ "}") = true /\
  substring 2 (String.length ("${" ++ name ++ "}") - 3) ("${" ++ name ++ "}") = name.
Proof.
  assert (E : substring 2 (String.length ("${" ++ name ++ "}") - 3) ("${" ++ name ++ "}") = name).
  { rewrite !str_app_length. simpl String.length.
    replace (2 + (String.length name + 1) - 3) with (String.length name) by lia.
    change 2 with (String.length "${"). rewrite sub_app. apply sub_prefix. }
  split; [|exact E]. apply is_var_spec. now rewrite E.
Qed.

Lemma resolve_value_alt m v :
  resolve_value m v = if is_var v then attr_get (substring 2 (String.length v - 3) v) m else Some v.
Proof.
  unfold resolve_value, is_var. destruct (Nat.ltb (String.length v) 3); simpl; [reflexivity|].
  destruct (_ && _); reflexivity.
Qed.

Lemma resolve_denotes m v x : resolve_value m v = Some x <-> denotes m v x.
Proof.
  rewrite resolve_value_alt. split.
  - destruct (is_var v) eqn:E; intros H.
    + apply is_var_spec in E. rewrite E. apply den_var. exact H.
    + injection H as <-. apply den_lit. intros name ->.
      destruct (is_var_name name) as [E' _]. rewrite E' in E. discriminate.
  - intros H. destruct H as [name x Hx | v Hv].
    + destruct (is_var_name name) as [E1 E2]. rewrite E1, E2. exact Hx.
    + destruct (is_var v) eqn:E; [|reflexivity].
      apply is_var_spec in E. exfalso. exact (Hv _ E).
Qed.

(** ** Comparison *)
Definition res_of (o : option bool) : cresult :=
  match o with Some true => CMatch | Some false => CNoMatch | None => CError end.

Lemma parse_bool_spec s : parse_bool s = bool_of s.
Proof.
  unfold parse_bool, bool_of.
  destruct (String.eqb_spec s "true"), (String.eqb_spec s "false"),
    (string_dec s "true"), (string_dec s "false"); congruence.
Qed.

Lemma match_op_spec L op a v : match_op L op a v = res_of (compare_spec L op a v).
Proof.
  destruct op; simpl; unfold numeric_operator;
    try (destruct (nl_strtod L a), (nl_strtod L v); simpl; try reflexivity;
         match goal with |- status ?b = _ => destruct b; reflexivity end).
  - destruct (String.eqb_spec a v), (string_dec a v); try contradiction; reflexivity.
  - destruct (String.eqb_spec a v), (string_dec a v); try contradiction; reflexivity.
  - unfold bool_equals. rewrite !parse_bool_spec.
    destruct (bool_of a), (bool_of v); reflexivity.
Qed.

Lemma match_values_spec L op m a vs r : r <> CNoMatch ->
  match_values L op m a vs = r <->
  exists pre v post x, vs = (pre ++ v :: post)%list /\ Forall (undecided L op m a) pre /\
    denotes m v x /\ res_of (compare_spec L op a x) = r.
Proof.
  intros Hr. induction vs as [|v vs IH]; simpl.
  - split; [intros <-; congruence|]. intros (pre & v & post & x & H & _). destruct pre; discriminate.
  - destruct (resolve_value m v) as [rv|] eqn:Ev.
    + assert (Hd := proj1 (resolve_denotes m v rv) Ev).
      rewrite match_op_spec.
      destruct (res_of (compare_spec L op a rv)) eqn:Ec.
      * split; intros H.
        -- subst r. exists [], v, vs, rv. auto.
        -- destruct H as (pre & v' & post & x & E & Hf & Hdx & Hx).
           destruct pre as [|p pre]; simpl in E; injection E as <- E.
           ++ apply resolve_denotes in Hdx. rewrite Ev in Hdx. injection Hdx as <-. congruence.
           ++ inversion Hf; subst. specialize (H1 rv Hd). rewrite H1 in Ec. discriminate.
      * rewrite IH. split; intros (pre & v' & post & x & E & Hf & Hdx & Hx).
        -- exists (v :: pre), v', post, x. subst vs. repeat split; auto.
           constructor; auto. intros y Hy. apply resolve_denotes in Hy. rewrite Ev in Hy.
           injection Hy as <-. destruct (compare_spec L op a rv) as [[]|]; try discriminate; reflexivity.
        -- destruct pre as [|p pre]; simpl in E; injection E as <- E.
           ++ apply resolve_denotes in Hdx. rewrite Ev in Hdx. injection Hdx as <-. congruence.
           ++ inversion Hf; subst. exists pre, v', post, x. auto.
      * split; intros H.
        -- subst r. exists [], v, vs, rv. auto.
        -- destruct H as (pre & v' & post & x & E & Hf & Hdx & Hx).
           destruct pre as [|p pre]; simpl in E; injection E as <- E.
           ++ apply resolve_denotes in Hdx. rewrite Ev in Hdx. injection Hdx as <-. congruence.
           ++ inversion Hf; subst. specialize (H1 rv Hd). rewrite H1 in Ec. discriminate.
    + rewrite IH. split; intros (pre & v' & post & x & E & Hf & Hdx & Hx).
      * exists (v :: pre), v', post, x. subst vs. repeat split; auto.
        constructor; auto. intros y Hy. apply resolve_denotes in Hy. congruence.
      * destruct pre as [|p pre]; simpl in E; injection E as <- E.
        -- apply resolve_denotes in Hdx. congruence.
        -- inversion Hf; subst. exists pre, v', post, x. auto.
Qed.

Lemma cond_match_spec L c m : condition_matches L c m = CMatch <-> cond_holds L c m.
Proof.
  unfold condition_matches, cond_holds.
  destruct (attr_get (c_key c) m) as [a|] eqn:Ea.
  - rewrite (match_values_spec L (c_op c) m a (c_values c) CMatch) by discriminate.
    split.
    + intros (pre & v & post & x & E & Hf & Hd & Hx). exists a, pre, v, post, x.
      repeat split; auto. destruct (compare_spec _ _ _ _) as [[]|]; try discriminate; reflexivity.
    + intros (a' & pre & v & post & x & E0 & E & Hf & Hd & Hx). injection E0 as <-.
      exists pre, v, post, x. repeat split; auto. now rewrite Hx.
  - split; [discriminate|]. intros (a' & pre & v & post & x & E0 & _). discriminate.
Qed.

Lemma cond_err_spec L c m : condition_matches L c m = CError <-> cond_errs L c m.
Proof.
  unfold condition_matches, cond_errs.
  destruct (attr_get (c_key c) m) as [a|] eqn:Ea.
  - rewrite (match_values_spec L (c_op c) m a (c_values c) CError) by discriminate.
    split.
    + intros (pre & v & post & x & E & Hf & Hd & Hx). exists a, pre, v, post, x.
      repeat split; auto. destruct (compare_spec _ _ _ _) as [[]|]; try discriminate; reflexivity.
    + intros (a' & pre & v & post & x & E0 & E & Hf & Hd & Hx). injection E0 as <-.
      exists pre, v, post, x. repeat split; auto. now rewrite Hx.
  - split; [discriminate|]. intros (a' & pre & v & post & x & E0 & _). discriminate.
Qed.

(** ** Statements *)
Lemma match_conditions_match L cs m :
  match_conditions L cs m = CMatch <-> Forall (fun c => cond_holds L c m) cs.
Proof.
  induction cs as [|c cs IH]; simpl.
  - split; auto.
  - split.
    + destruct (condition_matches L c m) eqn:E; try discriminate. intros H.
      constructor; [now apply cond_match_spec | now apply IH].
    + intros H. inversion H; subst. apply cond_match_spec in H2. rewrite H2. now apply IH.
Qed.

Lemma match_conditions_err L cs m :
  match_conditions L cs m = CError <->
  exists pre c post, cs = (pre ++ c :: post)%list /\ Forall (fun c => cond_holds L c m) pre /\ cond_errs L c m.
Proof.
  induction cs as [|c cs IH]; simpl.
  - split; [discriminate|]. intros (pre & c & post & E & _). destruct pre; discriminate.
  - destruct (condition_matches L c m) eqn:E.
    + rewrite IH. split; intros (pre & c' & post & E' & Hf & He).
      * exists (c :: pre), c', post. subst cs. repeat split; auto.
        constructor; auto. now apply cond_match_spec.
      * destruct pre as [|p pre]; simpl in E'; injection E' as <- E'.
        -- apply cond_err_spec in He. congruence.
        -- inversion Hf; subst. exists pre, c', post. auto.
    + split; [discriminate|]. intros (pre & c' & post & E' & Hf & He).
      destruct pre as [|p pre]; simpl in E'; injection E' as <- E'.
      * apply cond_err_spec in He. congruence.
      * inversion Hf; subst. apply cond_match_spec in H1. congruence.
    + split; [|reflexivity]. intros _. exists [], c, cs. repeat split; auto. now apply cond_err_spec.
Qed.

Lemma set_contains_spec l s : set_contains l s = true <-> In s l.
Proof.
  unfold set_contains. rewrite existsb_exists. split.
  - intros (x & Hx & E). apply String.eqb_eq in E. now subst.
  - intros H. exists s. split; auto. apply String.eqb_refl.
Qed.

Lemma stmt_applies_eval L s a m : stmt_applies L s a m -> statement_eval L s a m = s_effect s.
Proof.
  intros [H1 H2]. unfold statement_eval.
  apply set_contains_spec in H1. rewrite H1. simpl.
  apply match_conditions_match in H2. now rewrite H2.
Qed.

Lemma stmt_errs_eval L s a m : stmt_errs L s a m -> statement_eval L s a m = EvalError.
Proof.
  intros [H1 H2]. unfold statement_eval.
  apply set_contains_spec in H1. rewrite H1. simpl.
  apply match_conditions_err in H2. now rewrite H2.
Qed.

Lemma statement_eval_cases L s a m :
  (stmt_applies L s a m /\ statement_eval L s a m = s_effect s) \/
  (stmt_errs L s a m /\ statement_eval L s a m = EvalError) \/
  (~ stmt_applies L s a m /\ ~ stmt_errs L s a m /\ statement_eval L s a m = NoMatch).
Proof.
  unfold statement_eval.
  destruct (set_contains (s_actions s) a) eqn:Ea; simpl.
  - apply set_contains_spec in Ea.
    destruct (match_conditions L (s_conds s) m) eqn:E.
    + left. split; [|reflexivity]. split; auto. now apply match_conditions_match.
    + right; right. repeat split.
      * intros [_ H]. apply match_conditions_match in H. congruence.
      * intros [_ H]. apply match_conditions_err in H. congruence.
    + right; left. split; [|reflexivity]. split; auto. now apply match_conditions_err.
  - right; right. repeat split.
    + intros [H _]. apply set_contains_spec in H. congruence.
    + intros [H _]. apply set_contains_spec in H. congruence.
Qed.

(** ** Folding over statements *)
Definition bad (e : effect) : bool := match e with Deny | EvalError => true | _ => false end.

Definition fold_stmts L a m st ss := fold_left (policy_statement_eval L a m) ss st.

Lemma fold_bad L a m ss : forall st, bad st = true -> fold_stmts L a m st ss = st.
Proof.
  induction ss as [|s ss IH]; intros st H; [reflexivity|].
  cbn [fold_stmts fold_left]. assert (E : policy_statement_eval L a m st s = st) by (destruct st; try discriminate; reflexivity).
  rewrite E. now apply IH.
Qed.

Lemma fold_allow L a m ss : forall st,
  fold_stmts L a m st ss = Allow <->
  bad st = false /\ Forall (fun s => bad (statement_eval L s a m) = false) ss /\
  (st = Allow \/ Exists (fun s => statement_eval L s a m = Allow) ss).
Proof.
  induction ss as [|s ss IH]; intros st.
  - cbn. split.
    + intros ->. repeat split; auto.
    + intros (_ & _ & [H|H]); [exact H | inversion H].
  - cbn [fold_stmts fold_left]. fold (fold_stmts L a m (policy_statement_eval L a m st s) ss).
    rewrite IH. unfold policy_statement_eval.
    rewrite Forall_cons_iff, Exists_cons.
    destruct st; destruct (statement_eval L s a m) eqn:E; simpl;
      intuition (try discriminate; try congruence).
Qed.

Lemma fold_app L a m s1 s2 st : fold_stmts L a m st (s1 ++ s2) = fold_stmts L a m (fold_stmts L a m st s1) s2.
Proof. apply fold_left_app. Qed.

Lemma find_names_policy c n p : find_policy c n = Some p <-> names_policy c n p.
Proof.
  unfold find_policy, names_policy. induction (conf_policies c) as [|q qs IH]; simpl.
  - split; [discriminate|]. intros (l1 & l2 & E & _). destruct l1; discriminate.
  - destruct (String.eqb_spec (p_id q) n) as [En|En].
    + split.
      * intros H. injection H as <-. exists [], qs. auto.
      * intros (l1 & l2 & E & Hn & Hf). destruct l1 as [|x l1]; simpl in E; injection E as <- E.
        -- reflexivity.
        -- inversion Hf; subst; contradiction.
    + rewrite IH. split; intros (l1 & l2 & E & Hn & Hf).
      * exists (q :: l1), l2. rewrite E. auto.
      * destruct l1 as [|x l1]; simpl in E; injection E as <- E; [contradiction|].
        inversion Hf; subst. exists l1, l2. auto.
Qed.

Lemma find_names_role c n r : find_role c (Some n) = Some r <-> names_role c n r.
Proof.
  unfold find_role, names_role. induction (conf_roles c) as [|q qs IH]; simpl.
  - split; [discriminate|]. intros (l1 & l2 & E & _). destruct l1; discriminate.
  - destruct (String.eqb_spec (r_id q) n) as [En|En].
    + split.
      * intros H. injection H as <-. exists [], qs. auto.
      * intros (l1 & l2 & E & Hn & Hf). destruct l1 as [|x l1]; simpl in E; injection E as <- E.
        -- reflexivity.
        -- inversion Hf; subst; contradiction.
    + rewrite IH. split; intros (l1 & l2 & E & Hn & Hf).
      * exists (q :: l1), l2. rewrite E. auto.
      * destruct l1 as [|x l1]; simpl in E; injection E as <- E; [contradiction|].
        inversion Hf; subst. exists l1, l2. auto.
Qed.

(** The statements of a list of policy names, when all are configured. *)
Fixpoint stmts_of (c : config) (ps : list string) : option (list statement) :=
  match ps with
  | [] => Some []
  | p :: ps' => match find_policy c p, stmts_of c ps' with
                | Some pol, Some l => Some (p_stmts pol ++ l)%list
                | _, _ => None
                end
  end.

Lemma role_eval_stmts L c a m ps : forall st,
  role_eval_loop L c a m st ps =
  match stmts_of c ps with
  | Some ss => fold_stmts L a m st ss
  | None => EvalError
  end.
Proof.
  induction ps as [|p ps IH]; intros st; simpl; [reflexivity|].
  destruct (find_policy c p) as [pol|]; [|reflexivity].
  rewrite IH. destruct (stmts_of c ps) as [ss|]; [|reflexivity].
  rewrite fold_app. reflexivity.
Qed.

Lemma stmts_of_some c ps : (exists ss, stmts_of c ps = Some ss) <->
  forall n, In n ps -> exists p, names_policy c n p.
Proof.
  induction ps as [|p ps IH]; simpl.
  - split; [intros _ n [] | intros _; eauto].
  - split.
    + intros [ss H]. destruct (find_policy c p) as [pol|] eqn:E; [|discriminate].
      destruct (stmts_of c ps) as [l|] eqn:El; [|discriminate].
      intros n [<-|Hn].
      * exists pol. now apply find_names_policy.
      * apply IH; eauto.
    + intros H. destruct (H p (or_introl eq_refl)) as [pol Hp].
      apply find_names_policy in Hp. rewrite Hp.
      destruct (proj2 IH) as [l Hl]; [intros; apply H; auto|]. rewrite Hl. eauto.
Qed.

Lemma stmts_of_in c ps : forall ss, stmts_of c ps = Some ss ->
  forall s, In s ss <-> exists n p, In n ps /\ names_policy c n p /\ In s (p_stmts p).
Proof.
  induction ps as [|q ps IH]; intros ss H s; simpl in H.
  - injection H as <-. split; [intros [] | intros (n & p & [] & _)].
  - destruct (find_policy c q) as [pol|] eqn:E; [|discriminate].
    destruct (stmts_of c ps) as [l|] eqn:El; [|discriminate]. injection H as <-.
    rewrite in_app_iff, (IH l eq_refl). split.
    + intros [H|(n & p & H1 & H2 & H3)].
      * exists q, pol. repeat split; simpl; auto. now apply find_names_policy.
      * exists n, p. simpl; auto.
    + intros (n & p & [<-|Hn] & H2 & H3).
      * apply find_names_policy in H2. rewrite E in H2. injection H2 as <-. auto.
      * right. exists n, p; auto.
Qed.

Lemma check_access_role_spec L c r a m :
  check_access_role L c r a m = Allow <-> grants L c r a m.
Proof.
  unfold check_access_role, grants. rewrite role_eval_stmts.
  rewrite <- stmts_of_some.
  destruct (stmts_of c (r_policies r)) as [ss|] eqn:Es.
  2: { split; [discriminate|]. intros ([ss H] & _). discriminate. }
  assert (Hin := stmts_of_in c _ ss Es).
  assert (Hrs : forall s, role_statement c r s <-> In s ss).
  { intros s. unfold role_statement. rewrite Hin. reflexivity. }
  rewrite fold_allow. split.
  - intros (_ & Hf & [Hx|Hx]); [discriminate|]. split; [eauto|]. split.
    + intros s Hs. apply Hrs in Hs. rewrite Forall_forall in Hf. specialize (Hf s Hs).
      split.
      * intros He. apply stmt_errs_eval in He. rewrite He in Hf. discriminate.
      * intros Ha. apply stmt_applies_eval in Ha. rewrite Ha in Hf.
        destruct (s_effect s); try discriminate; split; discriminate.
    + apply Exists_exists in Hx as (s & Hs & He).
      exists s. split; [now apply Hrs|].
      destruct (statement_eval_cases L s a m) as [[H E]|[[H E]|(H1 & H2 & E)]]; try congruence.
      split; congruence.
  - intros (_ & Hall & (s & Hs & Ha & He)). split; [reflexivity|]. split.
    + apply Forall_forall. intros t Ht. apply Hrs in Ht. destruct (Hall t Ht) as [Hne Hnd].
      destruct (statement_eval_cases L t a m) as [[H E]|[[H E]|(H1 & H2 & E)]].
      * rewrite E. destruct (Hnd H) as [D1 D2]. destruct (s_effect t); try reflexivity; congruence.
      * contradiction.
      * now rewrite E.
    + right. apply Exists_exists. exists s. split; [now apply Hrs|].
      apply stmt_applies_eval in Ha. congruence.
Qed.

(** ** C01 *)
Lemma decide_spec L c rs a m :
  decide L c rs a m = true <-> exists n r, rs = Some n /\ names_role c n r /\ grants L c r a m.
Proof.
  unfold decide. destruct rs as [n|]; simpl.
  2: { split; [discriminate|]. intros (n & r & H & _). discriminate. }
  fold (find_role c (Some n)).
  destruct (find_role c (Some n)) as [r|] eqn:Er.
  - assert (Hr := proj1 (find_names_role c n r) Er). split.
    + intros H. exists n, r. split; [reflexivity|]. split; [exact Hr|].
      apply check_access_role_spec.
      destruct (check_access_role L c r a m) eqn:E; try discriminate; reflexivity.
    + intros (n' & r' & E & Hn & Hg). injection E as <-.
      apply find_names_role in Hn. rewrite Er in Hn. injection Hn as <-.
      apply check_access_role_spec in Hg. now rewrite Hg.
  - split; [discriminate|]. intros (n' & r' & E & Hn & Hg). injection E as <-.
    apply find_names_role in Hn. congruence.
Qed.

(** ** C02 *)

Lemma find_role_perm c d n : config_reordered c d ->
  match find_role c n, find_role d n with
  | Some r, Some q => role_perm r q
  | None, None => True
  | _, _ => False
  end.
Proof.
  intros [H _]. destruct n as [n|]; simpl; auto.
  induction H as [|r q rs qs Hrq H IH]; simpl; auto.
  assert (E := proj1 Hrq). rewrite <- E.
  destruct (String.eqb (r_id r) n); auto.
Qed.

Lemma find_policy_perm c d n : config_reordered c d ->
  match find_policy c n, find_policy d n with
  | Some r, Some q => policy_perm r q
  | None, None => True
  | _, _ => False
  end.
Proof.
  intros [_ H]. unfold find_policy.
  induction H as [|r q rs qs Hrq H IH]; simpl; auto.
  assert (E := proj1 Hrq). rewrite <- E.
  destruct (String.eqb (p_id r) n); auto.
Qed.

Lemma stmts_of_perm_config c d ps : config_reordered c d ->
  match stmts_of c ps, stmts_of d ps with
  | Some r, Some q => Permutation r q
  | None, None => True
  | _, _ => False
  end.
Proof.
  intros H. induction ps as [|p ps IH]; simpl; auto.
  assert (Hp := find_policy_perm c d p H).
  destruct (find_policy c p), (find_policy d p); try contradiction; auto.
  destruct (stmts_of c ps), (stmts_of d ps); try contradiction; auto.
  apply Permutation_app; [apply Hp | exact IH].
Qed.

Lemma stmts_of_perm_names c ps qs : Permutation ps qs ->
  match stmts_of c ps, stmts_of c qs with
  | Some r, Some q => Permutation r q
  | None, None => True
  | _, _ => False
  end.
Proof.
  intros H. induction H as [|p ps qs H IH|p q ps|ps qs rs H1 IH1 H2 IH2]; simpl; auto.
  - destruct (find_policy c p); auto.
    destruct (stmts_of c ps), (stmts_of c qs); try contradiction; auto.
    now apply Permutation_app_head.
  - destruct (find_policy c p), (find_policy c q); auto; destruct (stmts_of c ps); auto.
    rewrite !app_assoc. apply Permutation_app_tail. apply Permutation_app_comm.
  - destruct (stmts_of c ps), (stmts_of c qs), (stmts_of c rs); try contradiction; auto.
    etransitivity; eauto.
Qed.

Lemma fold_allow_perm L a m ss tt : Permutation ss tt ->
  fold_stmts L a m NoMatch ss = Allow <-> fold_stmts L a m NoMatch tt = Allow.
Proof.
  intros H. rewrite !fold_allow.
  assert (F : forall P : statement -> Prop, Forall P ss <-> Forall P tt).
  { intros P. rewrite !Forall_forall. split; intros HF x Hx; apply HF;
    [apply Permutation_in with tt; [now symmetry|] | apply Permutation_in with ss]; auto. }
  assert (X : forall P : statement -> Prop, Exists P ss <-> Exists P tt).
  { intros P. rewrite !Exists_exists. split; intros (x & Hx & HP); exists x; split; auto;
    [apply Permutation_in with ss | apply Permutation_in with tt; [now symmetry|]]; auto. }
  rewrite F, X. reflexivity.
Qed.

Lemma decide_reordered L c d rs a m : config_reordered c d -> decide L c rs a m = decide L d rs a m.
Proof.
  intros H. unfold decide. assert (Hr := find_role_perm c d rs H).
  destruct (find_role c rs) as [r|], (find_role d rs) as [q|]; try contradiction; auto.
  assert (E : check_access_role L c r a m = Allow <-> check_access_role L d q a m = Allow).
  { unfold check_access_role. rewrite !role_eval_stmts.
    assert (H1 := stmts_of_perm_config c d (r_policies r) H).
    assert (H2 := stmts_of_perm_names d _ _ (proj2 Hr)).
    destruct (stmts_of c (r_policies r)), (stmts_of d (r_policies r)), (stmts_of d (r_policies q));
      try contradiction; try (split; discriminate).
    apply fold_allow_perm. etransitivity; eauto. }
  destruct (check_access_role L c r a m), (check_access_role L d q a m); auto;
    try (destruct E as [E1 E2]; try (discriminate E1; reflexivity); try (discriminate E2; reflexivity)).
Qed.

(** ** C03 *)
Lemma decide_no_role L c a m : decide L c None a m = false.
Proof. reflexivity. Qed.

Lemma not_decide L c rs a m : ~ (decide L c rs a m = true) -> decide L c rs a m = false.
Proof. destruct (decide L c rs a m); congruence. Qed.

Lemma decide_unknown_role L c n a m : (forall r, In r (conf_roles c) -> r_id r <> n) -> decide L c (Some n) a m = false.
Proof.
  intros H. apply not_decide. rewrite decide_spec. intros (n' & r & E & Hn & _). injection E as <-.
  destruct Hn as (l1 & l2 & E & Hid & _). apply (H r); auto. rewrite E. apply in_or_app; simpl; auto.
Qed.

Lemma names_role_det c n r q : names_role c n r -> names_role c n q -> r = q.
Proof. rewrite <- !find_names_role. congruence. Qed.
Lemma names_policy_det c n r q : names_policy c n r -> names_policy c n q -> r = q.
Proof. rewrite <- !find_names_policy. congruence. Qed.

Lemma decide_nothing_applies L c n r a m : names_role c n r ->
  (forall s, role_statement c r s -> ~ stmt_applies L s a m) -> decide L c (Some n) a m = false.
Proof.
  intros Hr H. apply not_decide. rewrite decide_spec. intros (n' & r' & E & Hn & (_ & _ & s & Hs & Ha & _)).
  injection E as <-. rewrite (names_role_det _ _ _ _ Hn Hr) in Hs. exact (H s Hs Ha).
Qed.

Lemma decide_deny_wins L c n r s a m : names_role c n r -> role_statement c r s ->
  stmt_applies L s a m -> s_effect s = Deny -> decide L c (Some n) a m = false.
Proof.
  intros Hr Hs Ha Hd. apply not_decide. rewrite decide_spec. intros (n' & r' & E & Hn & (_ & Hall & _)).
  injection E as <-. rewrite (names_role_det _ _ _ _ Hn Hr) in Hall.
  destruct (Hall s Hs) as [_ H]. destruct (H Ha) as [H1 _]. exact (H1 Hd).
Qed.

Lemma adds_denies_in l k : adds_denies l k -> (forall s, In s l -> In s k) /\ (forall s, In s k -> In s l \/ s_effect s = Deny).
Proof.
  intros H. induction H as [|s l k H [I1 I2]|s l k Hd H [I1 I2]]; simpl.
  - auto.
  - split; intros x [->|Hx]; auto. destruct (I2 x Hx); auto.
  - split; intros x Hx; auto. destruct Hx as [->|Hx]; auto.
Qed.

Lemma find_policy_adds c d n : config_adds_denies c d ->
  match find_policy c n, find_policy d n with
  | Some r, Some q => adds_denies (p_stmts r) (p_stmts q)
  | None, None => True
  | _, _ => False
  end.
Proof.
  intros [_ H]. unfold find_policy.
  induction H as [|r q rs qs Hrq H IH]; simpl; auto.
  assert (E := proj1 Hrq). rewrite <- E.
  destruct (String.eqb (p_id r) n); auto. apply Hrq.
Qed.

Lemma adds_denies_monotone L c d rs a m : config_adds_denies c d ->
  decide L d rs a m = true -> decide L c rs a m = true.
Proof.
  intros H. rewrite !decide_spec. intros (n & r & -> & Hn & (Hex & Hall & s & Hs & Ha & He)).
  exists n, r. split; [reflexivity|].
  assert (Hn' : names_role c n r). { unfold names_role in *. now rewrite (proj1 H). }
  split; [exact Hn'|].
  assert (Back : forall n p, names_policy d n p -> exists q, names_policy c n q /\ adds_denies (p_stmts q) (p_stmts p)).
  { intros k p Hp. apply find_names_policy in Hp. assert (F := find_policy_adds c d k H).
    rewrite Hp in F. destruct (find_policy c k) as [q|] eqn:Eq; [|contradiction].
    exists q. split; auto. now apply find_names_policy. }
  assert (Fwd : forall n p, names_policy c n p -> exists q, names_policy d n q /\ adds_denies (p_stmts p) (p_stmts q)).
  { intros k p Hp. apply find_names_policy in Hp. assert (F := find_policy_adds c d k H).
    rewrite Hp in F. destruct (find_policy d k) as [q|] eqn:Eq; [|contradiction].
    exists q. split; auto. now apply find_names_policy. }
  split; [|split].
  - intros k Hk. destruct (Hex k Hk) as [p Hp]. destruct (Back k p Hp) as (q & Hq & _). eauto.
  - intros t (k & p & Hk & Hp & Ht). destruct (Fwd k p Hp) as (q & Hq & Had).
    apply Hall. exists k, q. repeat split; auto. now apply (proj1 (adds_denies_in _ _ Had)).
  - destruct Hs as (k & p & Hk & Hp & Ht). destruct (Back k p Hp) as (q & Hq & Had).
    exists s. repeat split; try apply Ha; auto. exists k, q. repeat split; auto.
    destruct (proj2 (adds_denies_in _ _ Had) s Ht) as [Hi|Hd]; auto. congruence.
Qed.

(** ** C04 *)
Lemma cond_missing_attr L c m : attr_get (c_key c) m = None ->
  condition_matches L c m = CNoMatch.
Proof. intros H. unfold condition_matches. now rewrite H. Qed.

Lemma undecided_or L op m a v : undecided L op m a v \/ exists x, denotes m v x /\ compare_spec L op a x <> Some false.
Proof.
  destruct (resolve_value m v) as [x|] eqn:E.
  - apply resolve_denotes in E. destruct (compare_spec L op a x) as [[]|] eqn:Ec.
    + right. exists x. split; auto. congruence.
    + left. intros y Hy. apply resolve_denotes in Hy, E. congruence.
    + right. exists x. split; auto. congruence.
  - left. intros y Hy. apply resolve_denotes in Hy. congruence.
Qed.

Lemma first_decided L op m a vs : 
  Forall (undecided L op m a) vs \/
  exists pre v post x, vs = (pre ++ v :: post)%list /\ Forall (undecided L op m a) pre /\ denotes m v x /\ compare_spec L op a x <> Some false.
Proof.
  induction vs as [|v vs IH]; auto.
  destruct (undecided_or L op m a v) as [H|(x & Hd & Hc)].
  - destruct IH as [IH|(pre & w & post & x & -> & Hf & Hd & Hc)]; auto.
    right. exists (v :: pre), w, post, x. auto.
  - right. exists [], v, vs, x. auto.
Qed.

Lemma well_typed_match L c m : well_typed L c m ->
  condition_matches L c m = CMatch <->
  exists a v x, attr_get (c_key c) m = Some a /\ In v (c_values c) /\ denotes m v x /\ compare_spec L (c_op c) a x = Some true.
Proof.
  intros W. rewrite cond_match_spec. split.
  - intros (a & pre & v & post & x & Ha & E & Hf & Hd & Hc). exists a, v, x. repeat split; auto.
    rewrite E. apply in_or_app; simpl; auto.
  - intros (a & v & x & Ha & Hv & Hd & Hc).
    destruct (first_decided L (c_op c) m a (c_values c)) as [H|(pre & w & post & y & E & Hf & Hy & Hcy)].
    + rewrite Forall_forall in H. specialize (H v Hv x Hd). congruence.
    + exists a, pre, w, post, y. repeat split; auto.
      assert (Hw : In w (c_values c)) by (rewrite E; apply in_or_app; simpl; auto).
      specialize (W a w y Ha Hw Hy). destruct (compare_spec _ _ _ y) as [[]|]; congruence.
Qed.

Lemma well_typed_no_error L c m : well_typed L c m -> condition_matches L c m <> CError.
Proof.
  intros W H. apply cond_err_spec in H. destruct H as (a & pre & v & post & x & Ha & E & Hf & Hd & Hc).
  apply (W a v x); auto. rewrite E. apply in_or_app; simpl; auto.
Qed.

Lemma string_well_typed L c m : c_op c = StringEquals \/ c_op c = StringNotEquals -> well_typed L c m.
Proof. intros H a v x _ _ _. destruct H as [-> | ->]; discriminate. Qed.

Lemma string_equals_spec L c m : c_op c = StringEquals ->
  condition_matches L c m = CMatch <->
  exists a v, attr_get (c_key c) m = Some a /\ In v (c_values c) /\ denotes m v a.
Proof.
  intros H. rewrite well_typed_match by (apply string_well_typed; auto). rewrite H. simpl. split.
  - intros (a & v & x & H1 & H2 & H3 & H4). destruct (string_dec a x); [subst|discriminate]. eauto.
  - intros (a & v & H1 & H2 & H3). exists a, v, a. repeat split; auto. destruct (string_dec a a); congruence.
Qed.

(** If nothing in the condition can be compared, the request is denied. *)
Lemma error_denies L c n r s k a m : names_role c n r -> role_statement c r s ->
  In a (s_actions s) -> (exists pre post, s_conds s = (pre ++ k :: post)%list /\ Forall (fun c => cond_holds L c m) pre) ->
  cond_errs L k m -> decide L c (Some n) a m = false.
Proof.
  intros Hr Hs Hin (pre & post & E & Hf) He. apply not_decide. rewrite decide_spec.
  intros (n' & r' & En & Hn & (_ & Hall & _)). injection En as <-.
  rewrite (names_role_det _ _ _ _ Hn Hr) in Hall. destruct (Hall s Hs) as [Hne _].
  apply Hne. split; auto. exists pre, k, post. auto.
Qed.

(** An attribute that is not of the operator's type is an error as soon as a value resolves. *)
Lemma ill_typed_attr_errs L c m a : attr_get (c_key c) m = Some a ->
  (forall y, compare_spec L (c_op c) a y = None) ->
  (exists v x, In v (c_values c) /\ denotes m v x) -> condition_matches L c m = CError.
Proof.
  intros Ha Hn (v & x & Hv & Hd). apply cond_err_spec.
  destruct (first_decided L (c_op c) m a (c_values c)) as [H|(pre & w & post & y & E & Hf & Hy & Hcy)].
  - rewrite Forall_forall in H. specialize (H v Hv x Hd). rewrite Hn in H. discriminate.
  - exists a, pre, w, post, y. repeat split; auto.
Qed.

(** ** C05 *)
Lemma string_not_equals_refuted_w :
  exists L c m a v, c_op c = StringNotEquals /\ attr_get (c_key c) m = Some a /\
    In v (c_values c) /\ denotes m v a /\ condition_matches L c m = CMatch.
Proof.
  exists nolib, {| c_op := StringNotEquals; c_key := "k"; c_values := ["a"; "b"] |}, [("k", "b")], "b", "b".
  repeat split; simpl; auto.
  apply resolve_denotes. reflexivity.
Qed.

(** With zero or one value the documented meaning holds; in general it applies when some value differs. *)
Lemma string_not_equals_some L c m : c_op c = StringNotEquals ->
  condition_matches L c m = CMatch <->
  exists a v x, attr_get (c_key c) m = Some a /\ In v (c_values c) /\ denotes m v x /\ a <> x.
Proof.
  intros H. rewrite well_typed_match by (apply string_well_typed; auto). rewrite H. simpl. split.
  - intros (a & v & x & H1 & H2 & H3 & H4). exists a, v, x. repeat split; auto. destruct (string_dec a x); congruence.
  - intros (a & v & x & H1 & H2 & H3 & H4). exists a, v, x. repeat split; auto. destruct (string_dec a x); congruence.
Qed.

Lemma denotes_det m v x y : denotes m v x -> denotes m v y -> x = y.
Proof. rewrite <- !resolve_denotes. congruence. Qed.

Lemma string_not_equals_single L c m v0 : c_op c = StringNotEquals -> c_values c = [v0] ->
  condition_matches L c m = CMatch ->
  forall a v x, attr_get (c_key c) m = Some a -> In v (c_values c) -> denotes m v x -> a <> x.
Proof.
  intros H E Hm a v x Ha Hv Hd. apply string_not_equals_some in Hm; auto.
  destruct Hm as (a' & v' & x' & Ha' & Hv' & Hd' & Hne). rewrite E in Hv, Hv'. simpl in *.
  destruct Hv as [<-|[]], Hv' as [<-|[]]. rewrite Ha in Ha'. injection Ha' as <-.
  now rewrite (denotes_det _ _ _ _ Hd Hd').
Qed.

(** ** Order of the values of a condition *)
Lemma value_order_safe L c d m : c_op c = c_op d -> c_key c = c_key d ->
  Permutation (c_values c) (c_values d) -> well_typed L c m ->
  condition_matches L c m = condition_matches L d m.
Proof.
  intros H1 H2 H3 W.
  assert (W' : well_typed L d m).
  { intros a v x Ha Hv Hx. rewrite <- H1. apply (W a v x); auto; [now rewrite H2|].
    apply Permutation_in with (c_values d); auto. now symmetry. }
  assert (E : condition_matches L c m = CMatch <-> condition_matches L d m = CMatch).
  { rewrite !well_typed_match by auto. rewrite H1, H2.
    split; intros (a & v & x & Ha & Hv & Hr); exists a, v, x; repeat split; try apply Hr; auto.
    - apply Permutation_in with (c_values c); auto.
    - apply Permutation_in with (c_values d); auto. now symmetry. }
  assert (N1 := well_typed_no_error L c m W). assert (N2 := well_typed_no_error L d m W').
  destruct (condition_matches L c m), (condition_matches L d m); intuition congruence.
Qed.
