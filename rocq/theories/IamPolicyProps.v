(** Properties C01-C05 and C61: IAM policy evaluation. *)
From Coq Require Import String Ascii List Bool Arith Permutation.
From Verif Require Import IamPolicyModel IamPolicySpec IamPolicyProofs.
Import ListNotations.
Open Scope string_scope.

(** A concrete configuration used by the examples: role "r" has policies "p"
    (allows A, when attribute k equals attribute l) and "q" (denies B). *)
Definition ex_cond := {| c_op := StringEquals; c_key := "k"; c_values := ["x"; "${l}"] |}.
Definition ex_p := {| p_id := "p"; p_stmts := [{| s_effect := Allow; s_actions := ["A"; "B"]; s_conds := [ex_cond] |}] |}.
Definition ex_q := {| p_id := "q"; p_stmts := [{| s_effect := Deny; s_actions := ["B"]; s_conds := [] |}] |}.
Definition ex_conf := {| conf_roles := [{| r_id := "r"; r_policies := ["p"; "q"] |}];
                         conf_policies := [ex_p; ex_q]; conf_unpaired := None |}.
Definition ex_attrs : attrs := [("k", "v"); ("l", "v")].

(** C01: access is granted exactly when the policies say so. *)
Theorem C01_access_decision_iff_spec : forall L c roleName action m,
  decide L c roleName action m = true <->
  exists n r, roleName = Some n /\ names_role c n r /\ grants L c r action m.
Proof. exact decide_spec. Qed.
Print Assumptions C01_access_decision_iff_spec.

Example C01_ex_granted : decide nolib ex_conf (Some "r") "A" ex_attrs = true.
Proof. reflexivity. Qed.
Example C01_ex_denied : decide nolib ex_conf (Some "r") "B" ex_attrs = false
  /\ decide nolib ex_conf (Some "r") "A" [("k", "v")] = false.
Proof. split; reflexivity. Qed.

(** C02: order of policies in roles and of statements in policies is irrelevant. *)
Theorem C02_order_irrelevant : forall L c d roleName action m,
  config_reordered c d -> decide L c roleName action m = decide L d roleName action m.
Proof. exact decide_reordered. Qed.
Print Assumptions C02_order_irrelevant.

Example C02_ex : exists d, config_reordered ex_conf d /\ d <> ex_conf.
Proof.
  exists {| conf_roles := [{| r_id := "r"; r_policies := ["q"; "p"] |}];
            conf_policies := [ex_p; ex_q]; conf_unpaired := None |}.
  split; [|discriminate]. split; simpl.
  - repeat constructor.
  - repeat constructor.
Qed.

(** C03: deny by default, deny wins, extra denies never grant. *)
Theorem C03_unset_role_denied : forall L c action m, decide L c None action m = false.
Proof. exact decide_no_role. Qed.
Print Assumptions C03_unset_role_denied.

Theorem C03_unknown_role_denied : forall L c n action m,
  (forall r, In r (conf_roles c) -> r_id r <> n) -> decide L c (Some n) action m = false.
Proof. exact decide_unknown_role. Qed.
Print Assumptions C03_unknown_role_denied.

Theorem C03_default_deny : forall L c n r action m, names_role c n r ->
  (forall s, role_statement c r s -> ~ stmt_applies L s action m) ->
  decide L c (Some n) action m = false.
Proof. exact decide_nothing_applies. Qed.
Print Assumptions C03_default_deny.

Theorem C03_deny_wins : forall L c n r s action m, names_role c n r -> role_statement c r s ->
  stmt_applies L s action m -> s_effect s = Deny -> decide L c (Some n) action m = false.
Proof. exact decide_deny_wins. Qed.
Print Assumptions C03_deny_wins.

Theorem C03_more_denies_never_grant : forall L c d roleName action m, config_adds_denies c d ->
  decide L d roleName action m = true -> decide L c roleName action m = true.
Proof. exact adds_denies_monotone. Qed.
Print Assumptions C03_more_denies_never_grant.

Example C03_ex_deny_wins : exists r s, names_role ex_conf "r" r /\ role_statement ex_conf r s /\
  stmt_applies nolib s "B" ex_attrs /\ s_effect s = Deny.
Proof.
  exists {| r_id := "r"; r_policies := ["p"; "q"] |}, {| s_effect := Deny; s_actions := ["B"]; s_conds := [] |}.
  split; [exists [], []; repeat split; constructor|]. split.
  - exists "q", ex_q. simpl. split; auto. split; auto.
    exists [ex_p], []. repeat split. repeat constructor. discriminate.
  - repeat split; simpl; auto.
Qed.
Example C03_ex_default : exists r, names_role ex_conf "r" r /\
  forall s, role_statement ex_conf r s -> ~ stmt_applies nolib s "C" ex_attrs.
Proof.
  exists {| r_id := "r"; r_policies := ["p"; "q"] |}.
  split; [exists [], []; repeat split; constructor|].
  intros s (n & p & Hn & Hp & Hs) [Ha _].
  apply find_names_policy in Hp. simpl in Hn.
  destruct Hn as [<-|[<-|[]]]; vm_compute in Hp; injection Hp as <-; simpl in Hs;
    destruct Hs as [<-|[]]; simpl in Ha; repeat destruct Ha as [Ha|Ha]; try discriminate; contradiction.
Qed.
Example C03_ex_more : exists d, config_adds_denies d ex_conf /\ d <> ex_conf /\ decide nolib ex_conf (Some "r") "A" ex_attrs = true.
Proof.
  exists {| conf_roles := conf_roles ex_conf; conf_policies := [ex_p; {| p_id := "q"; p_stmts := [] |}]; conf_unpaired := None |}.
  split; [|split; [discriminate | reflexivity]].
  split; [reflexivity|]. repeat constructor.
Qed.

(** C04: what conditions mean. *)
Theorem C04_missing_attribute_never_matches : forall L c m,
  attr_get (c_key c) m = None -> condition_matches L c m = CNoMatch.
Proof. exact cond_missing_attr. Qed.
Print Assumptions C04_missing_attribute_never_matches.

(** For every operator: if the operands have the operator's type, the condition
    applies exactly when some value compares true with the attribute. *)
Theorem C04_condition_iff_some_value : forall L c m, well_typed L c m ->
  (condition_matches L c m = CMatch <->
   exists a v x, attr_get (c_key c) m = Some a /\ In v (c_values c) /\ denotes m v x /\
                 compare_spec L (c_op c) a x = Some true) /\
  condition_matches L c m <> CError.
Proof. intros L c m H. exact (conj (well_typed_match L c m H) (well_typed_no_error L c m H)). Qed.
Print Assumptions C04_condition_iff_some_value.

Theorem C04_string_equals : forall L c m, c_op c = StringEquals ->
  condition_matches L c m = CMatch <->
  exists a v, attr_get (c_key c) m = Some a /\ In v (c_values c) /\ denotes m v a.
Proof. exact string_equals_spec. Qed.
Print Assumptions C04_string_equals.

(** In general (no typing assumption) the first decided value decides. *)
Theorem C04_condition_first_decided : forall L c m,
  (condition_matches L c m = CMatch <-> cond_holds L c m) /\
  (condition_matches L c m = CError <-> cond_errs L c m).
Proof. intros L c m. exact (conj (cond_match_spec L c m) (cond_err_spec L c m)). Qed.
Print Assumptions C04_condition_first_decided.

(** An erroneous condition reached in a statement for the action denies the request. *)
Theorem C04_error_denies : forall L c n r s k action m, names_role c n r -> role_statement c r s ->
  In action (s_actions s) ->
  (exists pre post, s_conds s = (pre ++ k :: post)%list /\ Forall (fun c => cond_holds L c m) pre) ->
  cond_errs L k m -> decide L c (Some n) action m = false.
Proof. exact error_denies. Qed.
Print Assumptions C04_error_denies.

(** An attribute not of the operator's type makes the condition erroneous. *)
Theorem C04_unparsable_attribute_errs : forall L c m a, attr_get (c_key c) m = Some a ->
  (forall y, compare_spec L (c_op c) a y = None) ->
  (exists v x, In v (c_values c) /\ denotes m v x) -> condition_matches L c m = CError.
Proof. exact ill_typed_attr_errs. Qed.
Print Assumptions C04_unparsable_attribute_errs.

(** ${name} resolution is exact: this is the relation [denotes] of the spec. *)
Theorem C04_variable_resolution : forall m v x, resolve_value m v = Some x <-> denotes m v x.
Proof. exact resolve_denotes. Qed.
Print Assumptions C04_variable_resolution.

Example C04_ex_vars : resolve_value ex_attrs "${l}" = Some "v" /\ resolve_value ex_attrs "${zz}" = None
  /\ resolve_value ex_attrs "${" = Some "${".
Proof. repeat split. Qed.
Example C04_ex_bool : let c := {| c_op := BoolOp; c_key := "b"; c_values := ["true"] |} in
  well_typed nolib c [("b", "true")] /\ condition_matches nolib c [("b", "true")] = CMatch /\
  condition_matches nolib c [("b", "1")] = CError.
Proof.
  split; [|split; reflexivity]. intros a v x Ha [<-|[]] Hd. vm_compute in Ha. injection Ha as <-.
  apply resolve_denotes in Hd. vm_compute in Hd. injection Hd as <-. discriminate.
Qed.

(** C05: StringNotEquals does not exclude every listed value (documented at
    nm_iam_configuration.h:41-49). Full statement, violated by the code:
      condition_matches = CMatch -> forall v x, In v values -> denotes m v x -> attribute <> x. *)
Theorem C05_string_not_equals_refuted :
  exists L c m a v, c_op c = StringNotEquals /\ attr_get (c_key c) m = Some a /\
    In v (c_values c) /\ denotes m v a /\ condition_matches L c m = CMatch.
Proof. exact string_not_equals_refuted_w. Qed.
Print Assumptions C05_string_not_equals_refuted.

(** What the code does instead: it applies when some value differs. *)
Theorem C05_string_not_equals_actual : forall L c m, c_op c = StringNotEquals ->
  condition_matches L c m = CMatch <->
  exists a v x, attr_get (c_key c) m = Some a /\ In v (c_values c) /\ denotes m v x /\ a <> x.
Proof. exact string_not_equals_some. Qed.
Print Assumptions C05_string_not_equals_actual.

(** Missing from the full statement: conditions with two or more values. *)
Theorem C05_string_not_equals_single_partial : forall L c m v0, c_op c = StringNotEquals ->
  c_values c = [v0] -> condition_matches L c m = CMatch ->
  forall a v x, attr_get (c_key c) m = Some a -> In v (c_values c) -> denotes m v x -> a <> x.
Proof. exact string_not_equals_single. Qed.
Print Assumptions C05_string_not_equals_single_partial.

Example C05_ex : let c := {| c_op := StringNotEquals; c_key := "k"; c_values := ["a"] |} in
  condition_matches nolib c [("k", "b")] = CMatch.
Proof. reflexivity. Qed.

(** C61: the order of the values of a condition (the order of an unordered
    string set) can change the access decision when a value does not parse. *)
Theorem C61_value_order_refuted : exists L c d m,
  c_op c = c_op d /\ c_key c = c_key d /\ Permutation (c_values c) (c_values d) /\
  condition_matches L c m = CMatch /\ condition_matches L d m = CError.
Proof.
  exists nolib, {| c_op := BoolOp; c_key := "k"; c_values := ["true"; "maybe"] |},
    {| c_op := BoolOp; c_key := "k"; c_values := ["maybe"; "true"] |}, [("k", "true")].
  repeat split. constructor.
Qed.
Print Assumptions C61_value_order_refuted.

(** Missing from the full statement: values not of the operator's type. *)
Theorem C61_value_order_partial : forall L c d m, c_op c = c_op d -> c_key c = c_key d ->
  Permutation (c_values c) (c_values d) -> well_typed L c m ->
  condition_matches L c m = condition_matches L d m.
Proof. exact value_order_safe. Qed.
Print Assumptions C61_value_order_partial.

(** String conditions are always well typed. *)
Theorem C61_string_conditions_well_typed : forall L c m,
  c_op c = StringEquals \/ c_op c = StringNotEquals -> well_typed L c m.
Proof. exact string_well_typed. Qed.
Print Assumptions C61_string_conditions_well_typed.
