(** Independent specification of access decisions. It mentions only the
    configuration data types and [attr_get]; it does not use the evaluator. *)
From Coq Require Import String Ascii List Bool Arith Permutation.
From Verif Require Import IamPolicyModel.
Import ListNotations.
Open Scope string_scope.

(** [denotes m v x]: condition value [v] stands for the string [x]. A value of
    the form ${name} stands for the attribute [name], any other for itself. *)
Inductive denotes (m : attrs) : string -> string -> Prop :=
| den_var : forall name x, attr_get name m = Some x -> denotes m ("${" ++ name ++ "}") x
| den_lit : forall v, (forall name, v <> "${" ++ name ++ "}") -> denotes m v v.

(** What comparing an attribute value to one value means per operator: [Some b]
    is the truth value, [None] that an operand is not of the operator's type. *)
Definition bool_of (s : string) : option bool :=
  match string_dec s "true", string_dec s "false" with
  | left _, _ => Some true
  | _, left _ => Some false
  | _, _ => None
  end.

Definition compare_spec (L : numlib) (op : operator) (a v : string) : option bool :=
  let num f := match nl_strtod L a, nl_strtod L v with Some x, Some y => Some (f x y) | _, _ => None end in
  match op with
  | StringEquals => Some (if string_dec a v then true else false)
  | StringNotEquals => Some (if string_dec a v then false else true)
  | NumericEquals => num (fun x y => nl_eqb L x y)
  | NumericNotEquals => num (fun x y => negb (nl_eqb L x y))
  | NumericLessThan => num (fun x y => nl_ltb L x y)
  | NumericLessThanEquals => num (fun x y => nl_leb L x y)
  | NumericGreaterThan => num (fun x y => nl_ltb L y x)
  | NumericGreaterThanEquals => num (fun x y => nl_leb L y x)
  | BoolOp => match bool_of a, bool_of v with Some x, Some y => Some (Bool.eqb x y) | _, _ => None end
  end.

(** A condition holds / is erroneous: the values are tried in order; the first
    one that is decided (true or ill typed) decides. *)
Definition undecided (L : numlib) (op : operator) (m : attrs) (a v : string) : Prop :=
  forall x, denotes m v x -> compare_spec L op a x = Some false.

Definition cond_holds (L : numlib) (c : condition) (m : attrs) : Prop :=
  exists a pre v post x,
    attr_get (c_key c) m = Some a /\ c_values c = (pre ++ v :: post)%list /\
    Forall (undecided L (c_op c) m a) pre /\
    denotes m v x /\ compare_spec L (c_op c) a x = Some true.

Definition cond_errs (L : numlib) (c : condition) (m : attrs) : Prop :=
  exists a pre v post x,
    attr_get (c_key c) m = Some a /\ c_values c = (pre ++ v :: post)%list /\
    Forall (undecided L (c_op c) m a) pre /\
    denotes m v x /\ compare_spec L (c_op c) a x = None.

(** A statement applies: it lists the action and all its conditions hold. *)
Definition stmt_applies (L : numlib) (s : statement) (action : string) (m : attrs) : Prop :=
  In action (s_actions s) /\ Forall (fun c => cond_holds L c m) (s_conds s).

(** A statement is erroneous: it lists the action, some condition is erroneous
    and the conditions before it hold. *)
Definition stmt_errs (L : numlib) (s : statement) (action : string) (m : attrs) : Prop :=
  In action (s_actions s) /\
  exists pre c post, s_conds s = (pre ++ c :: post)%list /\
    Forall (fun c => cond_holds L c m) pre /\ cond_errs L c m.

(** The policy a name refers to: the first configured one with that id. *)
Definition names_policy (c : config) (n : string) (p : policy) : Prop :=
  exists l1 l2, conf_policies c = (l1 ++ p :: l2)%list /\ p_id p = n /\ Forall (fun q => p_id q <> n) l1.

(** The role a name refers to: the first configured one with that id. *)
Definition names_role (c : config) (n : string) (r : role) : Prop :=
  exists l1 l2, conf_roles c = (l1 ++ r :: l2)%list /\ r_id r = n /\ Forall (fun q => r_id q <> n) l1.

(** [role_statement c r s]: [s] is a statement of a policy of role [r]. *)
Definition role_statement (c : config) (r : role) (s : statement) : Prop :=
  exists n p, In n (r_policies r) /\ names_policy c n p /\ In s (p_stmts p).

Definition grants (L : numlib) (c : config) (r : role) (action : string) (m : attrs) : Prop :=
  (forall n, In n (r_policies r) -> exists p, names_policy c n p) /\
  (forall s, role_statement c r s ->
      ~ stmt_errs L s action m /\
      (stmt_applies L s action m -> s_effect s <> Deny /\ s_effect s <> EvalError)) /\
  (exists s, role_statement c r s /\ stmt_applies L s action m /\ s_effect s = Allow).

(** Same ids in the same places, statements permuted. *)
Definition policy_perm (p q : policy) : Prop := p_id p = p_id q /\ Permutation (p_stmts p) (p_stmts q).
(** Same ids in the same places, policy names permuted. *)
Definition role_perm (r q : role) : Prop := r_id r = r_id q /\ Permutation (r_policies r) (r_policies q).
Definition config_reordered (c d : config) : Prop :=
  Forall2 role_perm (conf_roles c) (conf_roles d) /\
  Forall2 policy_perm (conf_policies c) (conf_policies d).

(** Adding Deny statements to policies, anywhere. *)
Inductive adds_denies : list statement -> list statement -> Prop :=
| ad_nil : adds_denies [] []
| ad_keep : forall s l k, adds_denies l k -> adds_denies (s :: l) (s :: k)
| ad_add : forall s l k, s_effect s = Deny -> adds_denies l k -> adds_denies l (s :: k).

Definition config_adds_denies (c d : config) : Prop :=
  conf_roles c = conf_roles d /\
  Forall2 (fun p q => p_id p = p_id q /\ adds_denies (p_stmts p) (p_stmts q)) (conf_policies c) (conf_policies d).

(** All operands are of the operator's type. *)
Definition well_typed (L : numlib) (c : condition) (m : attrs) : Prop :=
  forall a v x, attr_get (c_key c) m = Some a -> In v (c_values c) -> denotes m v x ->
  compare_spec L (c_op c) a x <> None.

(** A concrete number library for witnesses that do not involve numbers. *)
Definition nolib : numlib := {| nl_num := unit; nl_strtod := fun _ => None; nl_eqb := fun _ _ => true; nl_ltb := fun _ _ => false; nl_leb := fun _ _ => true |}.

