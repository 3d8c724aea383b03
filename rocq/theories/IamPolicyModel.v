(** Model of IAM policy evaluation (src/modules/iam/policies and the role
    evaluation of src/modules/iam/nm_iam_internal.c). Definitions only. *)
From Coq Require Import String Ascii List Bool Arith.
Import ListNotations.
Open Scope string_scope.

(** ** External code

    - [nn_string_set] (nabto-common, not in the repository): a list of strings,
      iterated in list order. Theorems quantify over all lists, hence over every
      iteration order.
    - [nn_string_map]: an association list; lookup returns the first entry with
      the key (or nothing).
    - C [double], [strtod] and the comparisons: an arbitrary record [numlib].
      [nl_strtod s] is [Some x] iff the whole string was consumed
      (nm_condition.c:75-83). *)
Record numlib := {
  nl_num : Type;
  nl_strtod : string -> option nl_num;
  nl_eqb : nl_num -> nl_num -> bool;
  nl_ltb : nl_num -> nl_num -> bool;
  nl_leb : nl_num -> nl_num -> bool
}.

Definition attrs := list (string * string).

(** nn_string_map_get / nn_string_map_getn (used at nm_condition.c:123,238). *)
Fixpoint attr_get (k : string) (m : attrs) : option string :=
  match m with
  | [] => None
  | (k', v) :: m' => if String.eqb k k' then Some v else attr_get k m'
  end.

(** enum nm_iam_effect, nm_iam_configuration.h:33-38 *)
Inductive effect := Allow | Deny | NoMatch | EvalError.

(** enum nm_condition_result, policies/nm_condition.h:11-15 *)
Inductive cresult := CMatch | CNoMatch | CError.

(** enum nm_iam_condition_operator, nm_iam_configuration.h:63-73 *)
Inductive operator :=
| StringEquals | StringNotEquals
| NumericEquals | NumericNotEquals
| NumericLessThan | NumericLessThanEquals
| NumericGreaterThan | NumericGreaterThanEquals
| BoolOp.

(** struct nm_iam_condition, nm_iam_configuration.h:76-81 *)
Record condition := { c_op : operator; c_key : string; c_values : list string }.
(** struct nm_iam_statement, nm_iam_configuration.h:83-88 *)
Record statement := { s_effect : effect; s_actions : list string; s_conds : list condition }.
(** struct nm_iam_policy, nm_iam_configuration.h:90-94 *)
Record policy := { p_id : string; p_stmts : list statement }.
(** struct nm_iam_role, nm_iam_configuration.h:96-100 *)
Record role := { r_id : string; r_policies : list string }.
(** struct nm_iam_configuration, nm_iam_configuration.h:102-107 *)
Record config := { conf_roles : list role; conf_policies : list policy; conf_unpaired : option string }.

(** nm_condition_parse_bool, policies/nm_condition.c:62-73 *)
Definition parse_bool (s : string) : option bool :=
  if String.eqb s "true" then Some true
  else if String.eqb s "false" then Some false
  else None.

(** status, policies/nm_condition.c:85-91 *)
Definition status (b : bool) : cresult := if b then CMatch else CNoMatch.

(** nm_condition_numeric_operator, policies/nm_condition.c:93-119. [a > b] is
    modelled as [b < a] and [a != b] as the negation of [a == b]; both hold for
    C doubles including NaN. *)
Definition numeric_operator (L : numlib) (op : operator) (lhs rhs : string) : cresult :=
  match nl_strtod L lhs, nl_strtod L rhs with
  | Some a, Some b =>
      match op with
      | NumericEquals => status (nl_eqb L a b)
      | NumericNotEquals => status (negb (nl_eqb L a b))
      | NumericLessThan => status (nl_ltb L a b)
      | NumericLessThanEquals => status (nl_leb L a b)
      | NumericGreaterThan => status (nl_ltb L b a)
      | NumericGreaterThanEquals => status (nl_leb L b a)
      | StringEquals | StringNotEquals | BoolOp => CError
      end
  | _, _ => CError
  end.

(** bool_equals, policies/nm_condition.c:185-193 *)
Definition bool_equals (lhs rhs : string) : cresult :=
  match parse_bool lhs, parse_bool rhs with
  | Some a, Some b => status (Bool.eqb a b)
  | _, _ => CError
  end.

(** match, policies/nm_condition.c:204-223 (string_equals, string_not_equals at
    195-202 inlined) *)
Definition match_op (L : numlib) (op : operator) (lhs rhs : string) : cresult :=
  match op with
  | StringEquals => status (String.eqb lhs rhs)
  | StringNotEquals => status (negb (String.eqb lhs rhs))
  | BoolOp => bool_equals lhs rhs
  | _ => numeric_operator L op lhs rhs
  end.

(** resolve_value, policies/nm_condition.c:225-250. [None] is "return false".
    strncmp(value,"${",2) and the final "}" test are written with substring. *)
Definition resolve_value (m : attrs) (value : string) : option string :=
  let n := String.length value in
  if Nat.ltb n 3 then Some value
  else if String.eqb (substring 0 2 value) "${" && String.eqb (substring (n - 1) 1 value) "}"
       then attr_get (substring 2 (n - 3) value) m
       else Some value.

(** The NN_STRING_SET_FOREACH loop of nm_condition_matches,
    policies/nm_condition.c:131-144 *)
Fixpoint match_values (L : numlib) (op : operator) (m : attrs) (av : string) (vs : list string) : cresult :=
  match vs with
  | [] => CNoMatch
  | v :: vs' =>
      match resolve_value m v with
      | Some rv =>
          match match_op L op av rv with
          | CNoMatch => match_values L op m av vs'
          | r => r
          end
      | None => match_values L op m av vs'
      end
  end.

(** nm_condition_matches, policies/nm_condition.c:121-145 *)
Definition condition_matches (L : numlib) (c : condition) (m : attrs) : cresult :=
  match attr_get (c_key c) m with
  | None => CNoMatch
  | Some av => match_values L (c_op c) m av (c_values c)
  end.

(** match_conditions, policies/nm_statement.c:76-87 *)
Fixpoint match_conditions (L : numlib) (cs : list condition) (m : attrs) : cresult :=
  match cs with
  | [] => CMatch
  | c :: cs' =>
      match condition_matches L c m with
      | CMatch => match_conditions L cs' m
      | r => r
      end
  end.

(** nn_string_set_contains *)
Definition set_contains (l : list string) (s : string) : bool := existsb (String.eqb s) l.

(** nm_statement_eval, policies/nm_statement.c:46-63 *)
Definition statement_eval (L : numlib) (s : statement) (action : string) (m : attrs) : effect :=
  if negb (set_contains (s_actions s) action) then NoMatch
  else match match_conditions L (s_conds s) m with
       | CNoMatch => NoMatch
       | CError => EvalError
       | CMatch => s_effect s
       end.

(** nm_policy_statement_eval, policies/nm_policy.c:72-83: one step of the
    evaluation state [st] (struct nm_policy_eval_state has only the effect). *)
Definition policy_statement_eval (L : numlib) (action : string) (m : attrs) (st : effect) (s : statement) : effect :=
  match st with
  | Deny | EvalError => st
  | _ => match statement_eval L s action m with
         | NoMatch => st
         | e => e
         end
  end.

(** nm_policy_eval, policies/nm_policy.c:64-70 *)
Definition policy_eval (L : numlib) (st : effect) (p : policy) (action : string) (m : attrs) : effect :=
  fold_left (policy_statement_eval L action m) (p_stmts p) st.

(** nm_iam_internal_find_role, nm_iam_internal.c:140-153 *)
Definition find_role (c : config) (r : option string) : option role :=
  match r with
  | None => None
  | Some s => find (fun x => String.eqb (r_id x) s) (conf_roles c)
  end.

(** nm_iam_internal_find_policy, nm_iam_internal.c:155-168 (the name is never NULL) *)
Definition find_policy (c : config) (s : string) : option policy :=
  find (fun x => String.eqb (p_id x) s) (conf_policies c).

(** The loop of nm_iam_internal_check_access_role, nm_iam_internal.c:102-114:
    a missing policy returns ERROR at once. *)
Fixpoint role_eval_loop (L : numlib) (c : config) (action : string) (m : attrs) (st : effect) (ps : list string) : effect :=
  match ps with
  | [] => st
  | p :: ps' =>
      match find_policy c p with
      | None => EvalError
      | Some pol => role_eval_loop L c action m (policy_eval L st pol action m) ps'
      end
  end.

(** nm_iam_internal_check_access_role, nm_iam_internal.c:97-115;
    nm_policy_eval_init (policies/nm_policy.c:53-56) starts at NO_MATCH. *)
Definition check_access_role (L : numlib) (c : config) (r : role) (action : string) (m : attrs) : effect :=
  role_eval_loop L c action m NoMatch (r_policies r).

(** The end of nm_iam_internal_check_access, nm_iam_internal.c:77-94: unknown
    role is ERROR; only ALLOW grants. *)
Definition decide (L : numlib) (c : config) (roleStr : option string) (action : string) (m : attrs) : bool :=
  match find_role c roleStr with
  | None => false
  | Some r => match check_access_role L c r action m with Allow => true | _ => false end
  end.
