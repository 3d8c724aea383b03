(** * Vocabulary for the statements about IAM documents *)
From Coq Require Import String Ascii List Bool Arith NArith ZArith.
From Verif Require Import JsonModel IamPolicyModel IamStateModel IamStateSpec IamJsonModel.
Import ListNotations.
Open Scope string_scope.

(** A string a C program can hold: any bytes but NUL. *)
Definition c_string (s : string) : Prop := ~ In "000"%char (list_ascii_of_string s).
Definition opt_c_string (o : option string) : Prop := match o with Some s => c_string s | None => True end.

(** All that is asked of the C library: it can read the two version numbers. *)
Definition reads_versions (L : strtod_t) : Prop :=
  L "1" = Some (1%Z, 1) /\ L "2" = Some (2%Z, 1).

(** A user object as the user functions build it: a valid name, C strings, and
    a set of categories. *)
Definition proper_user (u : user) : Prop :=
  valid_name (u_name u) /\
  (forall f, In f (u_fps u) -> c_string (fp_val f) /\ opt_c_string (fp_name f)) /\
  opt_c_string (u_display u) /\ opt_c_string (u_password u) /\ opt_c_string (u_role u) /\
  opt_c_string (u_sct u) /\ opt_c_string (u_fcm_token u) /\ opt_c_string (u_fcm_project u) /\
  opt_c_string (u_oauth u) /\ (forall c, In c (u_cats u) -> c_string c) /\ NoDup (u_cats u).

Definition proper_state (s : istate) : Prop :=
  opt_c_string (st_pw_open_password s) /\ opt_c_string (st_pw_open_sct s) /\
  opt_c_string (st_open_role s) /\ opt_c_string (st_initial_user s) /\
  opt_c_string (st_friendly s) /\ (forall u, In u (st_users s) -> proper_user u).

(** A string set. *)
Definition proper_set (l : list string) : Prop := NoDup l /\ (forall x, In x l -> c_string x).

Definition proper_condition (c : condition) : Prop := c_string (c_key c) /\ proper_set (c_values c).
(** Statements allow or deny; the other two effects only arise while deciding. *)
Definition proper_statement (s : statement) : Prop :=
  (s_effect s = Allow \/ s_effect s = Deny) /\ proper_set (s_actions s) /\
  (forall c, In c (s_conds s) -> proper_condition c).
Definition proper_policy (p : policy) : Prop :=
  c_string (p_id p) /\ (forall s, In s (p_stmts p) -> proper_statement s).
Definition proper_role (r : role) : Prop := c_string (r_id r) /\ proper_set (r_policies r).
Definition proper_conf (c : config) : Prop :=
  (forall p, In p (conf_policies c) -> proper_policy p) /\
  (forall r, In r (conf_roles c) -> proper_role r) /\ opt_c_string (conf_unpaired c).

(** ** What a policy document says

    A condition is written as {"operator": {"key": ["value", ...]}}.  All the
    restrictions which occur in a "Conditions" value, be it a list of condition
    objects or one such object, whatever the number of operators and keys. *)
Definition members (j : json) : list (string * json) := match j with JObj l => l | _ => [] end.
Definition elements (j : json) : list json := match j with JArr l => l | _ => [] end.
Definition restrictions_of (j : json) : list (string * string * list json) :=
  flat_map (fun o => map (fun kv => (fst o, fst kv, elements (snd kv))) (members (snd o))) (members j).
Definition restrictions (j : json) : list (string * string * list json) :=
  match j with
  | JArr l => flat_map restrictions_of l
  | _ => restrictions_of j
  end.
Definition written (stmt : json) : list (string * string * list json) :=
  match get_item stmt "Conditions" with Some j => restrictions j | None => [] end.

(** The loaded condition is the written one. *)
Definition enforces (c : condition) (r : string * string * list json) : Prop :=
  let '(o, k, vs) := r in
  op_to_string (c_op c) = o /\ c_key c = k /\ (forall v, In v (c_values c) <-> In (JStr v) vs).

(** Every condition object of the list has one operator with one key. *)
Definition one_each (j : json) : Prop := exists o k v, j = JObj [(o, JObj [(k, v)])].
Definition plain_conditions (stmt : json) : Prop :=
  match get_item stmt "Conditions" with
  | None => True
  | Some j => exists l, j = JArr l /\ Forall one_each l
  end.
