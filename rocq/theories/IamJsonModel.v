(** * IAM state and configuration as JSON

    Models /repo/src/modules/iam/nm_iam_serializer.c, nm_iam_to_json.c,
    nm_iam_from_json.c, policies/nm_policies_to_json.c and
    policies/nm_policies_from_json.c.  Allocation succeeds. *)
From Coq Require Import String Ascii List Bool Arith NArith ZArith.
From Verif Require Import JsonModel IamPolicyModel IamStateModel.
Import ListNotations.
Open Scope string_scope.

(** nn_string_set_insert (nabto-common, not in the repository): inserting a
    member again changes nothing, a new member comes last. *)
Definition set_insert (s : string) (l : list string) : list string :=
  if set_contains l s then l else (l ++ [s])%list.

(** cJSON_IsString and valuestring *)
Definition as_str (o : option json) : option string :=
  match o with Some (JStr s) => Some s | _ => None end.
(** cJSON_IsBool and cJSON_IsTrue *)
Definition as_bool (o : option json) : option bool :=
  match o with Some (JBool b) => Some b | _ => None end.
(** cJSON_IsArray and its elements *)
Definition as_arr (o : option json) : option (list json) :=
  match o with Some (JArr l) => Some l | _ => None end.

(** a member added only when the C pointer is not NULL *)
Definition opt_member (k : string) (o : option string) : list (string * json) :=
  match o with Some s => [(k, JStr s)] | None => [] end.
(** an "if (cJSON_IsString(x)) set(x->valuestring)" *)
Definition if_str {A} (o : option json) (f : string -> A -> A) (a : A) : A :=
  match as_str o with Some s => f s a | None => a end.
Definition if_bool {A} (o : option json) (f : bool -> A -> A) (a : A) : A :=
  match as_bool o with Some b => f b a | None => a end.

(** nm_string_set_to_json, nm_policies_to_json.c:47-55 *)
Definition set_to_json (l : list string) : json := JArr (map JStr l).

(** the set insertion loops which skip what is not a string,
    nm_iam_from_json.c:24-30 and 117-121 *)
Definition strings_skip (l : list json) : list string :=
  fold_left (fun acc j => match j with JStr s => set_insert s acc | _ => acc end) l [].

(** the set insertion loops which fail at what is not a string,
    nm_policies_from_json.c:57-64 and 108-116 *)
Fixpoint strings_all (l : list json) (acc : list string) : option (list string) :=
  match l with
  | [] => Some acc
  | JStr s :: l' => strings_all l' (set_insert s acc)
  | _ => None
  end.

(** all elements or failure *)
Fixpoint map_opt {A B} (f : A -> option B) (l : list A) : option (list B) :=
  match l with
  | [] => Some []
  | a :: l' =>
      match f a with
      | None => None
      | Some b => match map_opt f l' with Some bs => Some (b :: bs) | None => None end
      end
  end.

(** ** Users *)

(** nm_iam_user_to_json, nm_iam_to_json.c:24-82 *)
Definition fp_to_json (f : fprint) : json :=
  JObj (("Fingerprint", JStr (fp_val f)) :: opt_member "Name" (fp_name f)).
Definition user_to_json (u : user) : json :=
  JObj ([("Username", JStr (u_name u)); ("Fingerprints", JArr (map fp_to_json (u_fps u)))]
        ++ opt_member "DisplayName" (u_display u)
        ++ opt_member "ServerConnectToken" (u_sct u)
        ++ opt_member "Password" (u_password u)
        ++ opt_member "Role" (u_role u)
        ++ match u_fcm_token u, u_fcm_project u with
           | None, None => []
           | t, p => [("Fcm", JObj (opt_member "Token" t ++ opt_member "ProjectId" p))]
           end
        ++ match u_cats u with [] => [] | l => [("NotificationCategories", set_to_json l)] end
        ++ opt_member "OauthSubject" (u_oauth u))%list.

(** the fingerprint part of nm_iam_user_from_json, nm_iam_from_json.c:68-93 *)
Definition add_fp_json (u : user) (item : json) : user :=
  match as_str (get_item item "Fingerprint") with
  | Some f => user_add_fp f (as_str (get_item item "Name")) u
  | None => u
  end.
Definition fps_from_json (j : json) (version : Z) (u : user) : user :=
  if Z.eqb version 1 then
    match as_str (get_item j "Fingerprint") with
    | Some f => match user_set_fp (Some f) u with Some u' => u' | None => u end
    | None => u
    end
  else if Z.eqb version 2 then
    match as_arr (get_item j "Fingerprints") with
    | Some l => fold_left add_fp_json l u
    | None => u
    end
  else u.

(** nm_iam_user_from_json, nm_iam_from_json.c:36-134; [id] names the allocation *)
Definition user_from_json (id : nat) (j : json) (version : Z) : option user :=
  let fcm := get_item j "Fcm" in
  let in_fcm k := match fcm with Some (JObj l) => get_item (JObj l) k | _ => None end in
  match as_str (get_item j "Username") with
  | None => None
  | Some n =>
      match user_new id n with
      | None => None
      | Some u0 =>
          let u1 := if_str (get_item j "DisplayName") (fun s => set_u_display (Some s)) u0 in
          let u2 := fps_from_json j version u1 in
          let u3 := if_str (get_item j "Password") (fun s => set_u_password (Some s)) u2 in
          let u4 := if_str (get_item j "ServerConnectToken") (fun s => set_u_sct (Some s)) u3 in
          let u5 := if_str (get_item j "Role") (fun s => set_u_role (Some s)) u4 in
          let u6 := if_str (in_fcm "Token") (fun s => set_u_fcm_token (Some s)) u5 in
          let u7 := if_str (in_fcm "ProjectId") (fun s => set_u_fcm_project (Some s)) u6 in
          let u8 := match as_arr (get_item j "NotificationCategories") with
                    | Some l => set_u_cats (strings_skip l) u7
                    | None => u7
                    end in
          Some (if_str (get_item j "OauthSubject") (fun s => set_u_oauth (Some s)) u8)
      end
  end.

(** ** The state *)

(** the string setters, nm_iam_state.c:42-71 and 93-137 *)
Definition st_set_pw (x : option string) (s : istate) : istate :=
  {| st_pw_open_password := x; st_pw_open_sct := st_pw_open_sct s;
     st_pw_open := st_pw_open s; st_local_open := st_local_open s; st_pw_invite := st_pw_invite s;
     st_local_initial := st_local_initial s; st_open_role := st_open_role s;
     st_initial_user := st_initial_user s; st_friendly := st_friendly s; st_users := st_users s |}.
Definition st_set_sct (x : option string) (s : istate) : istate :=
  {| st_pw_open_password := st_pw_open_password s; st_pw_open_sct := x;
     st_pw_open := st_pw_open s; st_local_open := st_local_open s; st_pw_invite := st_pw_invite s;
     st_local_initial := st_local_initial s; st_open_role := st_open_role s;
     st_initial_user := st_initial_user s; st_friendly := st_friendly s; st_users := st_users s |}.
Definition st_set_role (x : option string) (s : istate) : istate :=
  {| st_pw_open_password := st_pw_open_password s; st_pw_open_sct := st_pw_open_sct s;
     st_pw_open := st_pw_open s; st_local_open := st_local_open s; st_pw_invite := st_pw_invite s;
     st_local_initial := st_local_initial s; st_open_role := x;
     st_initial_user := st_initial_user s; st_friendly := st_friendly s; st_users := st_users s |}.
Definition st_set_initial (x : option string) (s : istate) : istate :=
  {| st_pw_open_password := st_pw_open_password s; st_pw_open_sct := st_pw_open_sct s;
     st_pw_open := st_pw_open s; st_local_open := st_local_open s; st_pw_invite := st_pw_invite s;
     st_local_initial := st_local_initial s; st_open_role := st_open_role s;
     st_initial_user := x; st_friendly := st_friendly s; st_users := st_users s |}.

(** the four boolean setters, nm_iam_state.c:73-91 *)
Definition st_set_local_open (b : bool) (s : istate) : istate :=
  with_bools (st_pw_open s) b (st_pw_invite s) (st_local_initial s) s.
Definition st_set_pw_open (b : bool) (s : istate) : istate :=
  with_bools b (st_local_open s) (st_pw_invite s) (st_local_initial s) s.
Definition st_set_pw_invite (b : bool) (s : istate) : istate :=
  with_bools (st_pw_open s) (st_local_open s) b (st_local_initial s) s.
Definition st_set_local_initial (b : bool) (s : istate) : istate :=
  with_bools (st_pw_open s) (st_local_open s) (st_pw_invite s) b s.

(** nm_iam_serializer_state_dump_json, nm_iam_serializer.c:139-188, up to the
    printing.  A NULL state gives a document with no users and nothing else. *)
Definition state_to_json (s : istate) : json :=
  JObj ([("Version", JNum 2)]
        ++ opt_member "OpenPairingPassword" (st_pw_open_password s)
        ++ opt_member "OpenPairingSct" (st_pw_open_sct s)
        ++ [("LocalOpenPairing", JBool (st_local_open s));
            ("PasswordOpenPairing", JBool (st_pw_open s));
            ("PasswordInvitePairing", JBool (st_pw_invite s));
            ("LocalInitialPairing", JBool (st_local_initial s))]
        ++ opt_member "OpenPairingRole" (st_open_role s)
        ++ opt_member "InitialPairingUsername" (st_initial_user s)
        ++ opt_member "FriendlyName" (st_friendly s)
        ++ [("Users", JArr (map user_to_json (st_users s)))])%list.
Definition state_dump (s : istate) : string := print (state_to_json s).

(** the user loop, nm_iam_serializer.c:271-281: a user which cannot be read is
    skipped; nm_iam_state_add_user appends.  [id] is the next allocation. *)
Fixpoint add_users (id : nat) (version : Z) (l : list json) (s : istate) : istate :=
  match l with
  | [] => s
  | j :: l' =>
      match user_from_json id j version with
      | Some u => add_users (S id) version l' (with_users (st_users s ++ [u])%list s)
      | None => add_users id version l' s
      end
  end.

(** the outcome of a load: refused, the state given back *)
Definition state_from_json (id : nat) (s : istate) (root : json) : istate * bool :=
  match root with
  | JObj _ =>
      match get_item root "Version" with
      | Some (JNum v) =>
          if Z.ltb 2 v then (s, false)
          else
            let s1 := if_str (get_item root "OpenPairingPassword") (fun x => st_set_pw (Some x)) s in
            let s2 := if_str (get_item root "OpenPairingSct") (fun x => st_set_sct (Some x)) s1 in
            let s3 := if_bool (get_item root "LocalOpenPairing") st_set_local_open s2 in
            let s4 := if_bool (get_item root "PasswordOpenPairing") st_set_pw_open s3 in
            let s5 := if_bool (get_item root "PasswordInvitePairing") st_set_pw_invite s4 in
            let s6 := if_bool (get_item root "LocalInitialPairing") st_set_local_initial s5 in
            let s7 := if_str (get_item root "InitialPairingUsername") (fun x => st_set_initial (Some x)) s6 in
            let s8 := if_str (get_item root "FriendlyName") (fun x => with_friendly (Some x)) s7 in
            let s9 := if_str (get_item root "OpenPairingRole") (fun x => st_set_role (Some x)) s8 in
            match as_arr (get_item root "Users") with
            | Some l => (add_users id v l s9, true)
            | None => (s9, true)
            end
      | _ => (s, false)
      end
  | _ => (s, false)
  end.

(** nm_iam_serializer_state_load_json, nm_iam_serializer.c:197-285: the state
    afterwards and the returned bool *)
Definition state_load (L : strtod_t) (id : nat) (s : istate) (text : string) : istate * bool :=
  match parse L text with
  | None => (s, false)
  | Some root => state_from_json id s root
  end.

(** ** The configuration *)

(** nm_condition_operator_to_string, policies/nm_condition.c:165-179 *)
Definition op_to_string (o : operator) : string :=
  match o with
  | StringEquals => "StringEquals"
  | StringNotEquals => "StringNotEquals"
  | NumericEquals => "NumericEquals"
  | NumericNotEquals => "NumericNotEquals"
  | NumericLessThan => "NumericLessThan"
  | NumericLessThanEquals => "NumericLessThanEquals"
  | NumericGreaterThan => "NumericGreaterThan"
  | NumericGreaterThanEquals => "NumericGreaterThanEquals"
  | BoolOp => "Bool"
  end.
(** nm_condition_parse_operator, policies/nm_condition.c:148-163 *)
Definition parse_operator (s : string) : option operator :=
  if String.eqb s "StringEquals" then Some StringEquals
  else if String.eqb s "StringNotEquals" then Some StringNotEquals
  else if String.eqb s "NumericEquals" then Some NumericEquals
  else if String.eqb s "NumericNotEquals" then Some NumericNotEquals
  else if String.eqb s "NumericLessThan" then Some NumericLessThan
  else if String.eqb s "NumericLessThanEquals" then Some NumericLessThanEquals
  else if String.eqb s "NumericGreaterThan" then Some NumericGreaterThan
  else if String.eqb s "NumericGreaterThanEquals" then Some NumericGreaterThanEquals
  else if String.eqb s "Bool" then Some BoolOp
  else None.

(** nm_condition_to_json, nm_policies_to_json.c:28-36 *)
Definition condition_to_json (c : condition) : json :=
  JObj [(op_to_string (c_op c), JObj [(c_key c, set_to_json (c_values c))])].

(** nm_statement_to_json, nm_policies_to_json.c:57-73 *)
Definition statement_to_json (s : statement) : json :=
  JObj (match s_effect s with
        | Allow => [("Effect", JStr "Allow")]
        | Deny => [("Effect", JStr "Deny")]
        | _ => []
        end
        ++ [("Actions", set_to_json (s_actions s))]
        ++ match s_conds s with
           | [] => []
           | l => [("Conditions", JArr (map condition_to_json l))]
           end)%list.

(** nm_policy_to_json, nm_policies_to_json.c:17-24 *)
Definition policy_to_json (p : policy) : json :=
  JObj [("Id", JStr (p_id p)); ("Statements", JArr (map statement_to_json (p_stmts p)))].

(** nm_iam_role_to_json, nm_iam_to_json.c:8-21 *)
Definition role_to_json (r : role) : json :=
  JObj [("Id", JStr (r_id r)); ("Policies", set_to_json (r_policies r))].

(** nm_iam_serializer_configuration_dump_json, nm_iam_serializer.c:14-44.
    cJSON_AddStringToObject with a NULL string adds nothing. *)
Definition conf_to_json (c : config) : json :=
  JObj [("Version", JNum 1);
        ("Policies", JArr (map policy_to_json (conf_policies c)));
        ("Roles", JArr (map role_to_json (conf_roles c)));
        ("Config", JObj (opt_member "UnpairedRole" (conf_unpaired c)))].
Definition conf_dump (c : config) : string := print (conf_to_json c).

(** nm_condition_from_json, nm_policies_from_json.c:18-67: the first member of
    the object, and the first member of that *)
Definition condition_from_json (j : json) : option condition :=
  match j with
  | JObj ((o, JObj ((k, JArr vs) :: _)) :: _) =>
      match parse_operator o with
      | None => None
      | Some op =>
          match strings_all vs [] with
          | Some values => Some {| c_op := op; c_key := k; c_values := values |}
          | None => None
          end
      end
  | _ => None
  end.

(** nm_statement_from_json, nm_policies_from_json.c:69-134 *)
Definition statement_from_json (j : json) : option statement :=
  match j with
  | JObj _ =>
      match as_str (get_item j "Effect"), as_arr (get_item j "Actions") with
      | Some e, Some actions =>
          let eff := if String.eqb e "Allow" then Some Allow
                     else if String.eqb e "Deny" then Some Deny else None in
          match eff, strings_all actions [] with
          | Some eff, Some acts =>
              match as_arr (get_item j "Conditions") with
              | None => Some {| s_effect := eff; s_actions := acts; s_conds := [] |}
              | Some cs =>
                  match map_opt condition_from_json cs with
                  | Some conds => Some {| s_effect := eff; s_actions := acts; s_conds := conds |}
                  | None => None
                  end
              end
          | _, _ => None
          end
      | _, _ => None
      end
  | _ => None
  end.

(** nm_policy_from_json, nm_policies_from_json.c:136-175 *)
Definition policy_from_json (j : json) : option policy :=
  match j with
  | JObj _ =>
      match as_str (get_item j "Id"), as_arr (get_item j "Statements") with
      | Some id, Some l =>
          match map_opt statement_from_json l with
          | Some ss => Some {| p_id := id; p_stmts := ss |}
          | None => None
          end
      | _, _ => None
      end
  | _ => None
  end.

(** nm_iam_role_from_json, nm_iam_from_json.c:10-34 *)
Definition role_from_json (j : json) : option role :=
  match j with
  | JObj _ =>
      match as_str (get_item j "Id"), as_arr (get_item j "Policies") with
      | Some id, Some l => Some {| r_id := id; r_policies := strings_skip l |}
      | _, _ => None
      end
  | _ => None
  end.

(** nm_iam_serializer_configuration_load_json, nm_iam_serializer.c:46-128:
    loads into [c], appending; [None] is "false" (what was added so far is then
    of no use to the caller and is not modelled). *)
Definition conf_from_json (c : config) (root : json) : option config :=
  match root with
  | JObj _ =>
      match as_arr (get_item root "Policies"), as_arr (get_item root "Roles"),
            get_item root "Version", get_item root "Config" with
      | Some ps, Some rs, Some (JNum v), Some (JObj config) =>
          if negb (Z.eqb v 1) then None
          else
            match map_opt policy_from_json ps with
            | None => None
            | Some ps' =>
                match map_opt role_from_json rs with
                | None => None
                | Some rs' =>
                    Some {| conf_roles := conf_roles c ++ rs';
                            conf_policies := conf_policies c ++ ps';
                            conf_unpaired :=
                              match as_str (get_item (JObj config) "UnpairedRole") with
                              | Some r => Some r
                              | None => conf_unpaired c
                              end |}
                end
            end
      | _, _, _, _ => None
      end
  | _ => None
  end.
Definition conf_load (L : strtod_t) (c : config) (text : string) : option config :=
  match parse L text with
  | None => None
  | Some root => conf_from_json c root
  end.
