(** Model of the IAM module's runtime state: users, pairing, the nm_iam_* API and
    the CoAP handlers of src/modules/iam. Definitions only.

    General simplifications: memory allocation succeeds (nn_strdup, calloc);
    strings are C strings (no NUL inside); a [char*] that may be NULL is an
    [option string]; every struct nm_iam_user is identified by an allocation id
    [u_id] so that dangling pointers can be expressed. *)
From Coq Require Import String Ascii List Bool Arith NArith.
From Verif Require Import IamPolicyModel.
Import ListNotations.
Open Scope string_scope.

Definition strlen (s : string) : N := N.of_nat (String.length s).

(** struct nm_iam_user_fingerprint, nm_iam_user.h *)
Record fprint := { fp_val : string; fp_name : option string }.

(** struct nm_iam_user, nm_iam_user.h. [u_id] is the identity of the allocation. *)
Record user := {
  u_id : nat;
  u_name : string;
  u_display : option string;
  u_fps : list fprint;
  u_password : option string;
  u_role : option string;
  u_sct : option string;
  u_fcm_token : option string;
  u_fcm_project : option string;
  u_cats : list string;
  u_oauth : option string
}.

(** struct nm_iam_state, nm_iam_state.h *)
Record istate := {
  st_pw_open_password : option string;
  st_pw_open_sct : option string;
  st_pw_open : bool;
  st_local_open : bool;
  st_pw_invite : bool;
  st_local_initial : bool;
  st_open_role : option string;
  st_initial_user : option string;
  st_friendly : option string;
  st_users : list user
}.

(** The length limits and maxUsers of struct nm_iam, nm_iam.h; size_t as N. *)
Record limits := {
  l_username : N; l_display : N; l_pw_min : N; l_pw_max : N; l_fcm_token : N;
  l_fcm_project : N; l_oauth : N; l_sct : N; l_friendly : N; l_max_users : N
}.

(** nm_iam_init defaults, nm_iam.c:36-45 (SIZE_MAX for 64 bit size_t) *)
Definition default_limits : limits :=
  {| l_username := 64; l_display := 64; l_pw_min := 4; l_pw_max := 64; l_fcm_token := 1024;
     l_fcm_project := 256; l_oauth := 64; l_sct := 64; l_friendly := 64;
     l_max_users := 2 ^ 64 - 1 |}.

(** struct nm_iam. [i_auth] is authorizedConnections: (connection ref, user
    pointer as allocation id). [i_callbacks] counts the invocations of the state
    changed callback (assumed registered). [i_tokens] are the server connect
    tokens handed to the device. [i_next] is the next fresh allocation id. *)
Record iam := {
  i_state : istate;
  i_conf : config;
  i_lim : limits;
  i_cats : list string;
  i_auth : list (nat * nat);
  i_changed : bool;
  i_callbacks : nat;
  i_tokens : list string;
  i_next : nat
}.

(** enum nm_iam_error, nm_iam.h *)
Inductive ierr := EOk | ENoUser | ENoRole | EUserExists | EInvalidFp | ENoCategory | EInvalidArg | EInternal.

(** ** Record updates *)
Definition with_users (us : list user) (s : istate) : istate :=
  {| st_pw_open_password := st_pw_open_password s; st_pw_open_sct := st_pw_open_sct s;
     st_pw_open := st_pw_open s; st_local_open := st_local_open s; st_pw_invite := st_pw_invite s;
     st_local_initial := st_local_initial s; st_open_role := st_open_role s;
     st_initial_user := st_initial_user s; st_friendly := st_friendly s; st_users := us |}.
Definition with_bools (a b c d : bool) (s : istate) : istate :=
  {| st_pw_open_password := st_pw_open_password s; st_pw_open_sct := st_pw_open_sct s;
     st_pw_open := a; st_local_open := b; st_pw_invite := c;
     st_local_initial := d; st_open_role := st_open_role s;
     st_initial_user := st_initial_user s; st_friendly := st_friendly s; st_users := st_users s |}.
Definition with_friendly (f : option string) (s : istate) : istate :=
  {| st_pw_open_password := st_pw_open_password s; st_pw_open_sct := st_pw_open_sct s;
     st_pw_open := st_pw_open s; st_local_open := st_local_open s; st_pw_invite := st_pw_invite s;
     st_local_initial := st_local_initial s; st_open_role := st_open_role s;
     st_initial_user := st_initial_user s; st_friendly := f; st_users := st_users s |}.
(** assignment to iam->state, or through it *)
Definition set_state (s : istate) (i : iam) : iam :=
  {| i_state := s; i_conf := i_conf i; i_lim := i_lim i; i_cats := i_cats i; i_auth := i_auth i;
     i_changed := i_changed i; i_callbacks := i_callbacks i; i_tokens := i_tokens i; i_next := i_next i |}.
Definition set_auth (a : list (nat * nat)) (i : iam) : iam :=
  {| i_state := i_state i; i_conf := i_conf i; i_lim := i_lim i; i_cats := i_cats i; i_auth := a;
     i_changed := i_changed i; i_callbacks := i_callbacks i; i_tokens := i_tokens i; i_next := i_next i |}.
Definition set_next (n : nat) (i : iam) : iam :=
  {| i_state := i_state i; i_conf := i_conf i; i_lim := i_lim i; i_cats := i_cats i; i_auth := i_auth i;
     i_changed := i_changed i; i_callbacks := i_callbacks i; i_tokens := i_tokens i; i_next := n |}.
(** nm_iam_internal_state_has_changed, nm_iam_internal.c:270-273 *)
Definition mark_changed (i : iam) : iam :=
  {| i_state := i_state i; i_conf := i_conf i; i_lim := i_lim i; i_cats := i_cats i; i_auth := i_auth i;
     i_changed := true; i_callbacks := i_callbacks i; i_tokens := i_tokens i; i_next := i_next i |}.
(** nm_iam_internal_do_callbacks, nm_iam_internal.c:275-291 (callback registered) *)
Definition do_callbacks (i : iam) : iam :=
  {| i_state := i_state i; i_conf := i_conf i; i_lim := i_lim i; i_cats := i_cats i; i_auth := i_auth i;
     i_changed := false; i_callbacks := if i_changed i then S (i_callbacks i) else i_callbacks i;
     i_tokens := i_tokens i; i_next := i_next i |}.
(** a successful nabto_device_add_server_connect_token *)
Definition add_token (t : string) (i : iam) : iam :=
  {| i_state := i_state i; i_conf := i_conf i; i_lim := i_lim i; i_cats := i_cats i; i_auth := i_auth i;
     i_changed := i_changed i; i_callbacks := i_callbacks i; i_tokens := t :: i_tokens i; i_next := i_next i |}.
(** nm_iam_set_*_max_length, nm_iam_set_max_users, nm_iam.c:167-218 *)
Definition set_limits (l : limits) (i : iam) : iam :=
  {| i_state := i_state i; i_conf := i_conf i; i_lim := l; i_cats := i_cats i; i_auth := i_auth i;
     i_changed := i_changed i; i_callbacks := i_callbacks i; i_tokens := i_tokens i; i_next := i_next i |}.
(** nm_iam_set_notification_categories, nm_iam.c:151-165 *)
Definition set_categories (c : list string) (i : iam) : iam :=
  {| i_state := i_state i; i_conf := i_conf i; i_lim := i_lim i; i_cats := c; i_auth := i_auth i;
     i_changed := i_changed i; i_callbacks := i_callbacks i; i_tokens := i_tokens i; i_next := i_next i |}.
Definition set_conf (c : config) (i : iam) : iam :=
  {| i_state := i_state i; i_conf := c; i_lim := i_lim i; i_cats := i_cats i; i_auth := i_auth i;
     i_changed := i_changed i; i_callbacks := i_callbacks i; i_tokens := i_tokens i; i_next := i_next i |}.
Definition set_users (us : list user) (i : iam) : iam := set_state (with_users us (i_state i)) i.
Definition users (i : iam) : list user := st_users (i_state i).

(** nm_iam_state_new, nm_iam_state.c:14-25 (calloc: everything NULL/false) and
    nm_iam_init, nm_iam.c:22-73 *)
Definition empty_state : istate :=
  {| st_pw_open_password := None; st_pw_open_sct := None; st_pw_open := false; st_local_open := false;
     st_pw_invite := false; st_local_initial := false; st_open_role := None; st_initial_user := None;
     st_friendly := None; st_users := [] |}.
Definition empty_conf : config := {| conf_roles := []; conf_policies := []; conf_unpaired := None |}.
Definition iam_init : iam :=
  {| i_state := empty_state; i_conf := empty_conf; i_lim := default_limits; i_cats := []; i_auth := [];
     i_changed := false; i_callbacks := 0; i_tokens := []; i_next := 0 |}.

(** ** Users *)

(** nm_iam_user_validate_username, nm_iam_user.c:8-26 *)
Definition username_char (c : ascii) : bool :=
  let n := nat_of_ascii c in
  (Nat.leb 97 n && Nat.leb n 122) || (Nat.leb 48 n && Nat.leb n 57) ||
  Nat.eqb n 95 || Nat.eqb n 46 || Nat.eqb n 45.
Fixpoint all_chars (p : ascii -> bool) (s : string) : bool :=
  match s with
  | EmptyString => true
  | String c s' => p c && all_chars p s'
  end.
Definition validate_username (s : string) : bool :=
  negb (String.eqb s "") && all_chars username_char s.

(** nm_iam_user_new, nm_iam_user.c:29-45 (validation is repeated by the callers;
    [None] if invalid) *)
Definition user_new (id : nat) (name : string) : option user :=
  if validate_username name
  then Some {| u_id := id; u_name := name; u_display := None; u_fps := []; u_password := None; u_role := None;
               u_sct := None; u_fcm_token := None; u_fcm_project := None; u_cats := []; u_oauth := None |}
  else None.

Definition set_u_name (n : string) (u : user) : user :=
  {| u_id := u_id u; u_name := n; u_display := u_display u; u_fps := u_fps u; u_password := u_password u; u_role := u_role u;
     u_sct := u_sct u; u_fcm_token := u_fcm_token u; u_fcm_project := u_fcm_project u; u_cats := u_cats u; u_oauth := u_oauth u |}.
Definition set_u_display (x : option string) (u : user) : user :=
  {| u_id := u_id u; u_name := u_name u; u_display := x; u_fps := u_fps u; u_password := u_password u; u_role := u_role u;
     u_sct := u_sct u; u_fcm_token := u_fcm_token u; u_fcm_project := u_fcm_project u; u_cats := u_cats u; u_oauth := u_oauth u |}.
Definition set_u_fps (x : list fprint) (u : user) : user :=
  {| u_id := u_id u; u_name := u_name u; u_display := u_display u; u_fps := x; u_password := u_password u; u_role := u_role u;
     u_sct := u_sct u; u_fcm_token := u_fcm_token u; u_fcm_project := u_fcm_project u; u_cats := u_cats u; u_oauth := u_oauth u |}.
Definition set_u_password (x : option string) (u : user) : user :=
  {| u_id := u_id u; u_name := u_name u; u_display := u_display u; u_fps := u_fps u; u_password := x; u_role := u_role u;
     u_sct := u_sct u; u_fcm_token := u_fcm_token u; u_fcm_project := u_fcm_project u; u_cats := u_cats u; u_oauth := u_oauth u |}.
Definition set_u_role (x : option string) (u : user) : user :=
  {| u_id := u_id u; u_name := u_name u; u_display := u_display u; u_fps := u_fps u; u_password := u_password u; u_role := x;
     u_sct := u_sct u; u_fcm_token := u_fcm_token u; u_fcm_project := u_fcm_project u; u_cats := u_cats u; u_oauth := u_oauth u |}.
Definition set_u_sct (x : option string) (u : user) : user :=
  {| u_id := u_id u; u_name := u_name u; u_display := u_display u; u_fps := u_fps u; u_password := u_password u; u_role := u_role u;
     u_sct := x; u_fcm_token := u_fcm_token u; u_fcm_project := u_fcm_project u; u_cats := u_cats u; u_oauth := u_oauth u |}.
Definition set_u_fcm_token (x : option string) (u : user) : user :=
  {| u_id := u_id u; u_name := u_name u; u_display := u_display u; u_fps := u_fps u; u_password := u_password u; u_role := u_role u;
     u_sct := u_sct u; u_fcm_token := x; u_fcm_project := u_fcm_project u; u_cats := u_cats u; u_oauth := u_oauth u |}.
Definition set_u_fcm_project (x : option string) (u : user) : user :=
  {| u_id := u_id u; u_name := u_name u; u_display := u_display u; u_fps := u_fps u; u_password := u_password u; u_role := u_role u;
     u_sct := u_sct u; u_fcm_token := u_fcm_token u; u_fcm_project := x; u_cats := u_cats u; u_oauth := u_oauth u |}.
Definition set_u_cats (x : list string) (u : user) : user :=
  {| u_id := u_id u; u_name := u_name u; u_display := u_display u; u_fps := u_fps u; u_password := u_password u; u_role := u_role u;
     u_sct := u_sct u; u_fcm_token := u_fcm_token u; u_fcm_project := u_fcm_project u; u_cats := x; u_oauth := u_oauth u |}.
Definition set_u_oauth (x : option string) (u : user) : user :=
  {| u_id := u_id u; u_name := u_name u; u_display := u_display u; u_fps := u_fps u; u_password := u_password u; u_role := u_role u;
     u_sct := u_sct u; u_fcm_token := u_fcm_token u; u_fcm_project := u_fcm_project u; u_cats := u_cats u; u_oauth := x |}.
Definition set_u_id (x : nat) (u : user) : user :=
  {| u_id := x; u_name := u_name u; u_display := u_display u; u_fps := u_fps u; u_password := u_password u; u_role := u_role u;
     u_sct := u_sct u; u_fcm_token := u_fcm_token u; u_fcm_project := u_fcm_project u; u_cats := u_cats u; u_oauth := u_oauth u |}.

(** nm_iam_user_set_fingerprint, nm_iam_user.c:76-98. [None] is return false. *)
Definition user_set_fp (fp : option string) (u : user) : option user :=
  match fp, u_fps u with
  | None, _ :: l => Some (set_u_fps l u)
  | None, [] => None
  | Some s, [] => Some (set_u_fps [{| fp_val := s; fp_name := None |}] u)
  | Some s, f :: l => Some (set_u_fps ({| fp_val := s; fp_name := fp_name f |} :: l) u)
  end.

(** nm_iam_user_add_fingerprint, nm_iam_user.c:100-124 (fingerprint not NULL) *)
Definition user_add_fp (s : string) (name : option string) (u : user) : user :=
  set_u_fps (u_fps u ++ [{| fp_val := s; fp_name := name |}])%list u.

(** nm_iam_user_remove_fingerprint, nm_iam_user.c:126-145: removes the first
    match; [None] if there is none. *)
Fixpoint remove_first_fp (s : string) (l : list fprint) : option (list fprint) :=
  match l with
  | [] => None
  | f :: l' => if String.eqb (fp_val f) s then Some l'
               else match remove_first_fp s l' with Some l'' => Some (f :: l'') | None => None end
  end.
Definition user_remove_fp (s : string) (u : user) : option user :=
  match remove_first_fp s (u_fps u) with Some l => Some (set_u_fps l u) | None => None end.

(** nm_iam_state_find_user_by_username, nm_iam_state.c:275-287 *)
Definition find_user (us : list user) (n : option string) : option user :=
  match n with
  | None => None
  | Some s => find (fun u => String.eqb (u_name u) s) us
  end.

Definition has_fp (s : string) (u : user) : bool := existsb (fun f => String.eqb (fp_val f) s) (u_fps u).

(** nm_iam_internal_find_user_by_fingerprint, nm_iam_internal.c:118-133 *)
Definition find_user_fp (us : list user) (fp : option string) : option user :=
  match fp with
  | None => None
  | Some s => find (has_fp s) us
  end.

(** Assignment through the pointer of the user found by name: the first user
    with that name is replaced. *)
Fixpoint update_user (n : string) (f : user -> user) (us : list user) : list user :=
  match us with
  | [] => []
  | u :: us' => if String.eqb (u_name u) n then f u :: us' else u :: update_user n f us'
  end.

(** nn_llist_erase_node of the user found by name *)
Fixpoint remove_user (n : string) (us : list user) : list user :=
  match us with
  | [] => []
  | u :: us' => if String.eqb (u_name u) n then us' else u :: remove_user n us'
  end.

(** ** Access checks *)

(** What the device reports about a connection; supplied with every operation
    that involves one. [cn_fp = Some f] iff
    nabto_device_connection_get_client_fingerprint returns OK with f;
    [cn_pwname = Some n] iff
    nabto_device_connection_get_password_authentication_username returns OK. *)
Record conn := {
  cn_ref : nat; cn_virtual : bool; cn_fp : option string; cn_local : bool;
  cn_pwauth : bool; cn_pwname : option string
}.

(** External behaviour: the number library, and whether nn_string_map_insert
    replaces the value of an existing key (nabto-common is not available). *)
Record env := { e_num : numlib; e_overwrite : bool }.

Fixpoint map_replace (k v : string) (m : attrs) : attrs :=
  match m with
  | [] => []
  | (k', v') :: m' => if String.eqb k k' then (k, v) :: m' else (k', v') :: map_replace k v m'
  end.
Definition map_insert (E : env) (k v : string) (m : attrs) : attrs :=
  match attr_get k m with
  | None => (m ++ [(k, v)])%list
  | Some _ => if e_overwrite E then map_replace k v m else m
  end.

(** dereference of a user pointer: [None] when that user has been freed *)
Definition deref (us : list user) (id : nat) : option user := find (fun u => Nat.eqb (u_id u) id) us.

(** Outcome of the identity resolution of nm_iam_internal_check_access,
    nm_iam_internal.c:38-65: [None] is a use after free; [Some None] no user. *)
Definition resolve_user (i : iam) (c : conn) : option (option user) :=
  match find_user_fp (users i) (cn_fp c) with
  | Some u => Some (Some u)
  | None =>
      match (if cn_pwauth c then find_user (users i) (cn_pwname c) else None) with
      | Some u => Some (Some u)
      | None =>
          match find (fun a => Nat.eqb (fst a) (cn_ref c)) (i_auth i) with
          | None => Some None
          | Some (_, id) => match deref (users i) id with
                            | Some u => Some (Some u)
                            | None => None
                            end
          end
      end
  end.

(** nm_iam_internal_check_access, nm_iam_internal.c:13-95. [None]: undefined
    behaviour (freed user dereferenced at line 70). *)
Definition check_access (E : env) (i : iam) (c : conn) (action : string) (m : attrs) : option bool :=
  match cn_fp c, cn_virtual c with
  | None, false => Some false
  | _, _ =>
      let m1 := map_insert E "Connection:IsLocal" (if cn_local c then "true" else "false") m in
      match resolve_user i c with
      | None => None
      | Some None => Some (decide (e_num E) (i_conf i) (conf_unpaired (i_conf i)) action m1)
      | Some (Some u) =>
          Some (decide (e_num E) (i_conf i) (u_role u) action (map_insert E "Connection:Username" (u_name u) m1))
      end
  end.

(** ** Runtime API *)

(** Results of external calls made by one operation. *)
Record ext := {
  x_sct : option string;        (* nabto_device_create_server_connect_token *)
  x_add : string -> bool;       (* nabto_device_add_server_connect_token returned OK *)
  x_mdns : bool                 (* nabto_device_mdns_add_txt_item returned OK *)
}.

Inductive outcome := Done (i : iam) (e : ierr) | Undefined.

(** nm_iam_internal_add_user, nm_iam_internal.c:216-229 *)
Definition add_user (x : ext) (u : user) (i : iam) : iam * bool :=
  match u_sct u with
  | Some t => if x_add x t then (mark_changed (set_users (users i ++ [u])%list (add_token t i)), true) else (i, false)
  | None => (mark_changed (set_users (users i ++ [u])%list i), true)
  end.

(** nm_iam_internal_create_user, nm_iam_internal.c:555-585 (username NULL is
    strlen(NULL): undefined). The result of add_user is ignored (line 583). *)
Definition api_create_user (x : ext) (i : iam) (name : option string) : outcome :=
  match name with
  | None => Undefined
  | Some n =>
      if (l_username (i_lim i) <? strlen n)%N || negb (validate_username n) then Done i EInvalidArg
      else if (l_max_users (i_lim i) <=? N.of_nat (length (users i)))%N then Done i EInternal
      else match find_user (users i) (Some n) with
           | Some _ => Done i EUserExists
           | None =>
               match user_new (i_next i) n with
               | None => Done i EInternal
               | Some u =>
                   match x_sct x with
                   | None => Done i EInternal
                   | Some t => Done (fst (add_user x (set_u_sct (Some t) u) (set_next (S (i_next i)) i))) EOk
                   end
               end
           end
  end.

(** Common part of the setters: find the user, apply [f], mark changed. *)
Definition on_user (i : iam) (name : option string) (f : user -> option user) : outcome :=
  match name with
  | None => Done i ENoUser
  | Some n =>
      match find_user (users i) (Some n) with
      | None => Done i ENoUser
      | Some u =>
          match f u with
          | Some u' => Done (mark_changed (set_users (update_user n (fun _ => u') (users i)) i)) EOk
          | None => Done (mark_changed i) EInternal
          end
      end
  end.

(** nm_iam_internal_set_user_fingerprint, nm_iam_internal.c:587-605 *)
Definition api_set_fp (i : iam) (name fp : option string) : outcome :=
  match fp with
  | None => Undefined
  | Some s => if negb (strlen s =? 64)%N then Done i EInvalidArg
              else on_user i name (user_set_fp (Some s))
  end.

(** nm_iam_internal_add_user_fingerprint, nm_iam_internal.c:607-625:
    strlen(fingerprintName) is evaluated when the fingerprint has length 64 *)
Definition api_add_fp (i : iam) (name fp fpname : option string) : outcome :=
  match fp with
  | None => Undefined
  | Some s =>
      if negb (strlen s =? 64)%N then Done i EInvalidArg
      else match fpname with
           | None => Undefined
           | Some fn => if (l_display (i_lim i) <? strlen fn)%N then Done i EInvalidArg
                        else on_user i name (fun u => Some (user_add_fp s (Some fn) u))
           end
  end.

(** nm_iam_internal_remove_user_fingerprint, nm_iam_internal.c:627-641 *)
Definition api_remove_fp (i : iam) (name fp : option string) : outcome :=
  on_user i name (fun u => match fp with Some s => user_remove_fp s u | None => None end).

(** nm_iam_internal_set_user_sct, nm_iam_internal.c:643-659 *)
Definition api_set_sct (i : iam) (name v : option string) : outcome :=
  match v with
  | None => Undefined
  | Some s => if (l_sct (i_lim i) <? strlen s)%N then Done i EInvalidArg
              else on_user i name (fun u => Some (set_u_sct (Some s) u))
  end.

(** nm_iam_internal_set_user_password, nm_iam_internal.c:661-677 *)
Definition api_set_password (i : iam) (name v : option string) : outcome :=
  match v with
  | None => Undefined
  | Some s => if (l_pw_max (i_lim i) <? strlen s)%N || (strlen s <? l_pw_min (i_lim i))%N then Done i EInvalidArg
              else on_user i name (fun u => Some (set_u_password (Some s) u))
  end.

(** nm_iam_internal_set_user_role, nm_iam_internal.c:679-697 *)
Definition api_set_role (i : iam) (name v : option string) : outcome :=
  match find_user (users i) name with
  | None => Done i ENoUser
  | Some _ =>
      match find_role (i_conf i) v with
      | None => Done i ENoRole
      | Some _ => on_user i name (fun u => Some (set_u_role v u))
      end
  end.

(** nm_iam_internal_set_user_display_name, nm_iam_internal.c:699-715 *)
Definition api_set_display (i : iam) (name v : option string) : outcome :=
  match v with
  | None => Undefined
  | Some s => if (l_display (i_lim i) <? strlen s)%N then Done i EInvalidArg
              else on_user i name (fun u => Some (set_u_display (Some s) u))
  end.

(** nm_iam_internal_set_user_fcm_token, nm_iam_internal.c:717-733 *)
Definition api_set_fcm_token (i : iam) (name v : option string) : outcome :=
  match v with
  | None => Undefined
  | Some s => if (l_fcm_token (i_lim i) <? strlen s)%N then Done i EInvalidArg
              else on_user i name (fun u => Some (set_u_fcm_token (Some s) u))
  end.

(** nm_iam_internal_set_user_fcm_project_id, nm_iam_internal.c:735-751 *)
Definition api_set_fcm_project (i : iam) (name v : option string) : outcome :=
  match v with
  | None => Undefined
  | Some s => if (l_fcm_project (i_lim i) <? strlen s)%N then Done i EInvalidArg
              else on_user i name (fun u => Some (set_u_fcm_project (Some s) u))
  end.

(** nm_iam_internal_set_user_notification_categories, nm_iam_internal.c:753-773 *)
Definition api_set_cats (i : iam) (name : option string) (v : list string) : outcome :=
  match find_user (users i) name with
  | None => Done i ENoUser
  | Some _ => if forallb (set_contains (i_cats i)) v
              then on_user i name (fun u => Some (set_u_cats v u))
              else Done i ENoCategory
  end.

(** nm_iam_internal_set_user_oauth_subject, nm_iam_internal.c:775-791 *)
Definition api_set_oauth (i : iam) (name v : option string) : outcome :=
  match v with
  | None => Undefined
  | Some s => if (l_oauth (i_lim i) <? strlen s)%N then Done i EInvalidArg
              else on_user i name (fun u => Some (set_u_oauth (Some s) u))
  end.

(** nm_iam_internal_delete_user, nm_iam_internal.c:793-805. authorizedConnections
    is not touched. *)
Definition api_delete_user (i : iam) (name : option string) : outcome :=
  match name with
  | None => Done i ENoUser
  | Some n => match find_user (users i) (Some n) with
              | None => Done i ENoUser
              | Some _ => Done (mark_changed (set_users (remove_user n (users i)) i)) EOk
              end
  end.

(** nm_iam_internal_authorize_connection, nm_iam_internal.c:807-817 *)
Definition api_authorize (i : iam) (ref : nat) (name : option string) : outcome :=
  match find_user (users i) name with
  | None => Done i ENoUser
  | Some u => Done (set_auth (i_auth i ++ [(ref, u_id u)])%list i) EOk
  end.

(** nm_iam_set_password_open_pairing etc., nm_iam.c:223-257 *)
Inductive pairing_mode := PmLocalOpen | PmPasswordOpen | PmPasswordInvite | PmLocalInitial.
Definition set_mode (m : pairing_mode) (b : bool) (s : istate) : istate :=
  match m with
  | PmPasswordOpen => with_bools b (st_local_open s) (st_pw_invite s) (st_local_initial s) s
  | PmLocalOpen => with_bools (st_pw_open s) b (st_pw_invite s) (st_local_initial s) s
  | PmPasswordInvite => with_bools (st_pw_open s) (st_local_open s) b (st_local_initial s) s
  | PmLocalInitial => with_bools (st_pw_open s) (st_local_open s) (st_pw_invite s) b s
  end.
Definition api_set_mode (i : iam) (m : pairing_mode) (b : bool) : outcome :=
  Done (do_callbacks (mark_changed (set_state (set_mode m b (i_state i)) i))) EOk.

(** check_length, nm_iam_internal.c:343-352 *)
Definition check_length (lo hi : N) (s : option string) : bool :=
  match s with
  | None => true
  | Some s => negb ((strlen s <? lo)%N || (hi <? strlen s)%N)
  end.

(** The per user part of validate_state, nm_iam_internal.c:371-402;
    validate_user_fingerprints at 326-334 *)
Definition validate_user (l : limits) (cats : list string) (u : user) : bool :=
  negb (l_username l <? strlen (u_name u))%N &&
  check_length 0 (l_display l) (u_display u) &&
  check_length (l_pw_min l) (l_pw_max l) (u_password u) &&
  forallb (fun f => (strlen (fp_val f) =? 64)%N) (u_fps u) &&
  check_length 0 (l_sct l) (u_sct u) &&
  check_length 0 (l_fcm_token l) (u_fcm_token u) &&
  check_length 0 (l_fcm_project l) (u_fcm_project u) &&
  check_length 0 (l_oauth l) (u_oauth u) &&
  forallb (set_contains cats) (u_cats u).

(** validate_state, nm_iam_internal.c:354-404 *)
Definition validate_state (l : limits) (cats : list string) (s : istate) : bool :=
  negb (l_max_users l <? N.of_nat (length (st_users s)))%N &&
  check_length (l_pw_min l) (l_pw_max l) (st_pw_open_password s) &&
  check_length 0 (l_sct l) (st_pw_open_sct s) &&
  check_length 0 (l_username l) (st_initial_user s) &&
  check_length 0 (l_friendly l) (st_friendly s) &&
  forallb (validate_user l cats) (st_users s).

(** the tokens added one after the other by load_state until one fails;
    nm_iam_internal.c:413-430 *)
Fixpoint add_tokens (x : ext) (ts : list (option string)) (i : iam) : iam * bool :=
  match ts with
  | [] => (i, true)
  | None :: ts' => add_tokens x ts' i
  | Some t :: ts' => if x_add x t then add_tokens x ts' (add_token t i) else (i, false)
  end.

(** The users of a loaded state are separate allocations: they get fresh ids. *)
Fixpoint renumber (n : nat) (us : list user) : list user :=
  match us with
  | [] => []
  | u :: us' => set_u_id n u :: renumber (S n) us'
  end.

(** nm_iam_internal_load_state, nm_iam_internal.c:406-438. The old state and
    its users are freed; authorizedConnections is not touched. *)
Definition load_state (x : ext) (i : iam) (s : istate) : iam * bool :=
  if negb (validate_state (i_lim i) (i_cats i) s) then (i, false)
  else
    let '(i1, ok1) := add_tokens x [st_pw_open_sct s] i in
    if negb ok1 then (i1, false)
    else if (match st_friendly s with Some _ => negb (x_mdns x) | None => false end) then (i1, false)
    else
      let '(i2, ok2) := add_tokens x (map u_sct (st_users s)) i1 in
      if negb ok2 then (i2, false)
      else (set_next (i_next i + length (st_users s))
             (set_state (with_users (renumber (i_next i) (st_users s)) s) i2), true).

(** validate_configuration, nm_iam_internal.c:295-312, load_configuration 314-324 *)
Definition load_conf (i : iam) (c : config) : iam * bool :=
  match conf_unpaired c with
  | None => (set_conf c i, true)
  | Some r => if existsb (fun x => String.eqb (r_id x) r) (conf_roles c) then (set_conf c i, true) else (i, false)
  end.

(** Connection closed event, nm_iam_connection_events.c:58-73: the first entry
    with the reference is erased. *)
Fixpoint erase_first_ref (r : nat) (l : list (nat * nat)) : list (nat * nat) :=
  match l with
  | [] => []
  | a :: l' => if Nat.eqb (fst a) r then l' else a :: erase_first_ref r l'
  end.
Definition conn_closed (i : iam) (ref : nat) : iam := set_auth (erase_first_ref ref (i_auth i)) i.

(** nm_iam_internal_pair_new_client, nm_iam_internal.c:170-214. Pointer equality
    of the two users found is equality of allocation ids. *)
Definition pair_new_client (x : ext) (i : iam) (name fp fpname : option string) : iam * ierr :=
  match name, fp with
  | Some n, Some f =>
      if negb (validate_username n) || (l_username (i_lim i) <? strlen n)%N then (i, EInvalidArg)
      else match find_user (users i) (Some n), find_user_fp (users i) (Some f) with
           | None, None =>
               match st_open_role (i_state i), x_sct x with
               | Some r, Some t =>
                   if (l_sct (i_lim i) <? strlen t)%N then (i, EInternal)
                   else match user_new (i_next i) n with
                        | None => (i, EInternal)
                        | Some u =>
                            let u' := set_u_sct (Some t) (user_add_fp f fpname (set_u_role (Some r) u)) in
                            let '(i', ok) := add_user x u' (set_next (S (i_next i)) i) in
                            if ok then (i', EOk) else (i, EInternal)
                        end
               | _, _ => (i, EInternal)
               end
           | Some a, Some b => if Nat.eqb (u_id a) (u_id b) then (i, EOk) else (i, EUserExists)
           | _, _ => (i, EUserExists)
           end
  | _, _ => (i, EInvalidArg)
  end.

(** ** CoAP handlers *)

(** A CBOR item where a string is expected: not a string (or absent), null, or a
    text string. *)
Inductive cborstr := CbBad | CbNull | CbStr (s : string).

(** nm_iam_cbor_decode_string, coap_handler/nm_iam_coap_handler.c:146-171: [None]
    is return false. Text of 1024 or more bytes is rejected. *)
Definition decode_string (c : cborstr) : option (option string) :=
  match c with
  | CbBad => None
  | CbNull => Some None
  | CbStr s => if (strlen s <? 1024)%N then Some (Some s) else None
  end.

(** the string left in *str when the result of decoding is ignored *)
Definition decode_or_null (c : cborstr) : option string :=
  match decode_string c with Some r => r | None => None end.

(** Result of nm_iam_cbor_init_parser, nm_iam_coap_handler.c:109-129 *)
Inductive payload (A : Type) := PlBadFormat | PlError | PlOk (a : A).
Arguments PlBadFormat {A}. Arguments PlError {A}. Arguments PlOk {A} a.

(** The state changing CoAP requests of src/modules/iam/coap_handler. The path
    parameters {user}, {fingerprint} and {key} are always present in a request
    matched by the route, so the NULL checks on them are omitted. *)
Inductive request :=
| RqCreateUser (username : payload cborstr)
| RqDeleteUser (user : string)
| RqAddFp (user fp : string) (fpname : payload cborstr)
| RqDeleteFp (user fp : string)
| RqSetName (user : string) (v : payload cborstr)
| RqSetRole (user : string) (v : payload cborstr)
| RqSetPassword (user : string) (v : payload cborstr)
| RqSetFp (user : string) (v : payload cborstr)
| RqSetDisplay (user : string) (v : payload cborstr)
| RqSetFcm (user : string) (v : payload (option (cborstr * cborstr)))
| RqSetSct (user : string) (v : payload cborstr)
| RqSetOauth (user : string) (v : payload cborstr)
| RqSetCats (user : string) (v : payload (option (list string)))
| RqPairLocalInitial (fpname : payload cborstr)
| RqPairLocalOpen (v : payload (cborstr * cborstr))
| RqPairPasswordInvite (fpname : payload cborstr)
| RqPairPasswordOpen (v : payload (cborstr * cborstr * cborstr))
| RqSetSettings (key : string) (v : payload (option bool))
| RqSetDeviceInfo (key : string) (v : payload cborstr).

(** Response code of a handler, or undefined behaviour. *)
Inductive coap_outcome := Resp (i : iam) (code : N) | CUndefined.

Definition user_attr (u : string) : attrs := [("IAM:Username", u)].

(** [guard b k]: the common "if (!check_access) error 403". *)
Definition guard (i : iam) (v : option bool) (k : coap_outcome) : coap_outcome :=
  match v with
  | None => CUndefined
  | Some false => Resp i 403
  | Some true => k
  end.

(** body shared by handlers that update one user in place *)
Definition coap_on_user (i : iam) (n : string) (f : user -> option user) (notfound failed ok : N) : coap_outcome :=
  match find_user (users i) (Some n) with
  | None => Resp i notfound
  | Some u => match f u with
              | None => Resp i failed
              | Some u' => Resp (mark_changed (set_users (update_user n (fun _ => u') (users i)) i)) ok
              end
  end.

(** nm_iam_pairing_is_user_paired, nm_iam_pairing.c:92-98 *)
Definition is_user_paired (u : user) : bool :=
  match u_fps u with [] => match u_oauth u with None => false | Some _ => true end | _ => true end.

Definition code_of_pair (e : ierr) : N :=
  match e with EOk => 201 | EInvalidArg => 400 | EUserExists => 409 | _ => 500 end.

(** The handle_request functions. [x]: external results; [c]: the connection of
    the request. *)
Definition handle (E : env) (x : ext) (c : conn) (i : iam) (r : request) : coap_outcome :=
  let access := check_access E i c in
  match r with
  (* nm_iam_create_user.c:20-108; a null Username is validate_username(NULL) *)
  | RqCreateUser p =>
      guard i (access "IAM:CreateUser" [])
        (if (l_max_users (i_lim i) <=? N.of_nat (length (users i)))%N then Resp i 500
         else match p with
              | PlOk v =>
                  match decode_string v with
                  | None => Resp i 400
                  | Some None => CUndefined
                  | Some (Some n) =>
                      if negb (validate_username n) then Resp i 400
                      else if (l_username (i_lim i) <? strlen n)%N then Resp i 400
                      else match find_user (users i) (Some n) with
                           | Some _ => Resp i 409
                           | None =>
                               match user_new (i_next i) n, x_sct x with
                               | Some u, Some t =>
                                   if (l_sct (i_lim i) <? strlen t)%N then Resp i 500
                                   else Resp (fst (add_user x (set_u_sct (Some t) u) (set_next (S (i_next i)) i))) 201
                               | _, _ => Resp i 500
                               end
                           end
                  end
              | _ => Resp i 400
              end)
  (* nm_iam_delete_user.c:19-46 *)
  | RqDeleteUser n =>
      guard i (access "IAM:DeleteUser" (user_attr n))
        (match api_delete_user i (Some n) with
         | Done i' EOk => Resp i' 202
         | Done i' ENoUser => Resp i' 404
         | Done i' _ => Resp i' 500
         | Undefined => CUndefined
         end)
  (* nm_iam_add_user_fingerprint.c:20-73 *)
  | RqAddFp n f p =>
      match p with
      | PlOk v =>
          guard i (access "IAM:SetUserFingerprint" (user_attr n))
            (match find_user_fp (users i) (Some f) with
             | Some _ => Resp i 409
             | None => coap_on_user i n (fun u => Some (user_add_fp f (decode_or_null v) u)) 404 500 204
             end)
      | _ => Resp i 400
      end
  (* nm_iam_delete_user_fingerprint.c:20-52 *)
  | RqDeleteFp n f =>
      guard i (access "IAM:SetUserFingerprint" (user_attr n))
        (coap_on_user i n (user_remove_fp f) 404 404 202)
  (* nm_iam_set_user_name.c:17-86 *)
  | RqSetName n p =>
      match p with
      | PlOk v =>
          match decode_string v with
          | None | Some None => Resp i 400
          | Some (Some n') =>
              if negb (validate_username n') then Resp i 400
              else if (l_username (i_lim i) <? strlen n')%N then Resp i 400
              else guard i (access "IAM:SetUserUsername" (user_attr n))
                     (match find_user (users i) (Some n') with
                      | Some _ => Resp i 409
                      | None => coap_on_user i n (fun u => Some (set_u_name n' u)) 404 500 204
                      end)
          end
      | _ => Resp i 400
      end
  (* nm_iam_set_user_role.c:20-63 *)
  | RqSetRole n p =>
      match p with
      | PlOk v =>
          match decode_string v with
          | None | Some None => Resp i 400
          | Some (Some r) =>
              guard i (access "IAM:SetUserRole" [("IAM:Username", n); ("IAM:RoleId", r)])
                (match api_set_role i (Some n) (Some r) with
                 | Done i' EOk => Resp i' 204
                 | Done i' _ => Resp i' 404
                 | Undefined => CUndefined
                 end)
          end
      | _ => Resp i 400
      end
  (* nm_iam_set_user_password.c:20-74 *)
  | RqSetPassword n p =>
      match p with
      | PlOk v =>
          match decode_string v with
          | None => Resp i 400
          | Some pw =>
              if (match pw with Some s => (l_pw_max (i_lim i) <? strlen s)%N || (strlen s <? l_pw_min (i_lim i))%N | None => false end)
              then Resp i 400
              else guard i (access "IAM:SetUserPassword" (user_attr n))
                     (coap_on_user i n (fun u => Some (set_u_password pw u)) 404 500 204)
          end
      | _ => Resp i 400
      end
  (* nm_iam_set_user_fingerprint.c:20-78 *)
  | RqSetFp n p =>
      match p with
      | PlOk v =>
          match decode_string v with
          | None => Resp i 400
          | Some f =>
              if (match f with Some s => negb (strlen s =? 64)%N | None => false end) then Resp i 400
              else guard i (access "IAM:SetUserFingerprint" (user_attr n))
                     (match find_user_fp (users i) f with
                      | Some _ => Resp i 409
                      | None => coap_on_user i n (user_set_fp f) 404 500 204
                      end)
          end
      | _ => Resp i 400
      end
  (* nm_iam_set_user_display_name.c:20-76 *)
  | RqSetDisplay n p =>
      match p with
      | PlOk v =>
          match decode_string v with
          | None => Resp i 400
          | Some d =>
              if (match d with Some s => (l_display (i_lim i) <? strlen s)%N | None => false end) then Resp i 400
              else guard i (access "IAM:SetUserDisplayName" (user_attr n))
                     (coap_on_user i n (fun u => Some (set_u_display d u)) 404 500 204)
          end
      | _ => Resp i 400
      end
  (* nm_iam_set_user_fcm.c:20-91; [None] payload: not a map *)
  | RqSetFcm n p =>
      match p with
      | PlOk v =>
          guard i (access "IAM:SetUserFcm" (user_attr n))
            (coap_on_user i n
               (fun u => match v with
                         | None => None
                         | Some (tk, pr) =>
                             match decode_string tk, decode_string pr with
                             | Some (Some t), Some (Some p) =>
                                 if (strlen t <? l_fcm_token (i_lim i))%N && (strlen p <? l_fcm_project (i_lim i))%N
                                 then Some (set_u_fcm_project (Some p) (set_u_fcm_token (Some t) u))
                                 else None
                             | _, _ => None
                             end
                         end) 404 400 204)
      | _ => Resp i 400
      end
  (* nm_iam_set_user_sct.c:20-71; the result of adding the token is ignored *)
  | RqSetSct n p =>
      match p with
      | PlOk v =>
          match decode_string v with
          | None | Some None => Resp i 400
          | Some (Some s) =>
              if (l_sct (i_lim i) <? strlen s)%N then Resp i 400
              else guard i (access "IAM:SetUserSct" (user_attr n))
                     (match coap_on_user i n (fun u => Some (set_u_sct (Some s) u)) 404 500 204 with
                      | Resp i' 204 => Resp (if x_add x s then add_token s i' else i') 204
                      | o => o
                      end)
          end
      | _ => Resp i 400
      end
  (* nm_iam_set_user_oauth_subject.c:20-74 *)
  | RqSetOauth n p =>
      match p with
      | PlOk v =>
          match decode_string v with
          | None => Resp i 400
          | Some d =>
              if (match d with Some s => (l_oauth (i_lim i) <? strlen s)%N | None => false end) then Resp i 400
              else guard i (access "IAM:SetUserOauthSubject" (user_attr n))
                     (coap_on_user i n (fun u => Some (set_u_oauth d u)) 404 500 204)
          end
      | _ => Resp i 400
      end
  (* nm_iam_set_user_notification_categories.c:18-65; [None]: not an array of strings *)
  | RqSetCats n p =>
      match p with
      | PlOk (Some l) =>
          guard i (access "IAM:SetUserNotificationCategories" (user_attr n))
            (match api_set_cats i (Some n) l with
             | Done i' EOk => Resp i' 204
             | Done i' ENoUser => Resp i' 404
             | Done i' ENoCategory => Resp i' 400
             | Done i' _ => Resp i' 500
             | Undefined => CUndefined
             end)
      | _ => Resp i 400
      end
  (* nm_iam_pairing_local_initial.c:19-69; nm_iam_pairing_pair_user,
     nm_iam_pairing.c:78-90 *)
  | RqPairLocalInitial p =>
      if negb (st_local_initial (i_state i)) then Resp i 404
      else match access "IAM:PairingLocalInitial" [] with
           | None => CUndefined
           | Some false => Resp i 403
           | Some true =>
               if negb (cn_local c) then Resp i 403
               else match st_initial_user (i_state i), find_user (users i) (st_initial_user (i_state i)) with
                    | Some n, Some u =>
                        if is_user_paired u then Resp i 409
                        else match (match p with
                                    | PlOk v => decode_string v
                                    | PlBadFormat => Some None
                                    | PlError => None
                                    end) with
                             | None => Resp i 400
                             | Some fpname =>
                                 match cn_fp c with
                                 | None => Resp i 500
                                 | Some f => coap_on_user i n (fun u => Some (user_add_fp f fpname u)) 404 500 201
                                 end
                             end
                    | _, _ => Resp i 404
                    end
           end
  (* nm_iam_pairing_local_open.c:20-88 *)
  | RqPairLocalOpen p =>
      if negb (st_local_open (i_state i)) then Resp i 404
      else match access "IAM:PairingLocalOpen" [] with
           | None => CUndefined
           | Some false => Resp i 403
           | Some true =>
               if negb (cn_local c) then Resp i 403
               else match cn_fp c with
                    | None => Resp i 500
                    | Some f =>
                        match p with
                        | PlOk (un, fn) =>
                            match decode_string un with
                            | None | Some None => Resp i 400
                            | Some (Some n) =>
                                let '(i', e) := pair_new_client x i (Some n) (Some f) (decode_or_null fn) in
                                Resp i' (code_of_pair e)
                            end
                        | _ => Resp i 400
                        end
                    end
           end
  (* nm_iam_pairing_password_invite.c:19-87 *)
  | RqPairPasswordInvite p =>
      if negb (st_pw_invite (i_state i)) then Resp i 404
      else guard i (access "IAM:PairingPasswordInvite" [])
        (if negb (cn_pwauth c) then Resp i 401
         else match cn_pwname c, find_user (users i) (cn_pwname c) with
              | Some n, Some u =>
                  match cn_fp c with
                  | None => Resp i 500
                  | Some f =>
                      match find_user_fp (users i) (Some f) with
                      | Some v => if Nat.eqb (u_id v) (u_id u) then Resp i 201 else Resp i 409
                      | None =>
                          let fpname := match p with PlOk v => decode_or_null v | _ => None end in
                          coap_on_user i n (fun u => Some (set_u_password None (user_add_fp f fpname u))) 500 500 201
                      end
                  end
              | _, _ => Resp i 500
              end)
  (* nm_iam_pairing_password_open.c:22-108, nm_iam_pairing_is_password_open_possible
     nm_iam_pairing.c:27-43. The payload triple is (Password, Username,
     FingerprintName). *)
  | RqPairPasswordOpen p =>
      if negb (st_pw_open (i_state i)) then Resp i 404
      else match access "IAM:PairingPasswordOpen" [] with
           | None => CUndefined
           | Some false => Resp i 403
           | Some true =>
               match st_pw_open_password (i_state i), st_open_role (i_state i) with
               | Some _, Some _ =>
                   if negb (cn_pwauth c) then Resp i 401
                   else match cn_fp c with
                        | None => Resp i 500
                        | Some f =>
                            match p with
                            | PlOk (pw, un, fn) =>
                                match decode_string pw with
                                | Some _ => Resp i 400
                                | None =>
                                    match decode_string un with
                                    | None | Some None => Resp i 400
                                    | Some (Some n) =>
                                        let '(i', e) := pair_new_client x i (Some n) (Some f) (decode_or_null fn) in
                                        Resp i' (code_of_pair e)
                                    end
                                end
                            | _ => Resp i 400
                            end
                        end
               | _, _ => Resp i 403
               end
           end
  (* nm_iam_settings_set.c:18-76 *)
  | RqSetSettings key p =>
      guard i (access "IAM:SetSettings" [])
        (match p with
         | PlOk v =>
             let go m := match v with
                         | None => Resp i 400
                         | Some b => Resp (mark_changed (set_state (set_mode m b (i_state i)) i)) 204
                         end in
             if String.eqb key "password-open-pairing" then go PmPasswordOpen
             else if String.eqb key "password-invite-pairing" then go PmPasswordInvite
             else if String.eqb key "local-open-pairing" then go PmLocalOpen
             else Resp i 404
         | _ => Resp i 400
         end)
  (* nm_iam_device_info_set.c:18-65 *)
  | RqSetDeviceInfo key p =>
      guard i (access "IAM:SetDeviceInfo" [])
        (match p with
         | PlOk v =>
             if String.eqb key "friendly-name"
             then match decode_string v with
                  | None | Some None => Resp i 400
                  | Some (Some s) =>
                      if (l_friendly (i_lim i) <? strlen s)%N then Resp i 400
                      else Resp (mark_changed (set_state (with_friendly (Some s) (i_state i)) i)) 204
                  end
             else Resp i 404
         | _ => Resp i 400
         end)
  end.

(** request_callback, nm_iam_coap_handler.c:71-90 (synchronous handlers): the
    callbacks run after the handler. *)
Definition coap (E : env) (x : ext) (c : conn) (i : iam) (r : request) : coap_outcome :=
  match handle E x c i r with
  | Resp i' code => Resp (do_callbacks i') code
  | CUndefined => CUndefined
  end.

(** handle_request, nm_iam_pake_handler.c:66-89: the password the module supplies
    for a password authentication request; [None]: none is set. *)
Definition pake_password (i : iam) (username : option string) : option string :=
  match username with
  | None => None
  | Some n =>
      if String.eqb n ""
      then if st_pw_open (i_state i) then st_pw_open_password (i_state i) else None
      else match find_user (users i) (Some n) with
           | Some u => u_password u
           | None => None
           end
  end.

(** ** Histories *)

(** API calls of nm_iam.h that manage users and pairing. *)
Inductive api :=
| ApCreateUser (name : option string)
| ApSetFp (name fp : option string)
| ApAddFp (name fp fpname : option string)
| ApRemoveFp (name fp : option string)
| ApSetSct (name v : option string)
| ApSetPassword (name v : option string)
| ApSetRole (name v : option string)
| ApSetDisplay (name v : option string)
| ApSetFcmToken (name v : option string)
| ApSetFcmProject (name v : option string)
| ApSetCats (name : option string) (v : list string)
| ApSetOauth (name v : option string)
| ApDeleteUser (name : option string)
| ApAuthorize (ref : nat) (name : option string)
| ApSetMode (m : pairing_mode) (b : bool).

Definition run_api (x : ext) (i : iam) (a : api) : outcome :=
  match a with
  | ApCreateUser n => api_create_user x i n
  | ApSetFp n f => api_set_fp i n f
  | ApAddFp n f fn => api_add_fp i n f fn
  | ApRemoveFp n f => api_remove_fp i n f
  | ApSetSct n v => api_set_sct i n v
  | ApSetPassword n v => api_set_password i n v
  | ApSetRole n v => api_set_role i n v
  | ApSetDisplay n v => api_set_display i n v
  | ApSetFcmToken n v => api_set_fcm_token i n v
  | ApSetFcmProject n v => api_set_fcm_project i n v
  | ApSetCats n v => api_set_cats i n v
  | ApSetOauth n v => api_set_oauth i n v
  | ApDeleteUser n => api_delete_user i n
  | ApAuthorize r n => api_authorize i r n
  | ApSetMode m b => api_set_mode i m b
  end.

(** Everything that can happen to the module. *)
Inductive op :=
| OpApi (a : api)
| OpCoap (c : conn) (r : request)
| OpCheck (c : conn) (action : string) (m : attrs)
| OpClosed (ref : nat)
| OpLoadState (s : istate)
| OpLoadConf (c : config)
| OpSetLimits (l : limits)
| OpSetCats (c : list string).

(** [None]: undefined behaviour happened. *)
Definition step (E : env) (i : iam) (xo : ext * op) : option iam :=
  let '(x, o) := xo in
  match o with
  | OpApi a => match run_api x i a with Done i' _ => Some i' | Undefined => None end
  | OpCoap c r => match coap E x c i r with Resp i' _ => Some i' | CUndefined => None end
  | OpCheck c a m => match check_access E i c a m with Some _ => Some i | None => None end
  | OpClosed r => Some (conn_closed i r)
  | OpLoadState s => Some (fst (load_state x i s))
  | OpLoadConf c => Some (fst (load_conf i c))
  | OpSetLimits l => Some (set_limits l i)
  | OpSetCats c => Some (set_categories c i)
  end.

Fixpoint run (E : env) (i : iam) (l : list (ext * op)) : option iam :=
  match l with
  | [] => Some i
  | o :: l' => match step E i o with Some i' => run E i' l' | None => None end
  end.
