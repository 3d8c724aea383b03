(** Property C95: what the IAM module tells clients. *)
From Coq Require Import String Ascii List Bool Arith NArith Lia.
From Verif Require Import IamPolicyModel IamPolicySpec IamStateModel IrdModel IrdSpec IrdProofs.
Import ListNotations.
Open Scope list_scope.
Open Scope N_scope.

(** Concrete values used by the examples: an administrator who may read all but
    the user "boss", and is known by fingerprint. *)
Definition ex_fp : string := "aaaaaaaaaaaaaaaaaaaaaaaaaaaaaaaaaaaaaaaaaaaaaaaaaaaaaaaaaaaaaaaa".
Definition ex_user : user := {| u_id := 0; u_name := "ann"; u_display := Some "Ann"%string;
  u_fps := [{| fp_val := ex_fp; fp_name := Some "phone"%string |}]; u_password := Some "pw1234"%string; u_role := Some "admin"%string;
  u_sct := Some "tok"%string; u_fcm_token := Some "fcmtok"%string; u_fcm_project := Some "proj"%string; u_cats := ["Info"%string]; u_oauth := None |}.
Definition ex_boss : user := {| u_id := 1; u_name := "boss"; u_display := None; u_fps := []; u_password := None; u_role := None;
  u_sct := None; u_fcm_token := Some "x"" }, ""data"": { ""k"": ""v"%string; u_fcm_project := Some "proj"%string; u_cats := []; u_oauth := None |}.
Definition ex_policy : policy := {| p_id := "all"; p_stmts :=
  [{| s_effect := Allow; s_actions := ["IAM:GetUser"; "IAM:ListUsers"; "IAM:ListRoles"; "IAM:GetSettings"; "IAM:GetPairing";
                                       "IAM:ListNotificationCategories"; "IAM:SendUserFcmTest"; "IAM:PairingPasswordOpen"]%string; s_conds := [] |};
   {| s_effect := Deny; s_actions := ["IAM:GetUser"%string];
      s_conds := [{| c_op := StringEquals; c_key := "IAM:Username"; c_values := ["boss"%string] |}] |}] |}.
Definition ex_state : istate := {| st_pw_open_password := Some "secret"%string; st_pw_open_sct := Some "sct"%string; st_pw_open := true;
  st_local_open := true; st_pw_invite := true; st_local_initial := true; st_open_role := Some "admin"%string;
  st_initial_user := Some "boss"%string; st_friendly := Some "My device"%string; st_users := [ex_user; ex_boss] |}.
Definition ex_iam : iam := {| i_state := ex_state;
  i_conf := {| conf_roles := [{| r_id := "admin"; r_policies := ["all"%string] |}]; conf_policies := [ex_policy]; conf_unpaired := None |};
  i_lim := default_limits; i_cats := ["Info"; "Warn"]%string; i_auth := []; i_changed := false; i_callbacks := 0; i_tokens := []; i_next := 2 |}.
Definition ex_env : env := {| e_num := nolib; e_overwrite := false |}.
Definition ex_conn : conn := {| cn_ref := 7; cn_virtual := false; cn_fp := Some ex_fp; cn_local := true; cn_pwauth := false; cn_pwname := None |}.
Definition ex_info : info := mkinfo (Some "5.0"%string) (Some "app"%string) None (Some "pr-1"%string) (Some "de-1"%string).
Definition ex_mem : mem := mkmem true true true.
Definition ex_ask (r : request) (m : mem) : response := read ex_env ex_info ex_iam ex_conn r m.

(** ** Only what is allowed *)

(** When the name could be given to the access check, a client which gets any
    answer but a refusal, even that a user does not exist, is allowed the
    action by the policies. *)
Theorem C95_allowed_partial : forall E d i c r m a at_, m_ins m = true -> action r = Some (a, at_) ->
  read E d i c r m = Crash \/ read E d i c r m = Error 403 (Some "Access Denied"%string) \/ check_access E i c a at_ = Some true.
Proof.
  intros E d i c r m a at_ I A. destruct r; cbn [action] in A; try discriminate A; injection A as <- <-;
    cbn [read]; rewrite ?I; unfold guarded, denied;
    match goal with |- context [check_access E i c ?x ?y] => destruct (check_access E i c x y) as [[|]|] end; auto.
Qed.
Print Assumptions C95_allowed_partial.

Example C95_ex_allowed : ex_ask (GetUser "boss") ex_mem = Error 403 (Some "Access Denied"%string) /\
  ex_ask (GetUser "eve") ex_mem = Error 404 None.
Proof. vm_compute. split; reflexivity. Qed.

(** The insertion of the name is not checked: without memory for it a user whom
    the policies protect by name is told. *)
Theorem C95_allowed_refuted : exists E d i c n m p, check_access E i c "IAM:GetUser" [("IAM:Username"%string, n)] = Some false /\
  read E d i c (GetUser n) m = Content 205 p /\ exists u, find_user (users i) (Some n) = Some u /\ MapOf (UserEntry u) p.
Proof.
  exists ex_env, ex_info, ex_iam, ex_conn, "boss"%string, (mkmem false true true). eexists.
  split; [vm_compute; reflexivity|]. split; [vm_compute; reflexivity|].
  exists ex_boss. split; [vm_compute; reflexivity|]. apply (user_map ex_boss). vm_compute. reflexivity.
Qed.
Print Assumptions C95_allowed_refuted.

Lemma send_inv m l n code p : send m l n = Content code p -> n <> Content code p -> code = 205 /\ p = flat l.
Proof.
  rewrite send_eq. unfold reply. destruct (m_buf m); [|congruence]. destruct (m_set m); [|discriminate]. intros H _. inversion H. auto.
Qed.

(** A client is told about itself only: GET /iam/me needs a user which the
    connection belongs to. *)
Theorem C95_me : forall E d i c m code p, read E d i c GetMe m = Content code p ->
  code = 205 /\ exists u, resolve_user i c = Some (Some u) /\ (len p < 2 ^ 64 -> MapOf (UserEntry u) p).
Proof.
  intros E d i c m code p H. cbn [read] in H. destruct (resolve_user i c) as [[u|]|]; try discriminate H.
  apply send_inv in H as [-> ->]; [|discriminate].
  split; [reflexivity|]. exists u. split; [reflexivity|]. rewrite user_emit. apply user_map.
Qed.
Print Assumptions C95_me.

(** ** What is told is what is stored *)

Theorem C95_user : forall E d i c n m code p, read E d i c (GetUser n) m = Content code p ->
  code = 205 /\ exists u, In u (users i) /\ u_name u = n /\ (len p < 2 ^ 64 -> MapOf (UserEntry u) p).
Proof.
  intros E d i c n m code p H. cbn [read] in H. unfold guarded in H. destruct (check_access E i c _ _) as [[|]|]; try discriminate H.
  destruct (find_user (users i) (Some n)) as [u|] eqn:F; [|discriminate H].
  apply send_inv in H as [-> ->]; [|discriminate].
  split; [reflexivity|]. cbn in F. apply find_some in F as [F1 F2]. apply String.eqb_eq in F2.
  exists u. split; [exact F1|]. split; [exact F2|]. rewrite user_emit. apply user_map.
Qed.
Print Assumptions C95_user.

Theorem C95_settings : forall E d i c m code p, read E d i c GetSettings m = Content code p ->
  code = 205 /\ (len p < 2 ^ 64 -> MapOf (SettingsEntry (i_state i)) p).
Proof.
  intros E d i c m code p H. cbn [read] in H. unfold guarded in H. destruct (check_access E i c _ _) as [[|]|]; try discriminate H.
  apply send_inv in H as [-> ->]; [|discriminate].
  split; [reflexivity|]. rewrite settings_emit. apply settings_map.
Qed.
Print Assumptions C95_settings.

Theorem C95_pairing : forall E d i c m code p, read E d i c GetPairing m = Content code p ->
  code = 205 /\ (len p < 2 ^ 64 -> MapOf (PairingEntry E d i c) p).
Proof.
  intros E d i c m code p H. cbn [read] in H. unfold guarded in H. destruct (check_access E i c _ _) as [[|]|]; try discriminate H.
  destruct (pairing_calls E d i c) as [l|] eqn:P; [|discriminate H]. apply pairing_emit in P. subst l.
  apply send_inv in H as [-> ->]; [|discriminate].
  split; [reflexivity|]. apply pairing_map.
Qed.
Print Assumptions C95_pairing.

Lemma categories_eq E d i c m : check_access E i c "IAM:ListNotificationCategories" [] = Some true ->
  read E d i c GetCategories m = if m_buf m then reply m (bytes (VArray (map VText (i_cats i)))) else oom.
Proof.
  intros A. cbn [read]. rewrite A. unfold guarded. rewrite list_null. unfold extra. cbn [left need].
  unfold enc_buf. rewrite tolerant_buf by lia. cbn [buf app]. rewrite padded_full, list_emit. reflexivity.
Qed.

Theorem C95_categories : forall E d i c m code p, read E d i c GetCategories m = Content code p ->
  code = 205 /\ (len p < 2 ^ 64 -> decode p = Some (VArray (map VText (i_cats i)))).
Proof.
  intros E d i c m code p H. destruct (check_access E i c "IAM:ListNotificationCategories" []) as [[|]|] eqn:A.
  - rewrite (categories_eq _ _ _ _ _ A) in H. destruct (m_buf m); [|discriminate H]. unfold reply in H. destruct (m_set m); [|discriminate H].
    injection H as <- <-. split; [reflexivity|]. apply list_decode.
  - cbn [read] in H. rewrite A in H. discriminate H.
  - cbn [read] in H. rewrite A in H. discriminate H.
Qed.
Print Assumptions C95_categories.

Example C95_ex_content : exists a b e f, ex_ask GetMe ex_mem = Content 205 a /\ ex_ask (GetUser "ann") ex_mem = Content 205 a /\
  ex_ask GetSettings ex_mem = Content 205 b /\ ex_ask GetPairing ex_mem = Content 205 e /\ ex_ask GetCategories ex_mem = Content 205 f /\
  Forall (fun p => len p < 2 ^ 64) [a; b; e; f] /\
  decode e = Some (VMap [("Modes", VArray [VText "PasswordOpen"]); ("NabtoVersion", VText "5.0"); ("AppName", VText "app");
    ("ProductId", VText "pr-1"); ("DeviceId", VText "de-1"); ("FriendlyName", VText "My device")])%string.
Proof.
  eexists _, _, _, _. split; [vm_compute; reflexivity|]. split; [vm_compute; reflexivity|]. split; [vm_compute; reflexivity|].
  split; [vm_compute; reflexivity|]. split; [vm_compute; reflexivity|]. split; [repeat constructor|]. vm_compute. reflexivity.
Qed.

(** ** Secrets *)

Lemma find_map {A} (g : A -> A) (p : A -> bool) l : (forall x, p (g x) = p x) -> find p (map g l) = option_map g (find p l).
Proof. intros H. induction l as [|x l IH]; cbn; [reflexivity|]. rewrite H. destruct (p x); [reflexivity|exact IH]. Qed.

Definition upd (f : user -> option string) (u : user) : user := set_u_password (f u) u.

Lemma pw_users f i : users (other_passwords f i) = map (upd f) (users i).
Proof. reflexivity. Qed.
Lemma pw_find f i n : find_user (users (other_passwords f i)) n = option_map (upd f) (find_user (users i) n).
Proof. rewrite pw_users. destruct n; [|reflexivity]. apply find_map. reflexivity. Qed.
Lemma pw_resolve f i c : resolve_user (other_passwords f i) c = option_map (option_map (upd f)) (resolve_user i c).
Proof.
  unfold resolve_user. rewrite pw_find. rewrite pw_users.
  assert (F : find_user_fp (map (upd f) (users i)) (cn_fp c) = option_map (upd f) (find_user_fp (users i) (cn_fp c))).
  { unfold find_user_fp. destruct (cn_fp c); [|reflexivity]. apply find_map. reflexivity. }
  rewrite F. destruct (find_user_fp (users i) (cn_fp c)); [reflexivity|]. cbn [option_map].
  assert (P : (if cn_pwauth c then option_map (upd f) (find_user (users i) (cn_pwname c)) else None) = option_map (upd f) (if cn_pwauth c then find_user (users i) (cn_pwname c) else None)) by (destruct (cn_pwauth c); reflexivity).
  rewrite P. clear P. destruct (if cn_pwauth c then find_user (users i) (cn_pwname c) else None); [reflexivity|]. cbn [option_map].
  change (i_auth (other_passwords f i)) with (i_auth i). destruct (find _ (i_auth i)) as [[x id]|]; [|reflexivity].
  assert (D : deref (map (upd f) (users i)) id = option_map (upd f) (deref (users i) id)) by (apply find_map; reflexivity).
  rewrite D. destruct (deref (users i) id); reflexivity.
Qed.
Lemma pw_check f E i c a m : check_access E (other_passwords f i) c a m = check_access E i c a m.
Proof.
  unfold check_access. rewrite pw_resolve. change (i_conf (other_passwords f i)) with (i_conf i).
  destruct (cn_fp c), (cn_virtual c); try reflexivity; destruct (resolve_user i c) as [[u|]|]; reflexivity.
Qed.
Lemma pw_read f E d i c r m : read E d (other_passwords f i) c r m = read E d i c r m.
Proof.
  destruct r; cbn [read]; rewrite ?pw_check.
  - rewrite pw_resolve. destruct (resolve_user i c) as [[u|]|]; reflexivity.
  - rewrite pw_find. destruct (find_user (users i) (Some n)); reflexivity.
  - rewrite pw_users, map_map. reflexivity.
  - reflexivity.
  - reflexivity.
  - assert (P : pairing_calls E d (other_passwords f i) c = pairing_calls E d i c).
    { unfold pairing_calls, open_possible, local_open_possible, invite_possible, initial_possible. rewrite !pw_check.
      change (st_pw_open (i_state (other_passwords f i))) with (st_pw_open (i_state i)).
      change (st_initial_user (i_state (other_passwords f i))) with (st_initial_user (i_state i)). rewrite pw_find.
      destruct (find_user (users i) (st_initial_user (i_state i))); reflexivity. }
    rewrite P. reflexivity.
  - reflexivity.
Qed.

(** No answer depends on the passwords of the users. *)
Theorem C95_user_secret : forall f E d i c r m, read E d (other_passwords f i) c r m = read E d i c r m.
Proof. exact pw_read. Qed.
Print Assumptions C95_user_secret.

(** Only the settings, which need their own permission, depend on the password
    of open pairing. *)
Theorem C95_open_secret : forall p E d i c r m, r <> GetSettings \/ check_access E i c "IAM:GetSettings" [] <> Some true ->
  read E d (other_open_password p i) c r m = read E d i c r m.
Proof.
  intros p E d i c r m H.
  assert (K : forall a x, check_access E (other_open_password p i) c a x = check_access E i c a x) by reflexivity.
  destruct r; try reflexivity.
  - destruct H as [H|H]; [congruence|]. cbn [read]. rewrite K. destruct (check_access E i c "IAM:GetSettings" []) as [[|]|]; [congruence|reflexivity|reflexivity].
  - cbn [read]. rewrite K. assert (P : pairing_calls E d (other_open_password p i) c = pairing_calls E d i c).
    { unfold pairing_calls, open_possible, local_open_possible, invite_possible, initial_possible. rewrite !K.
      cbn [other_open_password set_state i_state st_pw_open st_pw_open_password st_open_role st_local_open st_pw_invite st_local_initial st_initial_user st_friendly].
      change (users (other_open_password p i)) with (users i).
      destruct (st_pw_open_password (i_state i)); reflexivity. }
    rewrite P. reflexivity.
Qed.
Print Assumptions C95_open_secret.

Example C95_ex_secret : other_passwords (fun _ => Some "other"%string) ex_iam <> ex_iam /\ other_open_password "new" ex_iam <> ex_iam /\
  ex_ask GetSettings ex_mem <> read ex_env ex_info (other_open_password "new" ex_iam) ex_conn GetSettings ex_mem.
Proof. split; [|split]; vm_compute; discriminate. Qed.

(** ** Who is allowed is told *)

Theorem C95_accept : forall E d i c m, m_buf m = true -> m_set m = true ->
  (forall u, resolve_user i c = Some (Some u) -> exists p, read E d i c GetMe m = Content 205 p) /\
  (forall n u, m_ins m = true -> check_access E i c "IAM:GetUser" [("IAM:Username"%string, n)] = Some true -> find_user (users i) (Some n) = Some u ->
     exists p, read E d i c (GetUser n) m = Content 205 p) /\
  (check_access E i c "IAM:GetSettings" [] = Some true -> exists p, read E d i c GetSettings m = Content 205 p) /\
  (check_access E i c "IAM:GetPairing" [] = Some true -> exists p, read E d i c GetPairing m = Content 205 p) /\
  (check_access E i c "IAM:ListNotificationCategories" [] = Some true -> exists p, read E d i c GetCategories m = Content 205 p).
Proof.
  intros E d i c m B S. repeat split.
  - intros u R. cbn [read]. rewrite R, send_eq, B. unfold reply. rewrite S. eauto.
  - intros n u I A F. cbn [read]. rewrite I, A, F. unfold guarded. rewrite send_eq, B. unfold reply. rewrite S. eauto.
  - intros A. cbn [read]. rewrite A. unfold guarded. rewrite send_eq, B. unfold reply. rewrite S. eauto.
  - intros A. cbn [read]. rewrite A. unfold guarded.
    assert (C : forall a, check_access E i c a [] <> None).
    { intros a. unfold check_access in *. destruct (cn_fp c), (cn_virtual c); try discriminate; destruct (resolve_user i c) as [[u|]|]; discriminate. }
    assert (B0 : forall a b, both (check_access E i c a []) (Some b) <> None).
    { intros a b. specialize (C a). unfold both. destruct (check_access E i c a []) as [[|]|]; congruence. }
    destruct (pairing_calls E d i c) as [l|] eqn:P; [rewrite send_eq, B; unfold reply; rewrite S; eauto|exfalso].
    assert (O1 : open_possible E i c <> None) by apply B0.
    assert (O2 : local_open_possible E i c <> None) by (unfold local_open_possible; destruct (_ && _); [apply B0|discriminate]).
    assert (O3 : invite_possible E i c <> None) by apply B0.
    assert (O4 : initial_possible E i c <> None) by (unfold initial_possible; destruct (cn_local c); [apply B0|discriminate]).
    unfold pairing_calls, join, mode in P.
    destruct (open_possible E i c) as [[|]|]; [| |congruence]; destruct (local_open_possible E i c) as [[|]|]; try congruence;
      destruct (invite_possible E i c) as [[|]|]; try congruence; destruct (initial_possible E i c) as [[|]|]; congruence.
  - intros A. rewrite (categories_eq _ _ _ _ _ A), B. unfold reply. rewrite S. eauto.
Qed.
Print Assumptions C95_accept.

(** The list of users is never told: whatever is answered with code 205 is not
    CBOR. *)
Theorem C95_users_refuted :
  (exists E d i c m p, check_access E i c "IAM:ListUsers" [] = Some true /\ users i <> [] /\ read E d i c ListUsers m = Content 205 p) /\
  forall E d i c m code p, read E d i c ListUsers m = Content code p -> decode p = None.
Proof.
  split.
  - exists ex_env, ex_info, ex_iam, ex_conn, ex_mem, []. split; [vm_compute; reflexivity|]. split; [discriminate|]. vm_compute. reflexivity.
  - intros E d i c m code p H. cbn [read] in H. unfold guarded in H. destruct (check_access E i c _ _) as [[|]|]; try discriminate H.
    rewrite (proj1 (strict_null _)), (proj2 (strict_null _)) in H. destruct (m_buf m); [|discriminate H].
    unfold reply in H. destruct (m_set m); [|discriminate H]. injection H as _ <-. reflexivity.
Qed.
Print Assumptions C95_users_refuted.

(** The list of roles is never told either. *)
Theorem C95_roles_refuted :
  (exists E d i c m, check_access E i c "IAM:ListRoles" [] = Some true /\ conf_roles (i_conf i) <> [] /\ m = mkmem true true true /\
     read E d i c ListRoles m = Error 500 (Some "Encoding error"%string)) /\
  forall E d i c m code p, read E d i c ListRoles m <> Content code p.
Proof.
  split.
  - exists ex_env, ex_info, ex_iam, ex_conn, ex_mem. split; [vm_compute; reflexivity|]. split; [discriminate|]. split; vm_compute; reflexivity.
  - intros E d i c m code p H. cbn [read] in H. unfold guarded in H. destruct (check_access E i c _ _) as [[|]|]; try discriminate H.
Qed.
Print Assumptions C95_roles_refuted.

(** With memory for the payload every request is answered; a request for one
    user, the roles or the notification categories is so without it too. *)
Theorem C95_answered_partial : forall E d i c r m,
  m_buf m = true \/ (exists n, r = GetUser n) \/ r = ListRoles \/ r = GetCategories -> read E d i c r m <> Silent.
Proof.
  intros E d i c r m B.
  assert (S : forall l n, m_buf m = true \/ n <> Silent -> send m l n <> Silent).
  { intros l n K. rewrite send_eq. unfold reply. destruct (m_buf m); [destruct (m_set m); discriminate|]. destruct K as [K|K]; [discriminate|exact K]. }
  destruct r; cbn [read]; unfold guarded, denied; try (destruct (check_access E i c _ _) as [[|]|]; try discriminate);
    try (assert (B1 : m_buf m = true) by (destruct B as [B|[[? B]|[B|B]]]; [exact B|discriminate B|discriminate B|discriminate B])).
  - destruct (resolve_user i c) as [[u|]|]; try discriminate. apply S. now left.
  - destruct (find_user (users i) (Some n)); [|discriminate]. apply S. right. discriminate.
  - rewrite B1. unfold reply. destruct (m_set m); discriminate.
  - apply S. now left.
  - destruct (pairing_calls E d i c); [|discriminate]. apply S. now left.
  - rewrite list_null. unfold extra. cbn [left need]. unfold enc_buf. rewrite tolerant_buf by lia. unfold reply, oom.
    destruct (m_buf m); [destruct (m_set m)|]; discriminate.
Qed.
Print Assumptions C95_answered_partial.

Theorem C95_alive : forall E d i c r m, resolve_user i c <> None -> read E d i c r m <> Crash.
Proof.
  intros E d i c r m R.
  assert (C : forall a x, check_access E i c a x <> None).
  { intros a x. unfold check_access. destruct (cn_fp c), (cn_virtual c); try discriminate; destruct (resolve_user i c) as [[u|]|]; congruence. }
  assert (G : forall a x k, k <> Crash -> guarded (check_access E i c a x) k <> Crash).
  { intros a x k K. specialize (C a x). unfold guarded, denied. destruct (check_access E i c a x) as [[|]|]; congruence. }
  assert (S : forall l n, n <> Crash -> send m l n <> Crash).
  { intros l n K. rewrite send_eq. unfold reply. destruct (m_buf m); [|exact K]. destruct (m_set m); discriminate. }
  destruct r; cbn [read]; try apply G.
  - destruct (resolve_user i c) as [[u|]|]; [apply S; discriminate|discriminate|congruence].
  - destruct (find_user (users i) (Some n)); [apply S|]; discriminate.
  - unfold reply. destruct (m_buf m); [|discriminate]. destruct (m_set m); discriminate.
  - discriminate.
  - apply S. discriminate.
  - assert (B0 : forall a b, both (check_access E i c a []) (Some b) <> None).
    { intros a b. specialize (C a []). unfold both. destruct (check_access E i c a []) as [[|]|]; congruence. }
    destruct (pairing_calls E d i c) as [l|] eqn:P; [apply S; discriminate|exfalso].
    assert (O1 : open_possible E i c <> None) by apply B0.
    assert (O2 : local_open_possible E i c <> None) by (unfold local_open_possible; destruct (_ && _); [apply B0|discriminate]).
    assert (O3 : invite_possible E i c <> None) by apply B0.
    assert (O4 : initial_possible E i c <> None) by (unfold initial_possible; destruct (cn_local c); [apply B0|discriminate]).
    unfold pairing_calls, join, mode in P.
    destruct (open_possible E i c) as [[|]|]; [| |congruence]; destruct (local_open_possible E i c) as [[|]|]; try congruence;
      destruct (invite_possible E i c) as [[|]|]; try congruence; destruct (initial_possible E i c) as [[|]|]; congruence.
  - rewrite list_null. unfold extra. cbn [left need]. unfold enc_buf. rewrite tolerant_buf by lia. unfold reply. destruct (m_buf m); [|discriminate]. destruct (m_set m); discriminate.
Qed.
Print Assumptions C95_alive.

(** Without it an allowed request may get no answer at all. *)
Theorem C95_answered_refuted : exists E d i c m,
  read E d i c GetMe m = Silent /\ read E d i c ListUsers m = Silent /\ read E d i c GetSettings m = Silent /\ read E d i c GetPairing m = Silent.
Proof. exists ex_env, ex_info, ex_iam, ex_conn, (mkmem true false true). vm_compute. repeat split; reflexivity. Qed.
Print Assumptions C95_answered_refuted.

(** ** Test notifications *)

Lemma fruns_app E a : forall s b, fruns E s (a ++ b) = let (s1, x) := fruns E s a in let (s2, y) := fruns E s1 b in (s2, x ++ y).
Proof.
  induction a as [|o a IH]; intros s b; cbn [fruns app]; [destruct (fruns E s b); reflexivity|].
  destruct (fstep E s o) as [s1 x]. rewrite IH. destruct (fruns E s1 a) as [s2 y]. destruct (fruns E s2 b) as [s3 z]. rewrite app_assoc. reflexivity.
Qed.

Lemma sent_step E s o p t : In (Sent p t) (snd (fstep E s o)) -> exists i c n m u k, o = FRequest i c n m /\
  check_access E i c "IAM:SendUserFcmTest" (if f_ins m then [("IAM:Username"%string, n)] else []) = Some true /\
  find_user (users i) (Some n) = Some u /\ u_fcm_token u = Some k /\ u_fcm_project u = Some p /\ t = (noti1 ++ k ++ noti2)%string.
Proof.
  destruct s, o as [i c n m|r al sp]; cbn [fstep snd]; try (intros []).
  - unfold fcm_request. destruct (check_access E i c _ _) as [[|]|] eqn:A; cbn [snd In]; [|intuition discriminate|intuition discriminate].
    destruct (find_user (users i) (Some n)) as [u|] eqn:F; [|cbn; intuition discriminate].
    destruct (u_fcm_token u) as [k|] eqn:T, (u_fcm_project u) as [q|] eqn:Q; try (cbn; intuition discriminate).
    destruct (_ && _); cbn [snd In]; [|intuition discriminate]. intros [H|[]]. injection H as <- <-. exists i, c, n, m, u, k. auto 10.
  - unfold fcm_resolved. destruct r as [s b|]; [|cbn; intuition discriminate]. destruct al; cbn [negb snd In]; [|intuition discriminate].
    destruct sp; intuition discriminate.
Qed.

Lemma sent_run E l : forall s p t, In (Sent p t) (snd (fruns E s l)) -> exists s0 o, In o l /\ In (Sent p t) (snd (fstep E s0 o)).
Proof.
  induction l as [|o l IH]; intros s p t H; [destruct H|]. cbn [fruns] in H. destruct (fstep E s o) as [s1 x] eqn:S. destruct (fruns E s1 l) as [s2 y] eqn:R.
  cbn [snd] in H. apply in_app_iff in H as [H|H].
  - exists s, o. split; [left; reflexivity|]. rewrite S. exact H.
  - specialize (IH s1 p t). rewrite R in IH. destruct (IH H) as (s0 & o0 & A & B). exists s0, o0. split; [right; exact A|exact B].
Qed.

Lemma skip_app a s : skip a (a ++ s)%string = Some s.
Proof. induction a as [|x a IH]; cbn; [reflexivity|]. rewrite Ascii.eqb_refl. exact IH. Qed.

Lemma json_plain t : plain t -> forall r, json_string (t ++ String """" r)%string = Some (t, r).
Proof.
  unfold plain. induction t as [|x t IH]; intros P r; [reflexivity|]. cbn [list_ascii_of_string] in P. inversion P as [|? ? [P1 [P2 P3]] P']; subst.
  cbn [String.append json_string]. destruct (Ascii.eqb_spec x """"); [congruence|]. destruct (Ascii.eqb_spec x "\"); [congruence|].
  destruct (N.ltb_spec (N_of_ascii x) 32); [lia|]. cbn [orb]. rewrite (IH P'). reflexivity.
Qed.

(** A notification is sent only when a client which is allowed to asks for it,
    for the token and project of that user, and says what it should when the
    token has no special characters. *)
Theorem C95_fcm_partial : forall E l p t, Forall ins_fine l -> In (Sent p t) (snd (fruns E FIdle l)) ->
  exists i c n m u k, In (FRequest i c n m) l /\ check_access E i c "IAM:SendUserFcmTest" [("IAM:Username"%string, n)] = Some true /\
    In u (users i) /\ u_name u = n /\ u_fcm_token u = Some k /\ u_fcm_project u = Some p /\ (plain k -> MessageFor k t).
Proof.
  intros E l p t F H. apply sent_run in H as (s0 & o & I & H). apply sent_step in H as (i & c & n & m & u & k & -> & A & U & T & P & ->).
  rewrite Forall_forall in F. specialize (F _ I). cbn in F. rewrite F in A.
  cbn in U. apply find_some in U as [U1 U2]. apply String.eqb_eq in U2.
  exists i, c, n, m, u, k. repeat (split; [assumption|]). intros PL. exists (k ++ noti2)%string. split; [apply skip_app|].
  apply (json_plain k PL " } }").
Qed.
Print Assumptions C95_fcm_partial.

Definition ex_fmem : fmem := mkfmem true true true true true true true.
Example C95_ex_fcm : exists t, snd (fruns ex_env FIdle [FRequest ex_iam ex_conn "ann" ex_fmem; FResolved (FOk 200 "ok") true true]) =
  [Sent "proj" t; Replied (bytes (VMap [("StatusCode", VUint 200); ("Body", VText "ok")]))%string; Freed] /\ MessageFor "fcmtok" t.
Proof. eexists. split; [vm_compute; reflexivity|]. eexists. split; vm_compute; reflexivity. Qed.

(** The token goes into the message as it is: what a user stores as its token
    may change the message. *)
Theorem C95_fcm_message_refuted : exists E l p t i c n m u k, l = [FRequest i c n m] /\ In (Sent p t) (snd (fruns E FIdle l)) /\
  find_user (users i) (Some n) = Some u /\ u_fcm_token u = Some k /\
  exists r k' rest, skip noti1 t = Some r /\ json_string r = Some (k', rest) /\ k' <> k /\ rest <> " } }"%string.
Proof.
  exists ex_env. eexists _, _, _, ex_iam, ex_conn, "boss"%string, ex_fmem, ex_boss, _. split; [reflexivity|].
  split; [vm_compute; left; reflexivity|]. split; [vm_compute; reflexivity|]. split; [reflexivity|].
  eexists _, _, _. split; [vm_compute; reflexivity|]. split; [vm_compute; reflexivity|]. split; discriminate.
Qed.
Print Assumptions C95_fcm_message_refuted.

(** The client is told the answer of the service. *)
Theorem C95_fcm_reply : forall E l p, In (Replied p) (snd (fruns E FIdle l)) -> exists s b sp, In (FResolved (FOk s b) true sp) l /\
  (s < 2 ^ 64 -> len p < 2 ^ 64 -> decode p = Some (VMap [("StatusCode", VUint s); ("Body", VText b)]%string)).
Proof.
  intros E l p. generalize FIdle. induction l as [|o l IH]; intros s H; [destruct H|]. cbn [fruns] in H.
  destruct (fstep E s o) as [s1 x] eqn:S. destruct (fruns E s1 l) as [s2 y] eqn:R. cbn [snd] in H. apply in_app_iff in H as [H|H].
  - destruct s, o as [i c n m|r al sp]; cbn [fstep] in S; try (injection S as <- <-; destruct H).
    + unfold fcm_request in S. destruct (check_access E i c _ _) as [[|]|]; [|injection S as <- <-; cbn in H; intuition discriminate|injection S as <- <-; cbn in H; intuition discriminate].
      destruct (find_user (users i) (Some n)) as [u|]; [|injection S as <- <-; cbn in H; intuition discriminate].
      destruct (u_fcm_token u), (u_fcm_project u); try (injection S as <- <-; cbn in H; intuition discriminate).
      destruct (_ && _); injection S as <- <-; cbn in H; intuition discriminate.
    + unfold fcm_resolved in S. destruct r as [st b|]; [|injection S as <- <-; cbn in H; intuition discriminate].
      destruct al; cbn [negb] in S; [|injection S as <- <-; cbn in H; intuition discriminate].
      destruct sp; [|injection S as <- <-; cbn in H; intuition discriminate]. rewrite size, payload in S. remember (flat (fcm_calls st b)) as q eqn:Q. injection S as <- <-.
      destruct H as [H|[H|[]]]; [|discriminate H]. injection H as <-. exists st, b, true. split; [left; reflexivity|].
      intros Z L. change (q = bytes (VMap [("StatusCode", VUint st); ("Body", VText b)]%string)) in Q.
      rewrite Q in L |- *. apply decode_bytes; [cbn; tauto|exact L].
  - specialize (IH s1). rewrite R in IH. destruct (IH H) as (st & b & sp & A & B). exists st, b, sp. split; [right; exact A|exact B].
Qed.
Print Assumptions C95_fcm_reply.

Lemma fcm_count_step E s o : fst (fstep E s o) <> FDead -> let x := snd (fstep E s o) in
  fcount is_answer x = fcount is_freed x /\
  (fcount is_answer x + waiting (fst (fstep E s o)) = waiting s + match s, o with FIdle, FRequest _ _ _ _ => 1 | _, _ => 0 end)%nat.
Proof.
  assert (Z : forall (x : fstate * list fout) k, (fst x = FDead \/ (fcount is_answer (snd x) = fcount is_freed (snd x) /\ (fcount is_answer (snd x) + waiting (fst x) = k)%nat)) ->
    fst x <> FDead -> fcount is_answer (snd x) = fcount is_freed (snd x) /\ (fcount is_answer (snd x) + waiting (fst x) = k)%nat) by (intros x k [H|H] D; [congruence|exact H]).
  intros D. apply Z; [|exact D]. clear Z D.
  destruct s, o as [i c n m|r al sp]; cbn [fstep]; try (right; split; reflexivity).
  - unfold fcm_request. destruct (check_access E i c _ _) as [[|]|]; [|right; split; reflexivity|left; reflexivity].
    destruct (find_user (users i) (Some n)) as [u|]; [|right; split; reflexivity]. destruct (u_fcm_token u), (u_fcm_project u); try (right; split; reflexivity).
    destruct (_ && _); right; split; reflexivity.
  - unfold fcm_resolved. destruct r as [st b|]; [|left; reflexivity]. destruct al; [|left; reflexivity]. destruct sp; right; split; reflexivity.
Qed.

Lemma dead_stays E l : fruns E FDead l = (FDead, []).
Proof. induction l as [|o l IH]; [reflexivity|]. cbn [fruns fstep]. destruct o; cbn; rewrite IH; reflexivity. Qed.

Lemma fcount_app p a b : fcount p (a ++ b) = (fcount p a + fcount p b)%nat.
Proof. unfold fcount. rewrite filter_app, app_length. reflexivity. Qed.

(** While the handler is alive every request it took has been answered and freed
    exactly once, but for one whose notification is being sent. *)
Theorem C95_fcm_once_partial : forall E l, fst (fruns E FIdle l) <> FDead ->
  let o := snd (fruns E FIdle l) in
  fcount is_answer o = fcount is_freed o /\ (fcount is_answer o + waiting (fst (fruns E FIdle l)) = taken E FIdle l)%nat.
Proof.
  intros E l. assert (G : forall s, fst (fruns E s l) <> FDead -> fcount is_answer (snd (fruns E s l)) = fcount is_freed (snd (fruns E s l)) /\
    (fcount is_answer (snd (fruns E s l)) + waiting (fst (fruns E s l)) = waiting s + taken E s l)%nat).
  { induction l as [|o l IH]; intros s D; [cbn; lia|]. cbn [fruns taken] in *.
    pose proof (fcm_count_step E s o) as C. destruct (fstep E s o) as [s1 x] eqn:S. cbn [fst snd] in *.
    destruct (fruns E s1 l) as [s2 y] eqn:R. cbn [fst snd] in *.
    assert (N1 : s1 <> FDead) by (intros ->; rewrite dead_stays in R; injection R as <- <-; congruence).
    destruct (C N1) as [C1 C2]. specialize (IH s1). rewrite R in IH. destruct (IH D) as [I1 I2]. cbn [fst snd] in *. rewrite !fcount_app. lia. }
  intros D. destruct (G FIdle D) as [A B]. split; [exact A|exact B].
Qed.
Print Assumptions C95_fcm_once_partial.

(** It stays alive while notifications reach the basestation, there is memory and
    no connection is used whose user was removed. *)
Theorem C95_fcm_alive_partial : forall E l, Forall fcm_fine l -> Forall (users_alive E) l ->
  fst (fruns E FIdle l) <> FDead /\ ~ In UseAfterFree (snd (fruns E FIdle l)).
Proof.
  intros E l F U. assert (G : forall s, s <> FDead -> fst (fruns E s l) <> FDead /\ ~ In UseAfterFree (snd (fruns E s l))).
  { induction l as [|o l IH]; intros s D; [split; [exact D|intros []]|]. inversion F; subst. inversion U; subst.
    assert (S : fst (fstep E s o) <> FDead /\ ~ In UseAfterFree (snd (fstep E s o))).
    { destruct s, o as [i c n m|r al sp]; try congruence; cbn [fstep fst snd]; try (split; [discriminate|intros []]).
      - cbn in *. assert (C : forall a x, check_access E i c a x <> None).
        { intros a x. unfold check_access. destruct (cn_fp c), (cn_virtual c); try discriminate; destruct (resolve_user i c) as [[u|]|]; congruence. }
        unfold fcm_request. specialize (C "IAM:SendUserFcmTest"%string (if f_ins m then [("IAM:Username"%string, n)] else [])).
        destruct (check_access E i c _ _) as [[|]|]; [|split; [discriminate|cbn; intuition discriminate]|congruence].
        destruct (find_user (users i) (Some n)) as [u|]; [|split; [discriminate|cbn; intuition discriminate]].
        destruct (u_fcm_token u), (u_fcm_project u); try (split; [discriminate|cbn; intuition discriminate]).
        destruct (_ && _); (split; [discriminate|cbn; intuition discriminate]).
      - cbn in *. unfold fcm_resolved. destruct r as [st b|]; [|destruct H1; congruence]. destruct H1 as [_ ->]. cbn [negb].
        split; [discriminate|]. destruct sp; cbn; intuition discriminate. }
    cbn [fruns]. destruct (fstep E s o) as [s1 x]. cbn [fst snd] in S. destruct S as [S1 S2]. specialize (IH H2 H4 s1 S1).
    destruct (fruns E s1 l) as [s2 y]. cbn [fst snd] in *. destruct IH as [I1 I2]. split; [exact I1|]. rewrite in_app_iff. tauto. }
  apply G. discriminate.
Qed.
Print Assumptions C95_fcm_alive_partial.

(** A notification which could not be delivered: memory is used after it was freed. *)
Theorem C95_fcm_failed_refuted : exists E l, Forall (users_alive E) l /\ In (FResolved FFailed true true) l /\
  fst (fruns E FIdle l) = FDead /\ In UseAfterFree (snd (fruns E FIdle l)).
Proof.
  exists ex_env, [FRequest ex_iam ex_conn "ann" ex_fmem; FResolved FFailed true true].
  split; [repeat constructor; vm_compute; discriminate|]. split; [right; left; reflexivity|]. split; [vm_compute; reflexivity|].
  vm_compute. right. right. left. reflexivity.
Qed.
Print Assumptions C95_fcm_failed_refuted.
