(** Properties C06-C10, C12, C14-C18 and C62-C64: the IAM module's users, pairing
    and access checks. *)
From Coq Require Import String Ascii List Bool Arith NArith.
From Verif Require Import IamPolicyModel IamPolicySpec IamStateModel IamStateSpec IamStateProofs IamStateInv IamStateFrame IamStateReload.
Import ListNotations.
Open Scope string_scope.

(** Concrete values used by the examples. *)
Definition ex_all (actions : list string) :=
  {| p_id := "all"; p_stmts := [{| s_effect := Allow; s_actions := actions; s_conds := [] |}] |}.
Definition ex_conf := {| conf_roles := [{| r_id := "admin"; r_policies := ["all"] |}];
  conf_policies := [ex_all ["IAM:CreateUser"; "IAM:DeleteUser"; "IAM:SetUserFingerprint"; "IAM:SetUserPassword"; "IAM:SetUserSct";
                            "IAM:PairingLocalInitial"; "IAM:PairingLocalOpen"; "IAM:PairingPasswordOpen"; "IAM:PairingPasswordInvite"]];
  conf_unpaired := Some "admin" |}.
Definition ex_env := {| e_num := nolib; e_overwrite := false |}.
Definition ex_x := {| x_sct := Some "token0"; x_add := fun _ => true; x_mdns := true |}.
Definition ex_fail := {| x_sct := Some "token0"; x_add := fun _ => false; x_mdns := true |}.
Definition fp_a := "aaaaaaaaaaaaaaaaaaaaaaaaaaaaaaaaaaaaaaaaaaaaaaaaaaaaaaaaaaaaaaaa".
Definition fp_b := "bbbbbbbbbbbbbbbbbbbbbbbbbbbbbbbbbbbbbbbbbbbbbbbbbbbbbbbbbbbbbbbb".
Definition conn_a := {| cn_ref := 7; cn_virtual := false; cn_fp := Some fp_a; cn_local := true; cn_pwauth := false; cn_pwname := None |}.
Definition conn_pw (n : string) := {| cn_ref := 8; cn_virtual := false; cn_fp := Some fp_b; cn_local := false; cn_pwauth := true; cn_pwname := Some n |}.
Definition api_op (a : api) : ext * op := (ex_x, OpApi a).
Definition coap_op (c : conn) (r : request) : ext * op := (ex_x, OpCoap c r).
Definition open_state := {| st_pw_open_password := Some "secret"; st_pw_open_sct := None; st_pw_open := true;
  st_local_open := true; st_pw_invite := true; st_local_initial := true; st_open_role := Some "admin";
  st_initial_user := Some "owner"; st_friendly := None; st_users := [] |}.
Definition setup : list (ext * op) := [(ex_x, OpLoadConf ex_conf); (ex_x, OpLoadState open_state)].
Definition after (l : list (ext * op)) : iam := match run ex_env iam_init (setup ++ l) with Some i => i | None => iam_init end.

(** ** C06 *)
Theorem C06_access_uses_identity : forall E i c action m b, no_reserved m -> check_access E i c action m = Some b ->
  (cn_fp c = None /\ cn_virtual c = false /\ b = false) \/
  ((cn_fp c <> None \/ cn_virtual c = true) /\
   exists who m', identity i c who /\ sees c who m m' /\
   (b = true <-> exists n r, role_name i who = Some n /\ names_role (i_conf i) n r /\
                             grants (e_num E) (i_conf i) r action m')).
Proof. exact access_identity. Qed.
Print Assumptions C06_access_uses_identity.

Theorem C06_identity_unique : forall E ops i c a b, run E iam_init ops = Some i ->
  identity i c a -> identity i c b -> a = b.
Proof. intros E ops i c a b Hr Ha Hb. exact (identity_functional Ha Hb (ids_always Hr)). Qed.
Print Assumptions C06_identity_unique.

Example C06_ex_unpaired : check_access ex_env (after []) conn_a "IAM:CreateUser" [] = Some true.
Proof. vm_compute. reflexivity. Qed.
Example C06_ex_paired_without_role :
  check_access ex_env (after [api_op (ApCreateUser (Some "bob")); api_op (ApSetFp (Some "bob") (Some fp_a))]) conn_a "IAM:CreateUser" [] = Some false.
Proof. vm_compute. reflexivity. Qed.

(** ** C07 *)
Theorem C07_usernames_valid_and_unique : forall E l i,
  along E loads_ok iam_init l -> run E iam_init l = Some i -> names_ok (users i).
Proof. exact names_always. Qed.
Print Assumptions C07_usernames_valid_and_unique.

Example C07_ex : map u_name (users (after [api_op (ApCreateUser (Some "bob")); api_op (ApCreateUser (Some "Bob"));
   api_op (ApCreateUser (Some "bob")); coap_op conn_a (RqCreateUser (PlOk (CbStr "al.ice")))])) = ["bob"; "al.ice"].
Proof. vm_compute. reflexivity. Qed.

(** ** C08 *)
Theorem C08_fingerprint_unique_refuted : exists E l i,
  (forall o, In o l -> match snd o with OpLoadState s => ~ shared_fp (st_users s) | _ => True end) /\
  run E iam_init l = Some i /\ shared_fp (users i).
Proof.
  exists ex_env, [api_op (ApCreateUser (Some "bob")); api_op (ApCreateUser (Some "alice"));
                  api_op (ApSetFp (Some "bob") (Some fp_a)); api_op (ApAddFp (Some "alice") (Some fp_a) (Some "phone"))].
  eexists. split; [|split; [(vm_compute; reflexivity)|]].
  - intros o [<-|[<-|[<-|[<-|[]]]]]; exact I.
  - eexists [], _, [], _, [], fp_a. split; [(vm_compute; reflexivity)|]. split; left; (vm_compute; reflexivity).
Qed.
Print Assumptions C08_fingerprint_unique_refuted.

Theorem C08_fingerprint_unique_partial : forall E l i,
  along E fp_checked iam_init l -> run E iam_init l = Some i -> ~ shared_fp (users i).
Proof. exact fp_always. Qed.
Print Assumptions C08_fingerprint_unique_partial.

(** The meaning of [shared_fp] by positions. *)
Theorem C08_shared_means : forall us, shared_fp us <->
  exists i j u v f, i < j /\ nth_error us i = Some u /\ nth_error us j = Some v /\ owns f u /\ owns f v.
Proof. exact shared_iff. Qed.
Print Assumptions C08_shared_means.

Example C08_ex_refused : map (fun u => map fp_val (u_fps u)) (users (after
  [api_op (ApCreateUser (Some "bob")); api_op (ApSetFp (Some "bob") (Some fp_a));
   coap_op conn_a (RqPairLocalOpen (PlOk (CbStr "eve", CbNull)))])) = [[fp_a]].
Proof. vm_compute. reflexivity. Qed.

(** ** C09 *)
Theorem C09_user_limit_refuted : exists E l i, along E keeps_limit (set_limits {| l_username := 64; l_display := 64; l_pw_min := 4; l_pw_max := 64;
    l_fcm_token := 1024; l_fcm_project := 256; l_oauth := 64; l_sct := 64; l_friendly := 64; l_max_users := 0 |} iam_init) l /\
  run E (set_limits {| l_username := 64; l_display := 64; l_pw_min := 4; l_pw_max := 64;
    l_fcm_token := 1024; l_fcm_project := 256; l_oauth := 64; l_sct := 64; l_friendly := 64; l_max_users := 0 |} iam_init) l = Some i /\
  (user_count i > l_max_users (i_lim i))%N.
Proof.
  exists ex_env, (setup ++ [coap_op conn_a (RqPairLocalOpen (PlOk (CbStr "eve", CbNull)))])%list. eexists. split; [|split; [(vm_compute; reflexivity)|(vm_compute; reflexivity)]].
  simpl. repeat (split; [exact I|]; intros ? _). exact I.
Qed.
Print Assumptions C09_user_limit_refuted.

Theorem C09_user_limit_partial : forall E l i i', (user_count i <= l_max_users (i_lim i))%N -> along E room_to_pair i l ->
  run E i l = Some i' -> (user_count i' <= l_max_users (i_lim i))%N.
Proof. exact count_always. Qed.
Print Assumptions C09_user_limit_partial.

(** ** C10 *)
Theorem C10_success_effect_refuted : exists x i a i',
  run_api x i a = Done i' EOk /\ ~ api_effect a (i_state i) (i_state i').
Proof.
  exists ex_fail, iam_init, (ApCreateUser (Some "bob")). eexists. split; [(vm_compute; reflexivity)|].
  intros (n & u & _ & _ & H & _). discriminate.
Qed.
Print Assumptions C10_success_effect_refuted.

Theorem C10_failed_call_changes_nothing : forall x i a i' e,
  run_api x i a = Done i' e -> e <> EOk -> observable i' = observable i.
Proof. exact api_error_frame. Qed.
Print Assumptions C10_failed_call_changes_nothing.

Theorem C10_failed_request_changes_nothing : forall E x c i r i' code,
  coap E x c i r = Resp i' code -> (code >= 400)%N -> observable i' = observable i.
Proof. exact coap_error_frame. Qed.
Print Assumptions C10_failed_request_changes_nothing.

Theorem C10_success_effect_partial : forall x i a i', run_api x i a = Done i' EOk ->
  (forall t, x_add x t = true) -> api_effect a (i_state i) (i_state i').
Proof. exact api_ok_effect. Qed.
Print Assumptions C10_success_effect_partial.

Theorem C10_success_validated : forall x i a i', run_api x i a = Done i' EOk -> api_validated i a.
Proof. exact api_ok_validated. Qed.
Print Assumptions C10_success_validated.

Theorem C10_request_effect : forall E x c i r i' code, coap E x c i r = Resp i' code -> i_state i' <> i_state i ->
  coap_effect r (i_state i) (i_state i') /\ (200 <= code < 300)%N.
Proof. exact coap_ok_effect. Qed.
Print Assumptions C10_request_effect.

Theorem C10_request_success_acts : forall E x c i r i' code, coap E x c i r = Resp i' code -> (code < 400)%N ->
  may_be_idle r = false -> coap_effect r (i_state i) (i_state i').
Proof. exact coap_success_changes. Qed.
Print Assumptions C10_request_success_acts.

Example C10_ex_success : exists i', run_api ex_x (after [api_op (ApCreateUser (Some "bob"))]) (ApSetPassword (Some "bob") (Some "pass")) = Done i' EOk.
Proof. eexists. vm_compute. reflexivity. Qed.
Example C10_ex_failure : exists i', run_api ex_x (after [api_op (ApCreateUser (Some "bob"))]) (ApSetPassword (Some "bob") (Some "x")) = Done i' EInvalidArg.
Proof. eexists. vm_compute. reflexivity. Qed.

(** ** C12 *)
Theorem C12_reload_refuted : exists E l cats lim x,
  let i0 := set_categories cats (set_limits lim iam_init) in
  exists i, run E i0 l = Some i /\ ext_ok x /\ snd (load_state x (restarted i) (i_state i)) = false.
Proof.
  exists ex_env, (setup ++ [api_op (ApCreateUser (Some "bob")); coap_op conn_a (RqAddFp "bob" "not-a-fingerprint" (PlOk CbNull))])%list,
    [], default_limits, ex_x.
  simpl. eexists. split; [(vm_compute; reflexivity)|]. split; [split; (vm_compute; reflexivity)|(vm_compute; reflexivity)].
Qed.
Print Assumptions C12_reload_refuted.

Theorem C12_reload_partial : forall E lim cats ops i x, let i0 := set_categories cats (set_limits lim iam_init) in
  along E reload_safe i0 ops -> run E i0 ops = Some i -> ext_ok x ->
  exists i2, load_state x (restarted i) (i_state i) = (i2, true) /\ same_state (i_state i) (i_state i2).
Proof. exact reload_always. Qed.
Print Assumptions C12_reload_partial.

Example C12_ex : exists i, run ex_env (set_categories [] (set_limits default_limits iam_init))
   (setup ++ [api_op (ApCreateUser (Some "bob")); coap_op conn_a (RqAddFp "bob" fp_a (PlOk (CbStr "phone")));
              coap_op (conn_pw "") (RqPairPasswordOpen (PlOk (CbBad, CbStr "eve", CbNull)))])%list = Some i
   /\ length (users i) = 2.
Proof. eexists. split; (vm_compute; reflexivity). Qed.

(** ** C14 *)
Theorem C14_announced_refuted : exists x i a i',
  run_api x i a = Done i' EOk /\ i_state i' <> i_state i /\ i_callbacks i' = i_callbacks i.
Proof.
  exists ex_x, iam_init, (ApCreateUser (Some "bob")). eexists. split; [(vm_compute; reflexivity)|]. split; [(vm_compute; discriminate)|(vm_compute; reflexivity)].
Qed.
Print Assumptions C14_announced_refuted.

Theorem C14_requests_announced : forall E x c i r i' code, coap E x c i r = Resp i' code -> i_state i' <> i_state i ->
  i_callbacks i' = S (i_callbacks i) /\ i_changed i' = false.
Proof. exact coap_announces. Qed.
Print Assumptions C14_requests_announced.

Theorem C14_pairing_modes_announced : forall x i m b i' e, run_api x i (ApSetMode m b) = Done i' e ->
  i_callbacks i' = S (i_callbacks i) /\ i_changed i' = false.
Proof. exact mode_announces. Qed.
Print Assumptions C14_pairing_modes_announced.

(** What the code does instead: the change is announced with the next request. *)
Theorem C14_api_announced_later_partial : forall x i a i' e, run_api x i a = Done i' e -> i_state i' <> i_state i ->
  i_callbacks i' = S (i_callbacks i) \/
  forall E y c r i2 code, coap E y c i' r = Resp i2 code -> i_callbacks i2 = S (i_callbacks i').
Proof.
  intros x i a i' e H Hs. destruct (api_records H Hs) as [Hc|Hc]; [right|now left].
  intros E y c r i2 code Hr. now destruct (next_request_announces Hr Hc).
Qed.
Print Assumptions C14_api_announced_later_partial.

Theorem C14_failures_silent : forall E x c i r i' code, coap E x c i r = Resp i' code -> i_changed i = false ->
  (code >= 400)%N -> i_callbacks i' = i_callbacks i.
Proof. exact coap_silent. Qed.
Print Assumptions C14_failures_silent.

Example C14_ex : exists i', coap ex_env ex_x conn_a (after []) (RqPairLocalOpen (PlOk (CbStr "eve", CbNull))) = Resp i' 201
  /\ i_state i' <> i_state (after []) /\ i_callbacks i' = 1.
Proof. eexists. split; [(vm_compute; reflexivity)|]. split; [(vm_compute; discriminate)|(vm_compute; reflexivity)]. Qed.

(** ** C15 *)
Theorem C15_open_password_refuted : exists E x c i p i',
  coap E x c i (RqPairPasswordOpen p) = Resp i' 201 /\ i_state i' <> i_state i /\ ~ open_login c.
Proof.
  exists ex_env, ex_x, (conn_pw "bob"), (after [api_op (ApCreateUser (Some "bob")); api_op (ApSetRole (Some "bob") (Some "admin"));
    api_op (ApSetPassword (Some "bob") (Some "hunter2"))]), (PlOk (CbBad, CbStr "eve", CbNull)).
  eexists. split; [(vm_compute; reflexivity)|]. split; [(vm_compute; discriminate)|]. intros [_ H]. discriminate H.
Qed.
Print Assumptions C15_open_password_refuted.

Theorem C15_pairing_guards_partial : forall E x c i r i' code, coap E x c i r = Resp i' code ->
  i_state i' <> i_state i -> pairing_ok E c i i' r.
Proof. exact pairing_guarded. Qed.
Print Assumptions C15_pairing_guards_partial.

Theorem C15_initial_once : forall E l i, Forall (fun a => is_pairing (snd a) = true) l -> initial_pairings E i l <= 1.
Proof. exact initial_at_most_once. Qed.
Print Assumptions C15_initial_once.

Theorem C15_invite_single_use : forall E x c i p i' code, coap E x c i (RqPairPasswordInvite p) = Resp i' code ->
  i_state i' <> i_state i -> exists n, cn_pwname c = Some n /\ (n <> "" -> pake_password i' (Some n) = None).
Proof. exact invite_single_use. Qed.
Print Assumptions C15_invite_single_use.

Definition owner := [api_op (ApCreateUser (Some "owner")); api_op (ApSetRole (Some "owner") (Some "admin")); api_op (ApSetPassword (Some "owner") (Some "hunter2"))].
Example C15_ex_initial : initial_pairings ex_env (after owner)
  [(ex_x, conn_a, RqPairLocalInitial (PlOk CbNull)); (ex_x, conn_a, RqPairLocalInitial (PlOk CbNull))] = 1.
Proof. vm_compute. reflexivity. Qed.
Example C15_ex_invite : exists i', coap ex_env ex_x (conn_pw "owner") (after owner) (RqPairPasswordInvite (PlOk CbNull)) = Resp i' 201
  /\ i_state i' <> i_state (after owner).
Proof. eexists. split; [vm_compute; reflexivity|vm_compute; discriminate]. Qed.
Example C15_ex_disabled : exists i', coap ex_env ex_x conn_a (after [api_op (ApSetMode PmLocalOpen false)])
   (RqPairLocalOpen (PlOk (CbStr "eve", CbNull))) = Resp i' 404.
Proof. eexists. vm_compute. reflexivity. Qed.

(** ** C16 *)
Theorem C16_changes_need_permission : forall E x c i r i' code, coap E x c i r = Resp i' code ->
  observable i' <> observable i -> check_access E i c (fst (required r)) (snd (required r)) = Some true.
Proof. exact coap_permission. Qed.
Print Assumptions C16_changes_need_permission.

Theorem C16_only_the_named_user : forall E x c i r i' code n, coap E x c i r = Resp i' code -> i_state i' <> i_state i ->
  target r = Some n -> only_user n (i_state i) (i_state i').
Proof. exact coap_target. Qed.
Print Assumptions C16_only_the_named_user.

Example C16_ex_allowed : exists i', coap ex_env ex_x conn_a (after owner) (RqSetPassword "owner" (PlOk (CbStr "other"))) = Resp i' 204
  /\ i_state i' <> i_state (after owner).
Proof. eexists. split; [vm_compute; reflexivity|vm_compute; discriminate]. Qed.
Example C16_ex_denied : exists i', coap ex_env ex_x conn_a (after owner) (RqSetRole "owner" (PlOk (CbStr "admin"))) = Resp i' 403.
Proof. eexists. vm_compute. reflexivity. Qed.

(** ** C17 *)
Theorem C17_freed_user_refuted : exists E l i c action m, run E iam_init l = Some i /\ check_access E i c action m = None.
Proof.
  exists ex_env, [api_op (ApCreateUser (Some "bob")); api_op (ApAuthorize 7 (Some "bob")); api_op (ApDeleteUser (Some "bob"))].
  eexists. exists conn_a, "a", []. split; (vm_compute; reflexivity).
Qed.
Print Assumptions C17_freed_user_refuted.

Theorem C17_freed_user_partial : forall E ops i c action m, along E removal_safe iam_init ops -> run E iam_init ops = Some i ->
  check_access E i c action m <> None.
Proof. exact no_dangling. Qed.
Print Assumptions C17_freed_user_partial.

Example C17_ex : check_access ex_env (after [api_op (ApCreateUser (Some "bob")); api_op (ApSetRole (Some "bob") (Some "admin"));
   api_op (ApAuthorize 7 (Some "bob"))]) conn_a "IAM:CreateUser" [] = Some true.
Proof. vm_compute. reflexivity. Qed.

(** ** C18 *)
Theorem C18_closed_connection_refuted : exists E l i r, run E iam_init l = Some i /\ exists id, In (r, id) (i_auth (conn_closed i r)).
Proof.
  exists ex_env, [api_op (ApCreateUser (Some "bob")); api_op (ApAuthorize 7 (Some "bob")); api_op (ApAuthorize 7 (Some "bob"))].
  eexists. exists 7. split; [(vm_compute; reflexivity)|]. exists 0. left. (vm_compute; reflexivity).
Qed.
Print Assumptions C18_closed_connection_refuted.

Theorem C18_closed_connection_partial : forall E ops i r, along E authorize_once iam_init ops -> run E iam_init ops = Some i ->
  forall id, ~ In (r, id) (i_auth (conn_closed i r)).
Proof. exact closed_clean. Qed.
Print Assumptions C18_closed_connection_partial.

Theorem C18_no_entry_no_identity : forall i c, (forall id, ~ In (cn_ref c, id) (i_auth i)) -> no_fp_user i c -> no_pw_user i c ->
  forall who, identity i c who -> who = None.
Proof.
  intros i c Ha Hf Hp who H. destruct H as [f u E1 (pre & post & E2 & Ho & _)|n u _ E1 E2 (pre & post & E3 & Ho & _)|u _ _ (pre & post & E3 & _) _|]; auto; exfalso.
  - pose proof (Hf f E1) as HF. rewrite Forall_forall in HF. apply (HF u); auto. rewrite E2. apply in_app_iff. right. now left.
  - pose proof (Hp n E1 E2) as HF. rewrite Forall_forall in HF. apply (HF u); auto. rewrite E3. apply in_app_iff. right. now left.
  - apply (Ha (u_id u)). rewrite E3. apply in_app_iff. right. now left.
Qed.
Print Assumptions C18_no_entry_no_identity.

Theorem C18_no_client_denied : forall E i c action m, cn_fp c = None -> cn_virtual c = false ->
  check_access E i c action m = Some false.
Proof. exact gone_denied. Qed.
Print Assumptions C18_no_client_denied.

Example C18_ex : i_auth (after [api_op (ApCreateUser (Some "bob")); api_op (ApAuthorize 7 (Some "bob"))]) = [(7, 0)]
  /\ i_auth (after [api_op (ApCreateUser (Some "bob")); api_op (ApAuthorize 7 (Some "bob")); (ex_x, OpClosed 7)]) = [].
Proof. split; (vm_compute; reflexivity). Qed.

(** ** C62 *)
Theorem C62_tokens_registered_refuted : exists E l i u t, run E iam_init l = Some i /\ In u (users i) /\ u_sct u = Some t /\
  ~ In t (i_tokens i).
Proof.
  exists ex_env, [api_op (ApCreateUser (Some "bob")); api_op (ApSetSct (Some "bob") (Some "mytoken"))].
  eexists. eexists. eexists. split; [(vm_compute; reflexivity)|]. split; [left; (vm_compute; reflexivity)|]. split; [(vm_compute; reflexivity)|].
  simpl. intros [H|[]]. discriminate.
Qed.
Print Assumptions C62_tokens_registered_refuted.

Theorem C62_tokens_registered_partial : forall E ops i u t, along E tokens_registered iam_init ops -> run E iam_init ops = Some i ->
  In u (users i) -> u_sct u = Some t -> In t (i_tokens i).
Proof. exact tokens_always. Qed.
Print Assumptions C62_tokens_registered_partial.

Example C62_ex : i_tokens (after [api_op (ApCreateUser (Some "bob")); coap_op conn_a (RqSetSct "bob" (PlOk (CbStr "mytoken")))]) = ["mytoken"; "token0"].
Proof. vm_compute. reflexivity. Qed.

(** ** C63 *)
Theorem C63_optional_name_refuted : exists x i n f, find_user (users i) (Some n) <> None /\
  run_api x i (ApAddFp (Some n) (Some f) None) = Undefined.
Proof. exists ex_x, (after owner), "owner", fp_a. split; [(vm_compute; discriminate)|(vm_compute; reflexivity)]. Qed.
Print Assumptions C63_optional_name_refuted.

Theorem C63_given_arguments_defined_partial : forall x i a, no_null a -> run_api x i a <> Undefined.
Proof. exact api_def. Qed.
Print Assumptions C63_given_arguments_defined_partial.

Example C63_ex : exists i', run_api ex_x (after owner) (ApAddFp (Some "owner") (Some fp_a) (Some "phone")) = Done i' EOk.
Proof. eexists. vm_compute. reflexivity. Qed.

(** ** C64 *)
Theorem C64_requests_defined_refuted : exists E l i x c r, along E removal_safe iam_init l /\ run E iam_init l = Some i /\
  coap E x c i r = CUndefined.
Proof.
  exists ex_env, setup. eexists. exists ex_x, conn_a, (RqCreateUser (PlOk CbNull)). split; [|split; (vm_compute; reflexivity)].
  simpl. split; [exact I|]. intros i' [= <-]. split; [(vm_compute; reflexivity)|auto].
Qed.
Print Assumptions C64_requests_defined_refuted.

Theorem C64_requests_defined_partial : forall E ops i x c r, along E removal_safe iam_init ops -> run E iam_init ops = Some i ->
  r <> RqCreateUser (PlOk CbNull) -> coap E x c i r <> CUndefined.
Proof. exact coap_def. Qed.
Print Assumptions C64_requests_defined_partial.

Example C64_ex : exists i', coap ex_env ex_x conn_a (after []) (RqCreateUser (PlOk (CbStr "bob"))) = Resp i' 201.
Proof. eexists. vm_compute. reflexivity. Qed.
