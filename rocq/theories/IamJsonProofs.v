(** * Round trips of IAM documents *)
From Coq Require Import String Ascii List Bool Arith NArith ZArith Lia.
From Verif Require Import JsonModel JsonProofs IamPolicyModel IamPolicyProofs IamStateModel IamStateSpec IamStateProofs IamJsonModel IamJsonSpec.
Import ListNotations.
Open Scope string_scope.

(** ** Sets *)
Lemma set_insert_new : forall s l, ~ In s l -> set_insert s l = (l ++ [s])%list.
Proof.
  intros s l H. unfold set_insert. destruct (set_contains l s) eqn:E; [|reflexivity].
  apply set_contains_spec in E. contradiction.
Qed.

Lemma set_insert_in : forall s l x, In x (set_insert s l) <-> x = s \/ In x l.
Proof.
  intros s l x. unfold set_insert. destruct (set_contains l s) eqn:E.
  - apply set_contains_spec in E. split; [tauto|]. intros [->|H]; auto.
  - rewrite in_app_iff. simpl. intuition congruence.
Qed.

Lemma strings_skip_acc : forall l acc, NoDup (acc ++ l) ->
  fold_left (fun acc j => match j with JStr s => set_insert s acc | _ => acc end) (map JStr l) acc
  = (acc ++ l)%list.
Proof.
  induction l as [|s l IH]; intros acc H; simpl; [now rewrite app_nil_r|].
  rewrite set_insert_new.
  - rewrite IH; rewrite <- app_assoc; [reflexivity|exact H].
  - intros Hin. apply NoDup_remove_2 in H. apply H. apply in_or_app. now left.
Qed.

Lemma strings_skip_map : forall l, NoDup l -> strings_skip (map JStr l) = l.
Proof. intros l H. unfold strings_skip. now rewrite strings_skip_acc. Qed.

Lemma strings_all_acc : forall l acc, NoDup (acc ++ l) ->
  strings_all (map JStr l) acc = Some (acc ++ l)%list.
Proof.
  induction l as [|s l IH]; intros acc H; simpl; [now rewrite app_nil_r|].
  rewrite set_insert_new.
  - rewrite IH; rewrite <- app_assoc; [reflexivity|exact H].
  - intros Hin. apply NoDup_remove_2 in H. apply H. apply in_or_app. now left.
Qed.

Lemma strings_all_map : forall l, NoDup l -> strings_all (map JStr l) [] = Some l.
Proof. intros l H. now rewrite strings_all_acc. Qed.

(** ** Users *)
Lemma valid_name_validates : forall s, valid_name s -> validate_username s = true.
Proof.
  intros s [Hne H]. unfold validate_username. apply andb_true_intro. split.
  - apply negb_true_iff. now apply String.eqb_neq.
  - clear Hne. induction s as [|c s IH]; [reflexivity|].
    cbn [list_ascii_of_string] in H. inversion H as [|? ? Hc Hs]; subst.
    cbn [all_chars]. rewrite (IH Hs), andb_true_r.
    unfold alphabet in Hc. cbn in Hc.
    repeat (destruct Hc as [<-|Hc]; [reflexivity|]). contradiction.
Qed.

Lemma fps_fold : forall l u, fold_left add_fp_json (map fp_to_json l) u = set_u_fps (u_fps u ++ l)%list u.
Proof.
  induction l as [|f l IH]; intros u; cbn [map fold_left].
  - rewrite app_nil_r. now destruct u.
  - rewrite IH. destruct f as [v [n|]]; unfold add_fp_json; cbn;
      unfold user_add_fp; cbn; rewrite <- app_assoc; reflexivity.
Qed.

(** looking up a member in a document built from optional parts *)
Lemma find_hit : forall k k' o r, eqb_nocase k k' = true ->
  as_str (find_member k (opt_member k' o ++ r)) = match o with Some s => Some s | None => as_str (find_member k r) end.
Proof. intros k k' [s|] r H; cbn; [now rewrite H|reflexivity]. Qed.
Lemma find_miss : forall k k' o r, eqb_nocase k k' = false ->
  find_member k (opt_member k' o ++ r) = find_member k r.
Proof. intros k k' [s|] r H; cbn; [now rewrite H|reflexivity]. Qed.
Lemma find_last : forall k k' o, find_member k (opt_member k' o) = find_member k (opt_member k' o ++ []).
Proof. intros. now rewrite app_nil_r. Qed.
Lemma find_cons_miss : forall k k' v r, eqb_nocase k k' = false ->
  find_member k ((k', v) :: r) = find_member k r.
Proof. intros k k' v r H. cbn. now rewrite H. Qed.
Lemma find_cons_hit : forall k k' v r, eqb_nocase k k' = true -> find_member k ((k', v) :: r) = Some v.
Proof. intros k k' v r H. cbn. now rewrite H. Qed.
Lemma find_single : forall k k' v, eqb_nocase k k' = false -> find_member k [(k', v)] = None.
Proof. intros k k' v H. cbn. now rewrite H. Qed.
Lemma opt_id : forall (o : option string), match o with Some s => Some s | None => None end = o.
Proof. now destruct o. Qed.
Lemma opt_miss : forall (o : option string) k, as_str (find_member k []) = None.
Proof. reflexivity. Qed.

Definition fcm_part (tok proj : option string) : list (string * json) :=
  match tok, proj with
  | None, None => []
  | t, p => [("Fcm", JObj (opt_member "Token" t ++ opt_member "ProjectId" p))]
  end.
Definition cats_part (cats : list string) : list (string * json) :=
  match cats with [] => [] | l => [("NotificationCategories", set_to_json l)] end.
Lemma find_fcm_miss : forall k t p r, eqb_nocase k "Fcm" = false ->
  find_member k (fcm_part t p ++ r) = find_member k r.
Proof. intros k [t|] [p|] r H; cbn -[eqb_nocase]; rewrite ?H; reflexivity. Qed.
Lemma find_cats_miss : forall k c r, eqb_nocase k "NotificationCategories" = false ->
  find_member k (cats_part c ++ r) = find_member k r.
Proof. intros k [|x c] r H; cbn -[eqb_nocase]; rewrite ?H; reflexivity. Qed.

Ltac look :=
  repeat first
    [ rewrite find_cons_miss by reflexivity
    | rewrite find_cons_hit by reflexivity
    | rewrite find_miss by reflexivity
    | rewrite find_hit by reflexivity
    | rewrite find_fcm_miss by reflexivity
    | rewrite find_cats_miss by reflexivity ].

Lemma user_to_json_parts : forall u, user_to_json u =
  JObj (("Username", JStr (u_name u)) :: ("Fingerprints", JArr (map fp_to_json (u_fps u)))
        :: opt_member "DisplayName" (u_display u)
        ++ opt_member "ServerConnectToken" (u_sct u)
        ++ opt_member "Password" (u_password u)
        ++ opt_member "Role" (u_role u)
        ++ fcm_part (u_fcm_token u) (u_fcm_project u)
        ++ cats_part (u_cats u)
        ++ opt_member "OauthSubject" (u_oauth u) ++ [])%list.
Proof.
  intros u. unfold user_to_json, fcm_part, cats_part. rewrite app_nil_r.
  destruct (u_fcm_token u), (u_fcm_project u), (u_cats u); reflexivity.
Qed.

Definition user_json (u : user) : json :=
  JObj (("Username", JStr (u_name u)) :: ("Fingerprints", JArr (map fp_to_json (u_fps u)))
        :: opt_member "DisplayName" (u_display u)
        ++ opt_member "ServerConnectToken" (u_sct u)
        ++ opt_member "Password" (u_password u)
        ++ opt_member "Role" (u_role u)
        ++ fcm_part (u_fcm_token u) (u_fcm_project u)
        ++ cats_part (u_cats u)
        ++ opt_member "OauthSubject" (u_oauth u) ++ [])%list.

Lemma uj_name : forall u, get_item (user_json u) "Username" = Some (JStr (u_name u)).
Proof. intros u. unfold user_json, get_item. now look. Qed.
Lemma uj_fps : forall u, get_item (user_json u) "Fingerprints" = Some (JArr (map fp_to_json (u_fps u))).
Proof. intros u. unfold user_json, get_item. now look. Qed.
Lemma uj_display : forall u, as_str (get_item (user_json u) "DisplayName") = u_display u.
Proof. intros u. unfold user_json, get_item. look. apply opt_id. Qed.
Lemma uj_sct : forall u, as_str (get_item (user_json u) "ServerConnectToken") = u_sct u.
Proof. intros u. unfold user_json, get_item. look. apply opt_id. Qed.
Lemma uj_password : forall u, as_str (get_item (user_json u) "Password") = u_password u.
Proof. intros u. unfold user_json, get_item. look. apply opt_id. Qed.
Lemma uj_role : forall u, as_str (get_item (user_json u) "Role") = u_role u.
Proof. intros u. unfold user_json, get_item. look. apply opt_id. Qed.
Lemma uj_oauth : forall u, as_str (get_item (user_json u) "OauthSubject") = u_oauth u.
Proof. intros u. unfold user_json, get_item. look. apply opt_id. Qed.
Lemma uj_fcm : forall u k, k = "Token" \/ k = "ProjectId" ->
  as_str (match get_item (user_json u) "Fcm" with Some (JObj l) => get_item (JObj l) k | _ => None end) =
  if String.eqb k "Token" then u_fcm_token u else u_fcm_project u.
Proof.
  intros u k Hk. unfold user_json, get_item at 1. look.
  destruct (u_fcm_token u), (u_fcm_project u), Hk as [-> | ->]; cbn -[find_member]; look; reflexivity.
Qed.
Lemma uj_cats : forall u, as_arr (get_item (user_json u) "NotificationCategories") =
  match u_cats u with [] => None | l => Some (map JStr l) end.
Proof.
  intros u. unfold user_json, get_item. look.
  destruct (u_cats u); cbn -[find_member]; look; reflexivity.
Qed.

Lemma user_round : forall id u, validate_username (u_name u) = true -> NoDup (u_cats u) ->
  user_from_json id (user_to_json u) 2 = Some (set_u_id id u).
Proof.
  intros id u Hn Hc. rewrite user_to_json_parts. fold (user_json u).
  unfold user_from_json, if_str, fps_from_json.
  rewrite uj_name. cbn [as_str]. unfold user_new. rewrite Hn.
  rewrite uj_display, uj_sct, uj_password, uj_role, uj_oauth, uj_cats.
  change (Z.eqb 2 1) with false. change (Z.eqb 2 2) with true. cbv iota.
  rewrite uj_fps. cbn [as_arr]. rewrite fps_fold.
  rewrite (uj_fcm u "Token") by tauto. rewrite (uj_fcm u "ProjectId") by tauto.
  change (String.eqb "Token" "Token") with true. change (String.eqb "ProjectId" "Token") with false. cbv iota.
  assert (Hs : forall w, u_cats w = [] -> match (match u_cats u with [] => None | l => Some (map JStr l) end) with
                | Some l => set_u_cats (strings_skip l) w | None => w end = set_u_cats (u_cats u) w).
  { intros w Hw. destruct (u_cats u) as [|x l] eqn:E.
    - destruct w. cbn in *. now subst.
    - now rewrite strings_skip_map. }
  rewrite Hs.
  - clear. destruct u as [uid n disp fps pw role sct tok proj cats oauth].
    cbn [u_name u_fps u_display u_sct u_password u_role u_fcm_token u_fcm_project u_cats u_oauth].
    destruct disp, pw, role, sct, tok, proj, oauth; reflexivity.
  - clear. destruct (u_display u), (u_password u), (u_role u), (u_sct u), (u_fcm_token u), (u_fcm_project u); reflexivity.
Qed.

Lemma same_set_id : forall id u, same_user u (set_u_id id u).
Proof. intros id u f. destruct f; reflexivity. Qed.

Fixpoint number_from (id : nat) (us : list user) : list user :=
  match us with [] => [] | u :: us' => set_u_id id u :: number_from (S id) us' end.

Lemma add_users_round : forall us id s,
  (forall u, In u us -> validate_username (u_name u) = true /\ NoDup (u_cats u)) ->
  add_users id 2 (map user_to_json us) s = with_users (st_users s ++ number_from id us)%list s.
Proof.
  induction us as [|u us IH]; intros id s H; cbn [map add_users number_from].
  - rewrite app_nil_r. now destruct s.
  - destruct (H u (or_introl eq_refl)) as [H1 H2].
    rewrite user_round by assumption.
    rewrite IH by (intros v Hv; apply H; now right).
    destruct s; cbn. rewrite <- app_assoc. reflexivity.
Qed.

Lemma number_same : forall us id, Forall2 same_user us (number_from id us).
Proof. induction us; intros; constructor; auto using same_set_id. Qed.

Definition state_json (s : istate) : json :=
  JObj (("Version", JNum 2) :: opt_member "OpenPairingPassword" (st_pw_open_password s)
        ++ opt_member "OpenPairingSct" (st_pw_open_sct s)
        ++ ("LocalOpenPairing", JBool (st_local_open s))
        :: ("PasswordOpenPairing", JBool (st_pw_open s))
        :: ("PasswordInvitePairing", JBool (st_pw_invite s))
        :: ("LocalInitialPairing", JBool (st_local_initial s))
        :: opt_member "OpenPairingRole" (st_open_role s)
        ++ opt_member "InitialPairingUsername" (st_initial_user s)
        ++ opt_member "FriendlyName" (st_friendly s)
        ++ [("Users", JArr (map user_to_json (st_users s)))])%list.
Lemma sj_eq : forall s, state_to_json s = state_json s.
Proof. reflexivity. Qed.
Lemma sj_str : forall s,
  as_str (get_item (state_json s) "OpenPairingPassword") = st_pw_open_password s /\
  as_str (get_item (state_json s) "OpenPairingSct") = st_pw_open_sct s /\
  as_str (get_item (state_json s) "OpenPairingRole") = st_open_role s /\
  as_str (get_item (state_json s) "InitialPairingUsername") = st_initial_user s /\
  as_str (get_item (state_json s) "FriendlyName") = st_friendly s.
Proof. intros s. unfold state_json, get_item. repeat split; look; apply opt_id. Qed.
Lemma sj_bool : forall s,
  get_item (state_json s) "LocalOpenPairing" = Some (JBool (st_local_open s)) /\
  get_item (state_json s) "PasswordOpenPairing" = Some (JBool (st_pw_open s)) /\
  get_item (state_json s) "PasswordInvitePairing" = Some (JBool (st_pw_invite s)) /\
  get_item (state_json s) "LocalInitialPairing" = Some (JBool (st_local_initial s)) /\
  get_item (state_json s) "Version" = Some (JNum 2) /\
  get_item (state_json s) "Users" = Some (JArr (map user_to_json (st_users s))).
Proof. intros s. unfold state_json, get_item. repeat split; look; reflexivity. Qed.

Lemma state_round_json : forall id s,
  (forall u, In u (st_users s) -> validate_username (u_name u) = true /\ NoDup (u_cats u)) ->
  state_from_json id empty_state (state_to_json s) = (with_users (number_from id (st_users s)) s, true).
Proof.
  intros id s H. rewrite sj_eq.
  destruct (sj_str s) as (H1 & H2 & H3 & H4 & H5). destruct (sj_bool s) as (B1 & B2 & B3 & B4 & B5 & B6).
  unfold state_from_json, if_str, if_bool.
  rewrite H1, H2, H3, H4, H5, B1, B2, B3, B4, B5, B6. cbn [as_arr as_bool].
  change (Z.ltb 2 2) with false. cbv iota.
  unfold state_json at 1. cbv iota. rewrite add_users_round by assumption. f_equal. clear.
  destruct s as [pw sct po lo pi li role init fr us].
  cbn [st_pw_open_password st_pw_open_sct st_pw_open st_local_open st_pw_invite st_local_initial st_open_role st_initial_user st_friendly st_users].
  destruct pw, sct, role, init, fr; reflexivity.
Qed.

(** ** Configurations *)
Lemma map_opt_map : forall A B (f : A -> B) (g : B -> option A) l,
  (forall a, In a l -> g (f a) = Some a) -> map_opt g (map f l) = Some l.
Proof.
  induction l as [|a l IH]; intros H; simpl; [reflexivity|].
  rewrite H by (now left). rewrite IH by (intros; apply H; now right). reflexivity.
Qed.

Lemma condition_round : forall c, NoDup (c_values c) -> condition_from_json (condition_to_json c) = Some c.
Proof.
  intros [o k vs] H. cbn [c_values] in H. unfold condition_from_json, condition_to_json, set_to_json.
  cbn [c_op c_key c_values]. rewrite strings_all_map by assumption. destruct o; reflexivity.
Qed.

Lemma statement_round : forall s, proper_statement s -> statement_from_json (statement_to_json s) = Some s.
Proof.
  intros [e acts conds] (He & [Ha _] & Hc). cbn [s_effect s_actions s_conds] in *.
  assert (Hcs : map_opt condition_from_json (map condition_to_json conds) = Some conds).
  { apply map_opt_map. intros c Hin. apply condition_round. now apply Hc. }
  pose proof (strings_all_map acts Ha) as Has.
  unfold statement_from_json, statement_to_json, set_to_json. cbn [s_effect s_actions s_conds].
  destruct conds as [|c conds].
  - destruct He as [-> | ->]; cbn -[strings_all]; rewrite Has; reflexivity.
  - set (cs := c :: conds) in *. clearbody cs.
    destruct He as [-> | ->]; cbn -[strings_all map_opt condition_from_json]; rewrite Has, Hcs; reflexivity.
Qed.

Lemma policy_round : forall p, proper_policy p -> policy_from_json (policy_to_json p) = Some p.
Proof.
  intros [id ss] [_ H]. cbn [p_id p_stmts] in *.
  unfold policy_from_json, policy_to_json. cbn -[map_opt statement_from_json].
  rewrite map_opt_map; [reflexivity|]. intros s Hs. apply statement_round. now apply H.
Qed.

Lemma role_round : forall r, proper_role r -> role_from_json (role_to_json r) = Some r.
Proof.
  intros [id ps] [_ [H _]]. cbn [r_id r_policies] in *.
  unfold role_from_json, role_to_json, set_to_json. cbn -[strings_skip].
  now rewrite strings_skip_map.
Qed.

Lemma conf_round_json : forall c, proper_conf c -> conf_from_json empty_conf (conf_to_json c) = Some c.
Proof.
  intros [rs ps un] (Hp & Hr & _). cbn [conf_roles conf_policies conf_unpaired] in *.
  unfold conf_from_json, conf_to_json. cbn -[map_opt policy_from_json role_from_json].
  rewrite (map_opt_map _ _ policy_to_json policy_from_json) by (intros; apply policy_round; auto).
  rewrite (map_opt_map _ _ role_to_json role_from_json) by (intros; apply role_round; auto).
  destruct un; reflexivity.
Qed.

(** ** Documents are well formed *)
Lemma c_stringI : forall s,
  forallb (fun c => negb (Ascii.eqb c "000")) (list_ascii_of_string s) = true -> c_string s.
Proof.
  intros s H Hin. rewrite forallb_forall in H. specialize (H _ Hin). discriminate H.
Qed.

Lemma no_nul_iff : forall s, no_nul s <-> c_string s.
Proof.
  unfold c_string. induction s as [|c s IH]; cbn; [tauto|].
  rewrite IH. intuition congruence.
Qed.

Lemma valid_name_c_string : forall s, valid_name s -> c_string s.
Proof.
  intros s [_ H] Hin. rewrite Forall_forall in H. specialize (H _ Hin).
  unfold alphabet in H. cbn in H. intuition discriminate.
Qed.

Lemma jwf_arr : forall L A (f : A -> json) l, (forall a, In a l -> jwf L (f a)) -> jwf L (JArr (map f l)).
Proof.
  intros L A f l H. cbn [jwf]. induction l as [|a l IH]; cbn; [exact I|].
  split; [apply H; now left|]. apply IH. intros; apply H; now right.
Qed.

Lemma jwf_obj : forall L l, (forall k v, In (k, v) l -> no_nul k /\ jwf L v) -> jwf L (JObj l).
Proof.
  intros L l H. cbn [jwf]. induction l as [|[k v] l IH]; cbn; [exact I|].
  split; [apply H; now left|]. apply IH. intros; apply H; now right.
Qed.

Lemma depth_arr : forall A (f : A -> json) l n, (forall a, In a l -> jdepth (f a) <= n) ->
  jdepth (JArr (map f l)) <= S n.
Proof.
  intros A f l n H. cbn [jdepth]. apply le_n_S. induction l as [|a l IH]; cbn; [lia|].
  apply Nat.max_lub; [apply H; now left|]. apply IH. intros; apply H; now right.
Qed.

Lemma depth_obj : forall l n, (forall k v, In (k, v) l -> jdepth v <= n) -> jdepth (JObj l) <= S n.
Proof.
  intros l n H. cbn [jdepth]. apply le_n_S. induction l as [|[k v] l IH]; cbn; [lia|].
  apply Nat.max_lub; [eapply H; now left|]. apply IH. intros; eapply H; right; eauto.
Qed.

Lemma opt_member_in : forall k o k' v, In (k', v) (opt_member k o) ->
  exists s, o = Some s /\ k' = k /\ v = JStr s.
Proof. intros k [s|] k' v H; cbn in H; [|contradiction]. destruct H as [H|[]]. inversion H. eauto. Qed.

Ltac key := apply no_nul_iff; unfold c_string; cbn; intuition discriminate.

Ltac members :=
  repeat match goal with
  | H : In _ (_ ++ _) |- _ => apply in_app_or in H; destruct H
  | H : In _ (_ :: _) |- _ => destruct H
  | H : In _ [] |- _ => contradiction
  | H : (_, _) = (_, _) |- _ => inversion H; subst; clear H
  | H : In _ (opt_member _ _) |- _ => apply opt_member_in in H; destruct H as (? & ? & ? & ?); subst
  end.

Lemma set_json_wf : forall L l, (forall x, In x l -> c_string x) -> jwf L (set_to_json l).
Proof. intros L l H. apply jwf_arr. intros a Ha. cbn. apply no_nul_iff. auto. Qed.
Lemma set_json_depth : forall l, jdepth (set_to_json l) <= 1.
Proof. intros l. apply depth_arr. intros; cbn; lia. Qed.

Lemma fp_json_wf : forall L f, c_string (fp_val f) -> opt_c_string (fp_name f) -> jwf L (fp_to_json f).
Proof.
  intros L [v n] H1 H2. cbn [fp_val fp_name] in *.
  unfold fp_to_json. cbn [fp_val fp_name]. apply jwf_obj. intros k j H.
  members; (split; [key|cbn; apply no_nul_iff; assumption]).
Qed.

Lemma user_json_wf : forall L u, proper_user u -> jwf L (user_to_json u).
Proof.
  intros L [uid n disp fps pw role sct tok proj cats oauth]
    (Hn & Hf & H1 & H2 & H3 & H4 & H5 & H6 & H7 & H8 & _).
  cbn [u_name u_fps u_display u_sct u_password u_role u_fcm_token u_fcm_project u_cats u_oauth] in *.
  unfold user_to_json.
  cbn [u_name u_fps u_display u_sct u_password u_role u_fcm_token u_fcm_project u_cats u_oauth].
  apply jwf_obj. intros k j H.
  members; (split; [try key|]); try (cbn; apply no_nul_iff; first [assumption | now apply valid_name_c_string]).
  - apply jwf_arr. intros f Hin. apply fp_json_wf; apply Hf; assumption.
  - destruct tok, proj; members; key.
  - destruct tok, proj; members; apply jwf_obj; intros k' j' H'; members;
      (split; [key|cbn; apply no_nul_iff; congruence]).
  - destruct cats; members; key.
  - destruct cats; members; now apply set_json_wf.
Qed.

Lemma user_json_depth : forall u, jdepth (user_to_json u) <= 3.
Proof.
  intros [uid n disp fps pw role sct tok proj cats oauth]. unfold user_to_json.
  cbn [u_name u_fps u_display u_sct u_password u_role u_fcm_token u_fcm_project u_cats u_oauth].
  apply depth_obj. intros k j H. members; try (cbn; lia).
  - apply depth_arr. intros f _. destruct f as [v [m|]]; cbn; lia.
  - destruct tok, proj; members; cbn; lia.
  - destruct cats; members. pose proof (set_json_depth (s :: cats)). lia.
Qed.

Lemma num_ok_1 : forall L, reads_versions L -> num_ok L 1.
Proof. intros L [H _]. unfold num_ok. cbn. rewrite H. repeat split; try reflexivity. lia. Qed.
Lemma num_ok_2 : forall L, reads_versions L -> num_ok L 2.
Proof. intros L [_ H]. unfold num_ok. cbn. rewrite H. repeat split; try reflexivity. lia. Qed.

Lemma state_json_wf : forall L s, reads_versions L -> proper_state s -> jwf L (state_to_json s).
Proof.
  intros L [pw sct po lo pi li role init fr us] HL (H1 & H2 & H3 & H4 & H5 & Hu).
  cbn [st_pw_open_password st_pw_open_sct st_pw_open st_local_open st_pw_invite st_local_initial st_open_role st_initial_user st_friendly st_users] in *.
  unfold state_to_json.
  cbn [st_pw_open_password st_pw_open_sct st_pw_open st_local_open st_pw_invite st_local_initial st_open_role st_initial_user st_friendly st_users].
  apply jwf_obj. intros k j H.
  members; (split; [key|]); try (cbn; apply no_nul_iff; assumption); try exact I.
  - now apply num_ok_2.
  - apply jwf_arr. intros u Hin. apply user_json_wf. auto.
Qed.

Lemma state_json_depth : forall s, jdepth (state_to_json s) <= 5.
Proof.
  intros [pw sct po lo pi li role init fr us]. unfold state_to_json.
  cbn [st_pw_open_password st_pw_open_sct st_pw_open st_local_open st_pw_invite st_local_initial st_open_role st_initial_user st_friendly st_users].
  apply depth_obj. intros k j H. members; try (cbn; lia).
  apply depth_arr. intros u _. apply user_json_depth.
Qed.

Lemma nesting_big : 1000 <= nesting_limit.
Proof. apply Nat.leb_le. vm_compute. reflexivity. Qed.

Lemma proper_users_ok : forall s, proper_state s ->
  forall u, In u (st_users s) -> validate_username (u_name u) = true /\ NoDup (u_cats u).
Proof.
  intros s (_ & _ & _ & _ & _ & H) u Hu. destruct (H u Hu) as (Hn & _ & _ & _ & _ & _ & _ & _ & _ & _ & Hc).
  split; [|exact Hc]. now apply valid_name_validates.
Qed.

(** C11 *)
Lemma state_round : forall L id s, reads_versions L -> proper_state s ->
  exists s', state_load L id empty_state (state_dump s) = (s', true) /\ same_state s s'.
Proof.
  intros L id s HL Hs. unfold state_load, state_dump.
  rewrite parse_print.
  - rewrite state_round_json by (now apply proper_users_ok).
    eexists. split; [reflexivity|]. split; [now destruct s|].
    destruct s. cbn. apply number_same.
  - now apply state_json_wf.
  - pose proof (state_json_depth s). pose proof nesting_big. lia.
Qed.

Lemma condition_json_wf : forall L c, proper_condition c -> jwf L (condition_to_json c).
Proof.
  intros L [o k vs] [Hk [_ Hv]]. cbn [c_key c_values] in *. unfold condition_to_json. cbn [c_op c_key c_values].
  apply jwf_obj. intros k' j H. members. split; [destruct o; key|].
  apply jwf_obj. intros k' j H. members. split; [now apply no_nul_iff|]. now apply set_json_wf.
Qed.
Lemma condition_json_depth : forall c, jdepth (condition_to_json c) <= 3.
Proof.
  intros [o k vs]. unfold condition_to_json. cbn [c_op c_key c_values].
  apply depth_obj. intros k' j H. members.
  apply depth_obj. intros k' j H. members. apply set_json_depth.
Qed.

Lemma statement_json_wf : forall L s, proper_statement s -> jwf L (statement_to_json s).
Proof.
  intros L [e acts conds] (He & [_ Ha] & Hc). cbn [s_effect s_actions s_conds] in *.
  unfold statement_to_json. cbn [s_effect s_actions s_conds].
  apply jwf_obj. intros k j H.
  apply in_app_or in H. destruct H as [H|H].
  { destruct He as [-> | ->]; members; split; key. }
  apply in_app_or in H. destruct H as [H|H].
  { members. split; [key|]. now apply set_json_wf. }
  destruct conds as [|c conds]; members. split; [key|].
  change (condition_to_json c :: map condition_to_json conds) with (map condition_to_json (c :: conds)).
  apply jwf_arr. intros a Hin. apply condition_json_wf. auto.
Qed.
Lemma statement_json_depth : forall s, jdepth (statement_to_json s) <= 5.
Proof.
  intros [e acts conds]. unfold statement_to_json. cbn [s_effect s_actions s_conds].
  apply depth_obj. intros k j H.
  apply in_app_or in H. destruct H as [H|H].
  { destruct e; members; cbn; lia. }
  apply in_app_or in H. destruct H as [H|H].
  { members. pose proof (set_json_depth acts). lia. }
  destruct conds as [|c conds]; members.
  change (condition_to_json c :: map condition_to_json conds) with (map condition_to_json (c :: conds)).
  apply depth_arr. intros a _. apply condition_json_depth.
Qed.

Lemma policy_json_wf : forall L p, proper_policy p -> jwf L (policy_to_json p).
Proof.
  intros L [id ss] [Hi Hs]. cbn [p_id p_stmts] in *. unfold policy_to_json. cbn [p_id p_stmts].
  apply jwf_obj. intros k j H. members; (split; [key|]).
  - cbn. now apply no_nul_iff.
  - apply jwf_arr. intros s Hin. apply statement_json_wf. auto.
Qed.
Lemma policy_json_depth : forall p, jdepth (policy_to_json p) <= 7.
Proof.
  intros [id ss]. unfold policy_to_json. cbn [p_id p_stmts].
  apply depth_obj. intros k j H. members; [cbn; lia|].
  apply depth_arr. intros a _. apply statement_json_depth.
Qed.

Lemma role_json_wf : forall L r, proper_role r -> jwf L (role_to_json r).
Proof.
  intros L [id ps] [Hi [_ Hp]]. cbn [r_id r_policies] in *. unfold role_to_json. cbn [r_id r_policies].
  apply jwf_obj. intros k j H. members; (split; [key|]).
  - cbn. now apply no_nul_iff.
  - now apply set_json_wf.
Qed.
Lemma role_json_depth : forall r, jdepth (role_to_json r) <= 2.
Proof.
  intros [id ps]. unfold role_to_json. cbn [r_id r_policies].
  apply depth_obj. intros k j H. members; [cbn; lia|]. apply set_json_depth.
Qed.

Lemma conf_json_wf : forall L c, reads_versions L -> proper_conf c -> jwf L (conf_to_json c).
Proof.
  intros L [rs ps un] HL (Hp & Hr & Hu). cbn [conf_roles conf_policies conf_unpaired] in *.
  unfold conf_to_json. cbn [conf_roles conf_policies conf_unpaired].
  apply jwf_obj. intros k j H. members; (split; [key|]).
  - now apply num_ok_1.
  - apply jwf_arr. intros p Hin. apply policy_json_wf. auto.
  - apply jwf_arr. intros r Hin. apply role_json_wf. auto.
  - apply jwf_obj. intros k j H. members. split; [key|]. cbn. now apply no_nul_iff.
Qed.
Lemma conf_json_depth : forall c, jdepth (conf_to_json c) <= 9.
Proof.
  intros [rs ps un]. unfold conf_to_json. cbn [conf_roles conf_policies conf_unpaired].
  apply depth_obj. intros k j H. members.
  - cbn; lia.
  - apply depth_arr. intros a _. apply policy_json_depth.
  - apply (Nat.le_trans _ 3); [|lia]. apply depth_arr. intros a _. apply role_json_depth.
  - destruct un; cbn; lia.
Qed.

(** C13 *)
Lemma conf_round : forall L c, reads_versions L -> proper_conf c ->
  conf_load L empty_conf (conf_dump c) = Some c.
Proof.
  intros L c HL Hc. unfold conf_load, conf_dump. rewrite parse_print.
  - now apply conf_round_json.
  - now apply conf_json_wf.
  - pose proof (conf_json_depth c). pose proof nesting_big. lia.
Qed.

(** ** Restarting from the written text *)
Lemma renumber_number : forall us k id, renumber k (number_from id us) = renumber k us.
Proof. induction us as [|u us IH]; intros; cbn; [reflexivity|]. now rewrite IH. Qed.

Lemma validate_number : forall l cats us id, forallb (validate_user l cats) (number_from id us) = forallb (validate_user l cats) us.
Proof. induction us as [|u us IH]; intros; cbn [number_from forallb]; [reflexivity|]. now rewrite IH. Qed.

Lemma number_len : forall us id, length (number_from id us) = length us.
Proof. induction us; intros; cbn; auto. Qed.

Lemma number_scts : forall us id, map u_sct (number_from id us) = map u_sct us.
Proof. induction us as [|u us IH]; intros; cbn; [reflexivity|]. now rewrite IH. Qed.

Lemma load_number : forall x i s id, load_state x i (with_users (number_from id (st_users s)) s) = load_state x i s.
Proof.
  intros x i s id. unfold load_state, validate_state.
  cbn [st_users st_pw_open_password st_pw_open_sct st_initial_user st_friendly with_users].
  rewrite number_len, validate_number, number_scts.
  destruct (negb _); [reflexivity|].
  destruct (add_tokens x [st_pw_open_sct s] i) as [i1 ok1]. destruct (negb ok1); [reflexivity|].
  destruct (match st_friendly s with Some _ => negb (x_mdns x) | None => false end); [reflexivity|].
  destruct (add_tokens x (map u_sct (st_users s)) i1) as [i2 ok2]. destruct (negb ok2); [reflexivity|].
  rewrite renumber_number. reflexivity.
Qed.

Lemma state_load_dump : forall L id s, reads_versions L -> proper_state s ->
  state_load L id empty_state (state_dump s) = (with_users (number_from id (st_users s)) s, true).
Proof.
  intros L id s HL Hs. unfold state_load, state_dump. rewrite parse_print.
  - apply state_round_json. now apply proper_users_ok.
  - now apply state_json_wf.
  - pose proof (state_json_depth s). pose proof nesting_big. lia.
Qed.

(** ** Conditions *)
Lemma strings_all_in : forall l acc r, strings_all l acc = Some r ->
  forall v, In v r <-> In v acc \/ In (JStr v) l.
Proof.
  induction l as [|j l IH]; intros acc r H v; cbn in H.
  - injection H as <-. simpl. tauto.
  - destruct j; try discriminate. rewrite (IH _ _ H v), set_insert_in. simpl. intuition congruence.
Qed.

Lemma parse_operator_name : forall s o, parse_operator s = Some o -> op_to_string o = s.
Proof.
  intros s o. unfold parse_operator.
  repeat match goal with
  | |- (if String.eqb s ?x then _ else _) = _ -> _ =>
      destruct (String.eqb_spec s x) as [->|_]; [intros H; injection H as <-; reflexivity|]
  end.
  discriminate.
Qed.

Lemma condition_enforces : forall o k v c, condition_from_json (JObj [(o, JObj [(k, v)])]) = Some c ->
  enforces c (o, k, elements v).
Proof.
  intros o k v c H. cbn in H. destruct v as [ | | | |l| ]; try discriminate.
  destruct (parse_operator o) eqn:Eo; [|discriminate].
  destruct (strings_all l []) eqn:El; [|discriminate]. injection H as <-.
  repeat split; cbn.
  - now apply parse_operator_name.
  - intros Hin. apply (strings_all_in _ _ _ El) in Hin. simpl in Hin. tauto.
  - intros Hin. apply (strings_all_in _ _ _ El). tauto.
Qed.

Lemma map_opt_forall2 : forall A B (f : A -> option B) l r, map_opt f l = Some r ->
  Forall2 (fun a b => f a = Some b) l r.
Proof.
  induction l as [|a l IH]; intros r H; cbn in H; [injection H as <-; constructor|].
  destruct (f a) eqn:E; [|discriminate]. destruct (map_opt f l) eqn:E2; [|discriminate].
  injection H as <-. constructor; auto.
Qed.

Lemma statement_enforces : forall j s, statement_from_json j = Some s -> plain_conditions j ->
  Forall2 enforces (s_conds s) (written j).
Proof.
  intros j s H Hp. destruct j as [ | | | | |m]; try discriminate. unfold statement_from_json in H.
  destruct (as_str (get_item (JObj m) "Effect")) as [e|]; [|discriminate].
  destruct (as_arr (get_item (JObj m) "Actions")) as [acts|]; [|discriminate].
  destruct (if String.eqb e "Allow" then Some Allow else if String.eqb e "Deny" then Some Deny else None) as [eff|]; [|discriminate].
  destruct (strings_all acts []); [|discriminate].
  unfold plain_conditions in Hp. unfold written.
  destruct (get_item (JObj m) "Conditions") as [c|].
  - destruct Hp as [cs [-> Hall]]. cbn [as_arr] in H.
    destruct (map_opt condition_from_json cs) as [conds|] eqn:Em; [|discriminate].
    injection H as <-. cbn [s_conds restrictions].
    apply map_opt_forall2 in Em. clear - Em Hall.
    induction Em as [|a b l l' Hab _ IH]; [constructor|].
    inversion Hall as [|? ? Ha Hl]; subst. destruct Ha as (o & k & v & ->).
    cbn [flat_map restrictions_of members fst snd map app].
    constructor; [now apply condition_enforces|auto].
  - injection H as <-. constructor.
Qed.

(** ** Versions and failed loads *)
Lemma load_false_unchanged : forall L id s text, snd (state_load L id s text) = false ->
  fst (state_load L id s text) = s.
Proof.
  intros L id s text. unfold state_load. destruct (parse L text) as [r|]; [|reflexivity].
  unfold state_from_json. destruct r; try reflexivity.
  destruct (get_item (JObj l) "Version") as [[ | |z| | | ]|]; try reflexivity.
  destruct (Z.ltb 2 z); [reflexivity|].
  destruct (as_arr (get_item (JObj l) "Users")); cbn [snd]; discriminate.
Qed.

Lemma load_needs_version : forall L id s text s', state_load L id s text = (s', true) ->
  exists root v, parse L text = Some root /\ get_item root "Version" = Some (JNum v) /\ (v <= 2)%Z.
Proof.
  intros L id s text s'. unfold state_load. destruct (parse L text) as [r|]; [|discriminate].
  unfold state_from_json. destruct r; try discriminate.
  destruct (get_item (JObj l) "Version") as [[ | |z| | | ]|] eqn:E; try discriminate.
  destruct (Z.ltb_spec 2 z); [discriminate|]. intros _. exists (JObj l), z. auto.
Qed.

(** Users of a document which has all its users readable. *)
Lemma add_users_len : forall l id v s,
  length (st_users (add_users id v l s)) <= length (st_users s) + length l.
Proof.
  induction l as [|j l IH]; intros id v s; cbn [add_users length]; [lia|].
  destruct (user_from_json id j v) as [u|].
  - specialize (IH (S id) v (with_users (st_users s ++ [u])%list s)).
    cbn [st_users with_users] in IH. rewrite app_length in IH. cbn in IH. lia.
  - specialize (IH id v s). lia.
Qed.

(** A version 1 user keeps its only fingerprint. *)
Lemma v1_fps_gen : forall id j u, user_from_json id j 1 = Some u ->
  u_fps u = match as_str (get_item j "Fingerprint") with
            | Some f => [{| fp_val := f; fp_name := None |}]
            | None => []
            end.
Proof.
  intros id j u H. unfold user_from_json in H.
  destruct (as_str (get_item j "Username")) as [n|]; [|discriminate].
  unfold user_new in H. destruct (validate_username n); [|discriminate].
  injection H as <-.
  assert (Hs : forall o (f : string -> user -> user) u, (forall s w, u_fps (f s w) = u_fps w) ->
    u_fps (if_str o f u) = u_fps u).
  { intros o f u Hf. unfold if_str. destruct (as_str o); auto. }
  assert (Hfp : forall u, u_fps u = [] -> u_fps (fps_from_json j 1 u) =
    match as_str (get_item j "Fingerprint") with Some f => [{| fp_val := f; fp_name := None |}] | None => [] end).
  { intros u Hu. unfold fps_from_json. change (Z.eqb 1 1) with true. cbv iota.
    destruct (as_str (get_item j "Fingerprint")); [|exact Hu].
    unfold user_set_fp. rewrite Hu. reflexivity. }
  rewrite Hs by reflexivity.
  destruct (as_arr (get_item j "NotificationCategories")); cbn [u_fps set_u_cats];
    rewrite !Hs by reflexivity; apply Hfp; now rewrite Hs by reflexivity.
Qed.

(** ** No user is lost *)
Lemma user_from_json_name : forall id j v n, get_item j "Username" = Some (JStr n) -> valid_name n ->
  exists u, user_from_json id j v = Some u /\ u_name u = n.
Proof.
  intros id j v n Hj Hn. unfold user_from_json. rewrite Hj. cbn [as_str].
  unfold user_new. rewrite (valid_name_validates _ Hn). eexists. split; [reflexivity|].
  assert (Hs : forall o (f : string -> user -> user) u, (forall s w, u_name (f s w) = u_name w) ->
    u_name (if_str o f u) = u_name u).
  { intros o f u Hf. unfold if_str. destruct (as_str o); auto. }
  assert (Hfp : forall u, u_name (fps_from_json j v u) = u_name u).
  { intros u. unfold fps_from_json.
    destruct (Z.eqb v 1).
    - destruct (as_str (get_item j "Fingerprint")); [|reflexivity].
      unfold user_set_fp. destruct (u_fps u); reflexivity.
    - destruct (Z.eqb v 2); [|reflexivity].
      destruct (as_arr (get_item j "Fingerprints")) as [l|]; [|reflexivity].
      revert u. induction l as [|x l IH]; intros u; cbn [fold_left]; [reflexivity|].
      rewrite IH. unfold add_fp_json. destruct (as_str (get_item x "Fingerprint")); reflexivity. }
  rewrite Hs by reflexivity.
  destruct (as_arr (get_item j "NotificationCategories")); cbn [u_name set_u_cats];
    rewrite !Hs by reflexivity; rewrite Hfp; rewrite Hs by reflexivity; reflexivity.
Qed.

Lemma add_users_names : forall us id v s,
  (forall j, In j us -> exists n, get_item j "Username" = Some (JStr n) /\ valid_name n) ->
  map (fun u => Some (JStr (u_name u))) (st_users (add_users id v us s)) =
  (map (fun u => Some (JStr (u_name u))) (st_users s) ++ map (fun j => get_item j "Username") us)%list.
Proof.
  induction us as [|j us IH]; intros id v s H; cbn [add_users map]; [now rewrite app_nil_r|].
  destruct (H j (or_introl eq_refl)) as (n & Hj & Hn).
  destruct (user_from_json_name id j v n Hj Hn) as (u & -> & Hu).
  rewrite IH by (intros; apply H; now right).
  cbn [st_users with_users]. rewrite map_app, <- app_assoc. cbn [map app]. now rewrite Hu, Hj.
Qed.

Lemma users_kept : forall L id text s' root us v, parse L text = Some root ->
  get_item root "Users" = Some (JArr us) -> get_item root "Version" = Some (JNum v) ->
  (forall j, In j us -> exists n, get_item j "Username" = Some (JStr n) /\ valid_name n) ->
  state_load L id empty_state text = (s', true) ->
  map (fun u => Some (JStr (u_name u))) (st_users s') = map (fun j => get_item j "Username") us.
Proof.
  intros L id text s' root us v Hp Hu Hv Hn H. unfold state_load in H. rewrite Hp in H.
  unfold state_from_json in H. destruct root as [ | | | | |m]; try discriminate.
  rewrite Hv, Hu in H. destruct (Z.ltb 2 v); [discriminate|]. cbn [as_arr] in H.
  injection H as <-. rewrite add_users_names by assumption.
  assert (Hs : forall o (f : string -> istate -> istate) t, (forall x w, st_users (f x w) = st_users w) ->
    st_users (if_str o f t) = st_users t).
  { intros o f t Hf. unfold if_str. destruct (as_str o); auto. }
  assert (Hb : forall o (f : bool -> istate -> istate) t, (forall x w, st_users (f x w) = st_users w) ->
    st_users (if_bool o f t) = st_users t).
  { intros o f t Hf. unfold if_bool. destruct (as_bool o); auto. }
  repeat first [rewrite Hs by reflexivity | rewrite Hb by reflexivity]. reflexivity.
Qed.
