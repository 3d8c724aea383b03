(** * Loaded and changed states consist of C strings *)
From Coq Require Import String Ascii List Bool Arith NArith ZArith Lia.
From Verif Require Import JsonModel JsonProofs IamPolicyModel IamStateModel IamStateSpec IamStateProofs IamStateFrame IamStateInv IamStateReload
  IamJsonModel IamJsonSpec IamJsonProofs PerModel PerSpec PerProofs.
Import ListNotations.
Open Scope string_scope.
Open Scope list_scope.
Open Scope nat_scope.

(** ** Reading *)
Fixpoint jc (v : json) : Prop :=
  match v with
  | JStr s => c_string s
  | JArr l => fold_right (fun x P => jc x /\ P) True l
  | JObj l => fold_right (fun kv P => jc (snd kv) /\ P) True l
  | _ => True
  end.

Lemma cstr_c : forall s, c_string (cstr s).
Proof.
  intros s. apply no_nul_iff. induction s as [|c s IH]; cbn; [exact I|].
  destruct (N.eqb (N_of_ascii c) 0) eqn:H; [exact I|]. split; auto.
  intros ->. discriminate.
Qed.
Lemma parse_string_c : forall s x r, parse_string s = Some (x, r) -> c_string x.
Proof.
  intros s x r H. unfold parse_string in H. destruct (scan s) as [[b q]|]; [|discriminate].
  destruct (decode b); [|discriminate]. injection H as <- <-. apply cstr_c.
Qed.

Lemma parse_c : forall L f,
  (forall d s v r, parse_value L f d s = Some (v, r) -> jc v) /\
  (forall d s l r, parse_elems L f d s = Some (l, r) -> jc (JArr l)) /\
  (forall d s l r, parse_members L f d s = Some (l, r) -> jc (JObj l)).
Proof.
  intros L. induction f as [|f (IHv & IHe & IHm)]; [repeat split; intros; discriminate|].
  repeat split; intros d s v r H.
  - cbn [parse_value] in H.
    destruct (prefix "null" s); [injection H as <- _; exact I|].
    destruct (prefix "false" s); [injection H as <- _; exact I|].
    destruct (prefix "true" s); [injection H as <- _; exact I|]. destruct s as [|c s]; [discriminate|].
    destruct (Ascii.eqb c dq).
    { destruct (parse_string s) as [[x q]|] eqn:Hs; [|discriminate]. injection H as <- _.
      exact (parse_string_c _ _ _ Hs). }
    destruct (Ascii.eqb c "-" || (N.leb 48 (N_of_ascii c) && N.leb (N_of_ascii c) 57))%bool.
    { destruct (parse_number L (String c s)) as [[x q]|]; [|discriminate]. injection H as <- _. exact I. }
    destruct (Ascii.eqb c "[").
    { destruct (nesting_limit <=? d); [discriminate|]. destruct (skip_ws s) as [|e t]; [discriminate|].
      destruct (Ascii.eqb e "]"); [injection H as <- _; exact I|].
      destruct (parse_elems L f (S d) (String e t)) as [[l q]|] eqn:He; [|discriminate]. injection H as <- _.
      exact (IHe _ _ _ _ He). }
    destruct (Ascii.eqb c "{"); [|discriminate].
    destruct (nesting_limit <=? d); [discriminate|]. destruct (skip_ws s) as [|e t]; [discriminate|].
    destruct (Ascii.eqb e "}"); [injection H as <- _; exact I|].
    destruct (parse_members L f (S d) (String e t)) as [[l q]|] eqn:He; [|discriminate]. injection H as <- _.
    exact (IHm _ _ _ _ He).
  - cbn [parse_elems] in H. destruct (parse_value L f d (skip_ws s)) as [[x q]|] eqn:Hv; [|discriminate].
    destruct (skip_ws q) as [|c q']; [discriminate|]. destruct (Ascii.eqb c ",").
    + destruct (parse_elems L f d q') as [[l q'']|] eqn:He; [|discriminate]. injection H as <- _.
      split; [exact (IHv _ _ _ _ Hv)|exact (IHe _ _ _ _ He)].
    + destruct (Ascii.eqb c "]"); [|discriminate]. injection H as <- _. split; [exact (IHv _ _ _ _ Hv)|exact I].
  - cbn [parse_members] in H. destruct (skip_ws s) as [|q s1]; [discriminate|].
    destruct (negb (Ascii.eqb q dq)); [discriminate|]. destruct (parse_string s1) as [[k s2]|]; [|discriminate].
    destruct (skip_ws s2) as [|c s3]; [discriminate|]. destruct (negb (Ascii.eqb c ":")); [discriminate|].
    destruct (parse_value L f d (skip_ws s3)) as [[x q1]|] eqn:Hv; [|discriminate].
    destruct (skip_ws q1) as [|c' q']; [discriminate|]. destruct (Ascii.eqb c' ",").
    + destruct (parse_members L f d q') as [[l q'']|] eqn:He; [|discriminate]. injection H as <- _.
      split; [exact (IHv _ _ _ _ Hv)|exact (IHm _ _ _ _ He)].
    + destruct (Ascii.eqb c' "}"); [|discriminate]. injection H as <- _. split; [exact (IHv _ _ _ _ Hv)|exact I].
Qed.

Lemma parse_jc : forall L t v, parse L t = Some v -> jc v.
Proof.
  intros L t v H. unfold parse in H.
  destruct (parse_value L (S (String.length t)) 0 (skip_ws (skip_bom t))) as [[x r]|] eqn:Hv; [|discriminate].
  injection H as <-. exact (proj1 (parse_c L _) _ _ _ _ Hv).
Qed.

Lemma find_jc : forall k l v, jc (JObj l) -> find_member k l = Some v -> jc v.
Proof.
  intros k l v. induction l as [|[k' v'] l IH]; cbn; [discriminate|]. intros [H1 H2] H.
  destruct (eqb_nocase k k'); [now injection H as <-|auto].
Qed.
Lemma get_jc : forall k j v, jc j -> get_item j k = Some v -> jc v.
Proof. intros k [ | | | | |l] v Hj H; try discriminate. now apply (find_jc k l). Qed.
Lemma as_str_jc : forall k j s, jc j -> as_str (get_item j k) = Some s -> c_string s.
Proof.
  intros k j s Hj H. destruct (get_item j k) as [v|] eqn:Hg; [|discriminate].
  pose proof (get_jc _ _ _ Hj Hg). destruct v; try discriminate. cbn in *. congruence.
Qed.
Lemma as_arr_jc : forall k j l, jc j -> as_arr (get_item j k) = Some l -> forall x, In x l -> jc x.
Proof.
  intros k j l Hj H. destruct (get_item j k) as [v|] eqn:Hg; [|discriminate].
  pose proof (get_jc _ _ _ Hj Hg) as Hv. destruct v; try discriminate. cbn in *. injection H as ->.
  clear - Hv. induction l as [|a l IH]; intros x Hx; [destruct Hx|]. destruct Hv, Hx as [<-|Hx]; auto.
Qed.

(** ** Users *)
Ltac puser := let P := fresh in intros P;
  destruct P as (P1 & P2 & P3 & P4 & P5 & P6 & P7 & P8 & P9 & P10 & P11);
  unfold proper_user; cbn [u_name u_fps u_display u_password u_role u_sct u_fcm_token u_fcm_project u_oauth u_cats
    set_u_name set_u_display set_u_password set_u_role set_u_sct set_u_fcm_token set_u_fcm_project set_u_oauth set_u_cats
    set_u_fps user_add_fp set_u_id];
  repeat match goal with |- _ /\ _ => split end; auto.

Lemma new_proper : forall id n u, user_new id n = Some u -> proper_user u.
Proof.
  intros id n u H. apply user_new_spec in H. destruct H as [Hv ->].
  unfold proper_user. cbn. repeat match goal with |- _ /\ _ => split end; auto; try (intros ? []).
  - now apply validate_username_ok.
  - constructor.
Qed.
Lemma add_fp_proper : forall f nm u, c_string f -> opt_c_string nm -> proper_user u -> proper_user (user_add_fp f nm u).
Proof.
  intros f nm u Hf Hn. puser. intros g Hg. apply in_app_or in Hg. destruct Hg as [Hg|[<-|[]]]; auto.
Qed.
Lemma set_fp_proper : forall v u u', opt_c_string v -> user_set_fp v u = Some u' -> proper_user u -> proper_user u'.
Proof.
  intros v u u' Hv H. unfold user_set_fp in H.
  destruct v as [s|]; destruct (u_fps u) as [|g r] eqn:Hg; try discriminate; injection H as <-; puser;
    rewrite Hg in P2; intros h Hh; cbn in Hh.
  - destruct Hh as [<-|[]]. cbn. auto.
  - destruct Hh as [<-|Hh]; cbn; [split; auto; apply P2; now left|]. apply P2. now right.
  - apply P2. now right.
Qed.
Lemma remove_fp_proper : forall s u u', user_remove_fp s u = Some u' -> proper_user u -> proper_user u'.
Proof.
  intros s u u' H. unfold user_remove_fp in H. destruct (remove_first_fp s (u_fps u)) eqn:Hr; [|discriminate].
  injection H as <-. puser. intros g Hg.
  assert (Hall : Forall (fun f => c_string (fp_val f) /\ opt_c_string (fp_name f)) l).
  { eapply remove_first_forall; eauto. now apply Forall_forall. }
  rewrite Forall_forall in Hall. auto.
Qed.

Lemma strings_skip_c : forall l acc, (forall x, In x l -> jc x) -> NoDup acc -> (forall x, In x acc -> c_string x) ->
  let r := fold_left (fun acc j => match j with JStr s => set_insert s acc | _ => acc end) l acc in
  NoDup r /\ (forall x, In x r -> c_string x).
Proof.
  induction l as [|j l IH]; intros acc Hl Hn Hc; cbn; [auto|]. apply IH.
  - intros x Hx. apply Hl. now right.
  - destruct j; auto. unfold set_insert. destruct (set_contains acc s) eqn:Hs; auto.
    assert (~ In s acc).
    { intros Hin. unfold set_contains in Hs. rewrite (proj2 (existsb_exists _ _)) in Hs; [discriminate|].
      exists s. split; [exact Hin|apply String.eqb_refl]. }
    clear - Hn H. induction acc as [|a acc IHa]; cbn; [constructor; auto; constructor|].
    inversion Hn; subst. constructor.
    + rewrite in_app_iff. intros [Ha|[<-|[]]]; [auto|apply H; now left].
    + apply IHa; auto. intros Hin. apply H. now right.
  - destruct j; auto. intros x Hx. apply set_insert_in in Hx. destruct Hx as [-> |Hx]; auto.
    apply (Hl (JStr s)). now left.
Qed.

Lemma if_str_user : forall k j (f : string -> user -> user) u, jc j -> proper_user u ->
  (forall s v, c_string s -> proper_user v -> proper_user (f s v)) -> proper_user (if_str (get_item j k) f u).
Proof.
  intros k j f u Hj Hu Hf. unfold if_str. destruct (as_str (get_item j k)) as [s|] eqn:Hs; auto.
  apply Hf; auto. exact (as_str_jc _ _ _ Hj Hs).
Qed.

Lemma if_str_opt : forall o (f : string -> user -> user) u, (forall s, as_str o = Some s -> c_string s) -> proper_user u ->
  (forall s v, c_string s -> proper_user v -> proper_user (f s v)) -> proper_user (if_str o f u).
Proof. intros o f u Ho Hu Hf. unfold if_str. destruct (as_str o) as [s|] eqn:Hs; auto. Qed.

Lemma user_json_proper : forall id j v u, jc j -> user_from_json id j v = Some u -> proper_user u.
Proof.
  intros id j v u Hj H. unfold user_from_json in H.
  destruct (as_str (get_item j "Username")) as [n|]; [|discriminate].
  destruct (user_new id n) as [u0|] eqn:H0; [|discriminate]. apply new_proper in H0.
  injection H as <-.
  assert (Hf : forall k s, as_str (match get_item j "Fcm" with Some (JObj l) => get_item (JObj l) k | _ => None end) = Some s -> c_string s).
  { intros k s Hs. destruct (get_item j "Fcm") as [w|] eqn:Hw; [|discriminate]. pose proof (get_jc _ _ _ Hj Hw).
    destruct w; try discriminate. exact (as_str_jc _ _ _ H Hs). }
  assert (Hcats : forall w, proper_user w -> proper_user
     match as_arr (get_item j "NotificationCategories") with Some l => set_u_cats (strings_skip l) w | None => w end).
  { intros w Hw. destruct (as_arr (get_item j "NotificationCategories")) as [l|] eqn:Hl; auto.
    destruct (strings_skip_c l [] (as_arr_jc _ _ _ Hj Hl) (NoDup_nil _) ltac:(intros ? [])) as [N1 N2].
    revert Hw. unfold strings_skip. puser. }
  assert (Hfps : forall w, proper_user w -> proper_user (fps_from_json j v w)).
  { intros w Hw. unfold fps_from_json. destruct (Z.eqb v 1).
    - destruct (as_str (get_item j "Fingerprint")) as [f|] eqn:Hs; auto.
      destruct (user_set_fp (Some f) w) eqn:Hset; auto. eapply set_fp_proper; eauto. exact (as_str_jc _ _ _ Hj Hs).
    - destruct (Z.eqb v 2); auto. destruct (as_arr (get_item j "Fingerprints")) as [l|] eqn:Hl; auto.
      pose proof (as_arr_jc _ _ _ Hj Hl) as Hall. clear - Hall Hw. revert w Hw.
      induction l as [|a l IH]; intros w Hw; cbn; auto. apply IH; [intros; apply Hall; now right|].
      unfold add_fp_json. destruct (as_str (get_item a "Fingerprint")) as [f|] eqn:Hs; auto.
      assert (Ha : jc a) by (apply Hall; now left).
      apply add_fp_proper; auto; [exact (as_str_jc _ _ _ Ha Hs)|].
      destruct (as_str (get_item a "Name")) as [m|] eqn:Hm; [exact (as_str_jc _ _ _ Ha Hm)|exact I]. }
  apply if_str_user; auto; [|intros s w Hs; puser].
  apply Hcats.
  apply if_str_opt; [apply Hf| |intros ? w ?; puser].
  apply if_str_opt; [apply Hf| |intros ? w ?; puser].
  apply if_str_user; auto; [|intros ? w ?; puser].
  apply if_str_user; auto; [|intros ? w ?; puser].
  apply if_str_user; auto; [|intros ? w ?; puser].
  apply Hfps, if_str_user; auto; intros ? w ?; puser.
Qed.

Lemma add_users_proper : forall v l id s, (forall x, In x l -> jc x) -> proper_state s -> proper_state (add_users id v l s).
Proof.
  intros v. induction l as [|j l IH]; intros id s Hl Hs; cbn; auto.
  destruct (user_from_json id j v) as [u|] eqn:Hu; [|apply IH; auto; intros; apply Hl; now right].
  apply IH; [intros; apply Hl; now right|]. destruct Hs as (A & B & C & D & F & G).
  unfold proper_state; cbn. repeat match goal with |- _ /\ _ => split end; auto.
  intros w Hw. apply in_app_or in Hw. destruct Hw as [Hw|[<-|[]]]; auto.
  eapply user_json_proper; eauto. apply Hl. now left.
Qed.

Ltac pstate := let P := fresh in intros P;
  destruct P as (P1 & P2 & P3 & P4 & P5 & P6);
  unfold proper_state; cbn [st_pw_open_password st_pw_open_sct st_open_role st_initial_user st_friendly st_users
    st_set_pw st_set_sct st_set_role st_set_initial with_bools with_friendly with_users
    st_set_local_open st_set_pw_open st_set_pw_invite st_set_local_initial];
  repeat match goal with |- _ /\ _ => split end; auto.

Lemma if_str_state : forall k j (f : string -> istate -> istate) s, jc j -> proper_state s ->
  (forall x v, c_string x -> proper_state v -> proper_state (f x v)) -> proper_state (if_str (get_item j k) f s).
Proof.
  intros k j f u Hj Hu Hf. unfold if_str. destruct (as_str (get_item j k)) as [s|] eqn:Hs; auto.
  apply Hf; auto. exact (as_str_jc _ _ _ Hj Hs).
Qed.
Lemma if_bool_state : forall o (f : bool -> istate -> istate) s, proper_state s ->
  (forall x v, proper_state v -> proper_state (f x v)) -> proper_state (if_bool o f s).
Proof. intros o f s Hs Hf. unfold if_bool. destruct (as_bool o); auto. Qed.

Lemma empty_proper : proper_state empty_state.
Proof. unfold proper_state. cbn. repeat match goal with |- _ /\ _ => split end; auto; intros ? []. Qed.

Lemma load_proper : forall L id t s, state_load L id empty_state t = (s, true) -> proper_state s.
Proof.
  intros L id t s H. unfold state_load in H. destruct (parse L t) as [j|] eqn:Hp; [|discriminate].
  apply parse_jc in Hp. unfold state_from_json in H. destruct j as [ | | | | |m]; try discriminate.
  destruct (get_item (JObj m) "Version") as [[ | |v| | | ]|]; try discriminate.
  destruct (Z.ltb 2 v); [discriminate|].
  match type of H with context [add_users id v _ ?z] => set (s9 := z) in H end.
  assert (H9 : proper_state s9).
  { unfold s9. repeat (apply if_str_state; auto; [|intros ? ? ?; pstate]).
    repeat (apply if_bool_state; [|intros ? ?; pstate]).
    repeat (apply if_str_state; auto; [|intros ? ? ?; pstate]). apply empty_proper. }
  destruct (as_arr (get_item (JObj m) "Users")) as [l|] eqn:Hl; injection H as <-; auto.
  apply add_users_proper; auto. exact (as_arr_jc _ _ _ Hp Hl).
Qed.
