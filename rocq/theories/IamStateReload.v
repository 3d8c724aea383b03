(** Reloading, dangling users, closed connections and token registration. *)
From Coq Require Import String Ascii List Bool Arith NArith Lia.
From Verif Require Import IamPolicyModel IamPolicySpec IamPolicyProofs IamStateModel IamStateSpec IamStateProofs IamStateInv IamStateFrame.
Import ListNotations.
Open Scope string_scope.
Set Implicit Arguments.
Unset Strict Implicit.

(** ** C12 *)
Lemma cl_iff : forall lo hi s, check_length lo hi s = true <-> match s with Some s => (lo <= strlen s <= hi)%N | None => True end.
Proof.
  intros lo hi [s|]; simpl; [|tauto]. rewrite negb_true_iff, orb_false_iff, !N.ltb_ge. tauto.
Qed.

Definition opt_in (lo hi : N) (s : option string) : Prop := match s with Some s => (lo <= strlen s <= hi)%N | None => True end.

Record vuser (l : limits) (cats : list string) (u : user) : Prop := {
  vu_name : (strlen (u_name u) <= l_username l)%N;
  vu_display : opt_in 0 (l_display l) (u_display u);
  vu_password : opt_in (l_pw_min l) (l_pw_max l) (u_password u);
  vu_fps : Forall (fun f => strlen (fp_val f) = 64%N) (u_fps u);
  vu_sct : opt_in 0 (l_sct l) (u_sct u);
  vu_token : opt_in 0 (l_fcm_token l) (u_fcm_token u);
  vu_project : opt_in 0 (l_fcm_project l) (u_fcm_project u);
  vu_oauth : opt_in 0 (l_oauth l) (u_oauth u);
  vu_cats : forallb (set_contains cats) (u_cats u) = true
}.

Lemma vuser_iff : forall l cats u, validate_user l cats u = true <-> vuser l cats u.
Proof.
  intros l cats u. unfold validate_user. rewrite !andb_true_iff, !cl_iff, negb_true_iff, N.ltb_ge, forallb_forall.
  split.
  - intros ((((((((H1 & H2) & H3) & H4) & H5) & H6) & H7) & H8) & H9). constructor; auto.
    apply Forall_forall. intros f Hf. apply N.eqb_eq. now apply H4.
  - intros [H1 H2 H3 H4 H5 H6 H7 H8 H9]. repeat split; auto. intros f Hf. apply N.eqb_eq. rewrite Forall_forall in H4. now apply H4.
Qed.

Record vstate (l : limits) (cats : list string) (s : istate) : Prop := {
  vs_count : (N.of_nat (length (st_users s)) <= l_max_users l)%N;
  vs_pw : opt_in (l_pw_min l) (l_pw_max l) (st_pw_open_password s);
  vs_sct : opt_in 0 (l_sct l) (st_pw_open_sct s);
  vs_init : opt_in 0 (l_username l) (st_initial_user s);
  vs_friendly : opt_in 0 (l_friendly l) (st_friendly s);
  vs_users : Forall (vuser l cats) (st_users s)
}.

Lemma vstate_iff : forall l cats s, validate_state l cats s = true <-> vstate l cats s.
Proof.
  intros l cats s. unfold validate_state. rewrite !andb_true_iff, !cl_iff, negb_true_iff, N.ltb_ge, forallb_forall.
  split.
  - intros (((((H1 & H2) & H3) & H4) & H5) & H6). constructor; auto.
    apply Forall_forall. intros u Hu. apply vuser_iff. auto.
  - intros [H1 H2 H3 H4 H5 H6]. repeat split; auto. intros u Hu. apply vuser_iff. rewrite Forall_forall in H6. auto.
Qed.

Definition vi (i : iam) : Prop := vstate (i_lim i) (i_cats i) (i_state i).

Lemma vi_upd : forall i n u u', vi i -> find_user (users i) (Some n) = Some u ->
  (vuser (i_lim i) (i_cats i) u -> vuser (i_lim i) (i_cats i) u') -> vi (upd n u' i).
Proof.
  intros i n u u' V Hu HV. apply find_split in Hu. destruct Hu as (pre & post & He & Hn & Hp).
  destruct V as [H1 H2 H3 H4 H5 H6]. unfold users in He. rewrite He in H1, H6.
  apply Forall_app in H6. destruct H6 as [H6 H7]. inversion H7; subst.
  constructor; simpl; auto; unfold users; rewrite He, update_user_app by auto.
  - rewrite app_length in *. simpl in *. exact H1.
  - apply Forall_app. split; auto.
Qed.

Lemma vi_add : forall i u t, vi i -> (user_count i < l_max_users (i_lim i))%N -> vuser (i_lim i) (i_cats i) u -> vi (addu u t i).
Proof.
  intros i u t [H1 H2 H3 H4 H5 H6] Hc Hu. constructor; simpl; auto.
  - unfold users, user_count in *. rewrite app_length. simpl. unfold users in Hc. lia.
  - apply Forall_app. split; auto.
Qed.

Lemma vi_remove : forall i n u, vi i -> find_user (users i) (Some n) = Some u -> vi (mark_changed (set_users (remove_user n (users i)) i)).
Proof.
  intros i n u V Hu. apply find_split in Hu. destruct Hu as (pre & post & He & Hn & Hp).
  destruct V as [H1 H2 H3 H4 H5 H6]. unfold users in He. rewrite He in H1, H6.
  apply Forall_app in H6. destruct H6 as [H6 H7]. inversion H7; subst.
  constructor; simpl; auto; unfold users; rewrite He, remove_user_app by auto.
  - rewrite app_length in *. simpl in *. lia.
  - apply Forall_app. split; auto.
Qed.

Lemma vi_dc : forall i, vi i -> vi (do_callbacks i).
Proof. intros i [H1 H2 H3 H4 H5 H6]. constructor; auto. Qed.

Lemma vi_mode : forall i m b, vi i -> vi (mark_changed (set_state (set_mode m b (i_state i)) i)).
Proof. intros i m b [H1 H2 H3 H4 H5 H6]. destruct m; constructor; auto. Qed.

Lemma vuser_add_fp : forall l cats u f nm, strlen f = 64%N -> vuser l cats u -> vuser l cats (user_add_fp f nm u).
Proof.
  intros l cats u f nm Hf [H1 H2 H3 H4 H5 H6 H7 H8 H9]. constructor; simpl; auto. apply Forall_app. split; auto.
Qed.

Lemma vuser_set_fp : forall l cats u v u', opt_in 64 64 v -> user_set_fp v u = Some u' -> vuser l cats u -> vuser l cats u'.
Proof.
  intros l cats u v u' Hv H [H1 H2 H3 H4 H5 H6 H7 H8 H9]. unfold user_set_fp in H.
  destruct v as [s|]; destruct (u_fps u) as [|g r] eqn:Hg; try discriminate; injection H as <-; constructor; simpl; auto.
  - constructor; auto. simpl in *. lia.
  - inversion H4; subst. constructor; auto. simpl in *. lia.
  - now inversion H4.
Qed.

Lemma remove_first_forall : forall (P : fprint -> Prop) s l l', remove_first_fp s l = Some l' -> Forall P l -> Forall P l'.
Proof.
  intros P s l l' H HF. apply remove_first_split in H. destruct H as (a & b & c & -> & -> & _).
  apply Forall_app in HF. destruct HF as [F1 F2]. inversion F2; subst. apply Forall_app. auto.
Qed.

Lemma vuser_remove_fp : forall l cats u s u', user_remove_fp s u = Some u' -> vuser l cats u -> vuser l cats u'.
Proof.
  intros l cats u s u' H [H1 H2 H3 H4 H5 H6 H7 H8 H9]. unfold user_remove_fp in H.
  destruct (remove_first_fp s (u_fps u)) eqn:Hr; [|discriminate]. injection H as <-. constructor; simpl; auto.
  eapply remove_first_forall; eauto.
Qed.

Ltac vs := let V := fresh in intros V; destruct V; constructor; simpl; auto; try lia;
  repeat match goal with s : option string |- _ => destruct s; simpl in *; auto end; try lia.

Lemma vi_paired : forall c x i i', vi i -> paired c x i i' -> (forall f, cn_fp c = Some f -> strlen f = 64%N) ->
  (user_count i < l_max_users (i_lim i))%N -> vi i'.
Proof.
  intros c x i i' V (n & f & fn & ro & t & u & Hc & Hv & Hl & Hn & Hf & Hr & Ht & Hu & ->) H64 Hcnt.
  apply vi_add; auto. apply user_new_spec in Hu. destruct Hu as [_ ->].
  constructor; simpl; auto. lia.
Qed.

Lemma vi_step : forall E i o i', vi i -> reload_safe i o -> step E i o = Some i' -> vi i'.
Proof.
  intros E i [x o] i' V HR H. destruct o; simpl in H; cbn [reload_safe snd fst] in HR.
  - destruct (run_api x i a) as [i1 e|] eqn:Ha; [|discriminate]. injection H as <-.
    apply api_inv in Ha. destruct Ha as [[_ [->|[->| ->]]]|[[_ H]|[_ T]]].
    1-3: destruct V; constructor; auto.
    + destruct a; try contradiction. subst. destruct V; constructor; auto.
    + destruct a; cbn [atrans] in T.
      * destruct T as (m & t & u & -> & Hv & Hl & Hm & Hn & Hs & Hu & Ha & ->).
        apply vi_add; auto. apply user_new_spec in Hu. destruct Hu as [_ ->]. constructor; simpl; auto.
        split; [lia|]. now apply HR.
      * destruct T as (m & f & u & u' & -> & -> & Hl & Hu & Hs & ->). eapply vi_upd; eauto.
        eapply vuser_set_fp; eauto. simpl. lia.
      * destruct T as (m & f & nm & u & -> & -> & -> & Hl & _ & Hu & ->). eapply vi_upd; eauto. now apply vuser_add_fp.
      * destruct T as (m & f & u & u' & -> & -> & Hu & Hs & ->). eapply vi_upd; eauto. eapply vuser_remove_fp; eauto.
      * destruct T as (m & s & u & -> & -> & Hl & Hu & ->). eapply vi_upd; eauto. vs.
      * destruct T as (m & s & u & -> & -> & Hl & Hu & ->). eapply vi_upd; eauto. vs.
      * destruct T as (m & s & u & -> & -> & Hl & Hu & ->). eapply vi_upd; eauto. vs.
      * destruct T as (m & s & u & -> & -> & Hl & Hu & ->). eapply vi_upd; eauto. vs.
      * destruct T as (m & s & u & -> & -> & Hl & Hu & ->). eapply vi_upd; eauto. vs.
      * destruct T as (m & s & u & -> & -> & Hl & Hu & ->). eapply vi_upd; eauto. vs.
      * destruct T as (m & u & -> & Hl & Hu & ->). eapply vi_upd; eauto. vs.
      * destruct T as (m & s & u & -> & -> & Hl & Hu & ->). eapply vi_upd; eauto. vs.
      * destruct T as (m & u & -> & Hu & ->). eapply vi_remove; eauto.
      * destruct T as (u & m & -> & Hu & ->). destruct V; constructor; auto.
      * subst. apply vi_dc. now apply vi_mode.
  - destruct (coap E x c i r) as [i1 k|] eqn:Ha; [|discriminate]. injection H as <-.
    apply coap_resp in Ha. destruct Ha as (i2 & -> & Ha). apply vi_dc. apply handle_inv in Ha.
    destruct Ha as [[[->| ->] _]|[_ T]].
    1,2: destruct V; constructor; auto.
    destruct r; cbn [trans] in T.
    + destruct T as (n & t & u & _ & Hv & Hl & Hm & Hn & Hs & Hsl & Hu & Ha & -> & _).
      apply vi_add; auto. apply user_new_spec in Hu. destruct Hu as [_ ->]. constructor; simpl; auto. lia.
    + destruct T as (u & Hu & -> & _). eapply vi_remove; eauto.
    + destruct T as (u & nm & _ & Hu & Hf & -> & _). eapply vi_upd; eauto. now apply vuser_add_fp.
    + destruct T as (u & u' & Hu & Hr & -> & _). eapply vi_upd; eauto. eapply vuser_remove_fp; eauto.
    + destruct T as (u & n' & _ & Hu & Hn & Hv & Hl & -> & _). eapply vi_upd; eauto. vs.
    + destruct T as (u & s & _ & Hu & _ & -> & _). eapply vi_upd; eauto. vs.
    + destruct T as (u & s & _ & Hu & Hl & -> & _). eapply vi_upd; eauto. vs.
    + destruct T as (u & s & u' & _ & Hu & Hf & Hl & Hs & -> & _). eapply vi_upd; eauto. eapply vuser_set_fp; eauto.
      destruct s; simpl in *; lia.
    + destruct T as (u & s & _ & Hu & Hl & -> & _). eapply vi_upd; eauto. vs.
    + destruct T as (u & t & p & _ & Hu & Hl1 & Hl2 & -> & _). eapply vi_upd; eauto. vs.
    + destruct T as (u & s & _ & Hu & Hl & -> & _).
      assert (vi (upd user (set_u_sct (Some s) u) i)) by (eapply vi_upd; eauto; vs).
      destruct (x_add x s); auto.
    + destruct T as (u & s & _ & Hu & Hl & -> & _). eapply vi_upd; eauto. vs.
    + destruct T as (u & l & _ & Hu & Hl & -> & _). eapply vi_upd; eauto. vs.
    + destruct T as (n & u & f & nm & _ & _ & _ & Hu & _ & Hf & -> & _). eapply vi_upd; eauto. apply vuser_add_fp. auto.
    + destruct T as (_ & _ & T & _). destruct HR. eapply vi_paired; eauto.
    + destruct T as (n & u & f & nm & _ & _ & _ & Hu & Hf & Hff & -> & _). eapply vi_upd; eauto. intros HV.
      apply (@vuser_add_fp _ _ _ f nm) in HV; auto. destruct HV; constructor; simpl; auto.
    + destruct T as (_ & _ & _ & T & _). destruct HR. eapply vi_paired; eauto.
    + destruct T as (m & b & _ & _ & _ & -> & _). now apply vi_mode.
    + destruct T as (s & _ & _ & Hl & -> & _). destruct V; constructor; simpl; auto. lia.
  - destruct (check_access E i c action m); [|discriminate]. now injection H as <-.
  - injection H as <-. destruct V; constructor; auto.
  - injection H as <-. destruct (load_state x i s) as [i1 b] eqn:Hl. simpl.
    apply load_inv in Hl. destruct Hl as (_ & L2 & L3 & _ & _ & _ & _ & [(_ & H1 & _)|(_ & Hv & H1 & _)]).
    + unfold vi. rewrite L2, L3, H1. exact V.
    + apply vstate_iff in Hv. unfold vi. rewrite L2, L3, H1. destruct Hv. constructor; simpl; auto.
      * now rewrite renumber_length.
      * clear - vs_users0. generalize (i_next i). induction vs_users0 as [|u us Hu Hus IH]; intros n; simpl; constructor; auto.
        destruct Hu; constructor; auto.
  - injection H as <-. destruct (load_conf i c) as [i1 b] eqn:Hl. simpl.
    apply load_conf_inv in Hl. destruct Hl as [-> | ->]; auto.
  - contradiction.
  - contradiction.
Qed.

Lemma add_tokens_ok : forall x ts i, (forall t, x_add x t = true) -> snd (add_tokens x ts i) = true.
Proof. intros x ts. induction ts as [|[t|] ts IH]; intros i H; simpl; auto. rewrite H. auto. Qed.

Lemma renumber_same : forall us n, Forall2 same_user us (renumber n us).
Proof. induction us; intros n; simpl; constructor; auto. intros f. destruct f; reflexivity. Qed.

Lemma reload_valid : forall i x, vi i -> ext_ok x ->
  exists i2, load_state x (restarted i) (i_state i) = (i2, true) /\ same_state (i_state i) (i_state i2).
Proof.
  intros i x V [Hx Hm]. apply vstate_iff in V.
  destruct (load_state x (restarted i) (i_state i)) as [i2 b] eqn:Hl. exists i2.
  assert (b = true).
  { unfold load_state in Hl. simpl i_lim in Hl. simpl i_cats in Hl. rewrite V in Hl. cbn [negb] in Hl.
    pose proof (@add_tokens_ok x [st_pw_open_sct (i_state i)] (restarted i) Hx) as T1.
    destruct (add_tokens x [st_pw_open_sct (i_state i)] (restarted i)) as [i3 b3]. simpl in T1. subst b3. cbn [negb] in Hl.
    rewrite Hm in Hl. cbn [negb] in Hl.
    assert (Hf : match st_friendly (i_state i) with Some _ => false | None => false end = false) by (destruct (st_friendly _); auto).
    rewrite Hf in Hl.
    pose proof (@add_tokens_ok x (map u_sct (st_users (i_state i))) i3 Hx) as T2.
    destruct (add_tokens x (map u_sct (st_users (i_state i))) i3) as [i4 b4]. simpl in T2. subst b4. cbn [negb] in Hl.
    now injection Hl. }
  subst b. split; auto. apply load_inv in Hl. destruct Hl as (_ & _ & _ & _ & _ & _ & _ & [(H & _)|(_ & _ & H & _)]); [discriminate|].
  rewrite H. split; [reflexivity|]. apply renumber_same.
Qed.

Lemma vi_init : forall l cats, vi (set_categories cats (set_limits l iam_init)).
Proof. intros. constructor; simpl; auto. lia. Qed.

Lemma reload_always : forall E l cats ops i x, let i0 := set_categories cats (set_limits l iam_init) in
  along E reload_safe i0 ops -> run E i0 ops = Some i -> ext_ok x ->
  exists i2, load_state x (restarted i) (i_state i) = (i2, true) /\ same_state (i_state i) (i_state i2).
Proof.
  intros E l cats ops i x i0 Ha Hr Hx. apply reload_valid; auto.
  eapply (@run_inv vi E reload_safe); eauto.
  - intros. eapply vi_step; eauto.
  - apply vi_init.
Qed.

(** ** C17 *)
Definition live (i : iam) : Prop := forall r id, In (r, id) (i_auth i) -> In id (map u_id (users i)).

Lemma live_ids : forall i i' x o, uch i i' x o -> removal_safe i (x, o) -> incl (i_auth i') (i_auth i) -> live i -> live i'.
Proof.
  intros i i' x o H HR Ha HL r id Hin. apply Ha in Hin. pose proof (HL _ _ Hin) as HI.
  destruct H as [He _|u He _ _ _ _ _ _|pre u u' post He He' _ Ho|pre u post He He' _ Hm|s Ho He _ _].
  - now rewrite He.
  - rewrite He, map_app, in_app_iff. auto.
  - rewrite He', map_app. rewrite He, map_app in HI. simpl in *. now rewrite (uo_id Ho).
  - rewrite He', map_app. rewrite He, map_app in HI. simpl in HI.
    apply in_app_iff in HI. apply in_app_iff. destruct HI as [HI|[HI|HI]]; auto. exfalso.
    assert (S : forall n, u_name u = n -> (forall v r, In v (users i) -> u_name v = n -> ~ In (r, u_id v) (i_auth i)) -> False).
    { intros n Hn HS. apply (HS u r); auto. rewrite He. apply in_app_iff. right. now left. now rewrite HI. }
    destruct o as [a|c q| | | | | |]; try contradiction.
    + destruct a; try contradiction. destruct name as [n|]; [|contradiction]. cbn in HR. eapply S; eauto.
    + destruct q; try contradiction. cbn in HR. eapply S; eauto.
  - subst o. cbn in HR. rewrite HR in Hin. destruct Hin.
Qed.

Lemma erase_first_incl : forall r l, incl (erase_first_ref r l) l.
Proof.
  intros r l. induction l as [|a l IH]; simpl; [apply incl_refl|]. destruct (Nat.eqb (fst a) r).
  - apply incl_tl, incl_refl.
  - intros z [->|Hz]; [now left|right; auto].
Qed.

Lemma live_step : forall E i o i', live i -> removal_safe i o -> step E i o = Some i' -> live i'.
Proof.
  intros E i [x o] i' HL HR H. pose proof (step_uch H) as U. destruct o; simpl in H.
  - destruct (run_api x i a) as [i1 e|] eqn:Ha; [|discriminate]. injection H as <-.
    apply api_fixed in Ha. destruct Ha as (_ & _ & _ & _ & [Ha|(r & n & u & -> & Hu & Ha & Hs)]).
    + eapply live_ids; eauto. rewrite Ha. apply incl_refl.
    + intros r' id Hin. rewrite Ha in Hin. unfold users. rewrite Hs. fold (users i).
      apply in_app_iff in Hin. destruct Hin as [Hin|[[= <- <-]|[]]]; [eauto|].
      apply in_map. apply find_split in Hu. destruct Hu as (pre & post & -> & _). apply in_app_iff. right. now left.
  - destruct (coap E x c i r) as [i1 k|] eqn:Ha; [|discriminate]. injection H as <-. eapply live_ids; eauto.
    apply coap_resp in Ha. destruct Ha as (i2 & -> & Ha). apply handle_fixed in Ha. destruct Ha as [(_ & _ & _ & Ha) _].
    simpl. rewrite Ha. apply incl_refl.
  - destruct (check_access E i c action m); [|discriminate]. now injection H as <-.
  - injection H as <-. eapply live_ids; eauto. simpl. apply erase_first_incl.
  - injection H as <-. eapply live_ids; eauto. destruct (load_state x i s) as [i1 b] eqn:Hl. simpl.
    apply load_inv in Hl. destruct Hl as (_ & _ & _ & -> & _). apply incl_refl.
  - injection H as <-. eapply live_ids; eauto. destruct (load_conf i c) as [i1 b] eqn:Hl. simpl.
    apply load_conf_inv in Hl. destruct Hl as [-> | ->]; apply incl_refl.
  - injection H as <-. eapply live_ids; eauto. apply incl_refl.
  - injection H as <-. eapply live_ids; eauto. apply incl_refl.
Qed.

Lemma live_init : live iam_init.
Proof. intros r id []. Qed.

Lemma live_access : forall E i c action m, live i -> check_access E i c action m <> None.
Proof.
  intros E i c action m HL. unfold check_access.
  assert (R : resolve_user i c <> None).
  { unfold resolve_user. destruct (find_user_fp (users i) (cn_fp c)); [discriminate|].
    destruct (if cn_pwauth c then find_user (users i) (cn_pwname c) else None); [discriminate|].
    destruct (find _ (i_auth i)) as [[r id]|] eqn:Hf; [|discriminate].
    apply find_some in Hf. destruct Hf as [Hin _]. apply HL in Hin. apply in_map_iff in Hin.
    destruct Hin as (u & Hid & Hu). destruct (deref (users i) id) eqn:Hd; [discriminate|].
    exfalso. unfold deref in Hd. apply (find_none _ _ Hd) in Hu. rewrite Hid, Nat.eqb_refl in Hu. discriminate. }
  destruct (cn_fp c); [|destruct (cn_virtual c); [|discriminate]]; destruct (resolve_user i c) as [[u|]|]; congruence.
Qed.

Lemma no_dangling : forall E ops i c action m, along E removal_safe iam_init ops -> run E iam_init ops = Some i ->
  check_access E i c action m <> None.
Proof.
  intros E ops i c action m Ha Hr. apply live_access.
  eapply (@run_inv live E removal_safe); eauto.
  - intros. eapply live_step; eauto.
  - apply live_init.
Qed.

(** No undefined behaviour at all while users stay alive, except for the null
    username of a create request. *)
Lemma guard_def : forall i v k, v <> None -> k <> CUndefined -> guard i v k <> CUndefined.
Proof. intros i [[|]|] k; simpl; congruence. Qed.

Lemma coap_on_user_def : forall i n f a b k, coap_on_user i n f a b k <> CUndefined.
Proof. intros. unfold coap_on_user. destruct (find_user _ _); [destruct (f u)|]; discriminate. Qed.

Lemma on_user_def : forall i n f, on_user i n f <> Undefined.
Proof. intros. unfold on_user. destruct n; [destruct (find_user _ _); [destruct (f u)|]|]; discriminate. Qed.

Lemma handle_def : forall E x c i r, (forall action m, check_access E i c action m <> None) ->
  r <> RqCreateUser (PlOk CbNull) -> handle E x c i r <> CUndefined.
Proof.
  intros E x c i r HA Hr. destruct r; cbn [handle].
  - apply guard_def; auto. destruct (N.leb _ _); [discriminate|]. destruct username as [| |v]; try discriminate.
    destruct v as [| |s]; simpl; try discriminate; [congruence|].
    destruct (N.ltb _ _); [|discriminate]. destruct (negb _); [discriminate|]. destruct (N.ltb _ _); [discriminate|].
    destruct (find _ _); [discriminate|]. destruct (user_new _ _); [|discriminate]. destruct (x_sct x); [|discriminate].
    destruct (N.ltb _ _); discriminate.
  - apply guard_def; auto. unfold api_delete_user. destruct (find_user _ _); discriminate.
  - destruct fpname; try discriminate. apply guard_def; auto. destruct (find_user_fp _ _); [discriminate|]. apply coap_on_user_def.
  - apply guard_def; auto. apply coap_on_user_def.
  - destruct v; try discriminate. destruct (decode_string _) as [[n|]|]; try discriminate.
    destruct (negb _); [discriminate|]. destruct (N.ltb _ _); [discriminate|]. apply guard_def; auto.
    destruct (find_user _ _); [discriminate|]. apply coap_on_user_def.
  - destruct v; try discriminate. destruct (decode_string _) as [[n|]|]; try discriminate. apply guard_def; auto.
    unfold api_set_role. destruct (find_user _ _); [|discriminate]. destruct (find_role _ _); [|discriminate].
    destruct (on_user _ _ _) as [i1 []|] eqn:Ho; try discriminate. now apply on_user_def in Ho.
  - destruct v; try discriminate. destruct (decode_string _) as [n|]; try discriminate.
    match goal with |- (if ?b then _ else _) <> _ => destruct b; [discriminate|] end. apply guard_def; auto. apply coap_on_user_def.
  - destruct v; try discriminate. destruct (decode_string _) as [n|]; try discriminate.
    match goal with |- (if ?b then _ else _) <> _ => destruct b; [discriminate|] end. apply guard_def; auto.
    destruct (find_user_fp _ _); [discriminate|]. apply coap_on_user_def.
  - destruct v; try discriminate. destruct (decode_string _) as [n|]; try discriminate.
    match goal with |- (if ?b then _ else _) <> _ => destruct b; [discriminate|] end. apply guard_def; auto. apply coap_on_user_def.
  - destruct v; try discriminate. apply guard_def; auto. apply coap_on_user_def.
  - destruct v; try discriminate. destruct (decode_string _) as [[n|]|]; try discriminate.
    destruct (N.ltb _ _); [discriminate|]. apply guard_def; auto.
    destruct (coap_on_user i user (fun u => Some (set_u_sct (Some n) u)) 404 500 204) as [i1 k|] eqn:Ho.
    + apply coap_on_user_inv in Ho. destruct Ho as [[-> [-> | ->]]|(u & u' & Hu & Hf & -> & ->)]; discriminate.
    + now apply coap_on_user_def in Ho.
  - destruct v; try discriminate. destruct (decode_string _) as [n|]; try discriminate.
    match goal with |- (if ?b then _ else _) <> _ => destruct b; [discriminate|] end. apply guard_def; auto. apply coap_on_user_def.
  - destruct v as [| |[l|]]; try discriminate. apply guard_def; auto.
    unfold api_set_cats. destruct (find_user _ _); [|discriminate]. destruct (forallb _ _); [|discriminate].
    destruct (on_user _ _ _) as [i1 []|] eqn:Ho; try discriminate. now apply on_user_def in Ho.
  - destruct (negb _); [discriminate|]. destruct (check_access _ _ _ _ _) as [[|]|] eqn:Ha; [|discriminate|now apply HA in Ha].
    destruct (negb _); [discriminate|]. destruct (st_initial_user _); [|discriminate]. destruct (find_user _ _); [|discriminate].
    destruct (is_user_paired _); [discriminate|].
    match goal with |- match ?b with _ => _ end <> _ => destruct b; [|discriminate] end.
    destruct (cn_fp c); [|discriminate]. apply coap_on_user_def.
  - destruct (negb _); [discriminate|]. destruct (check_access _ _ _ _ _) as [[|]|] eqn:Ha; [|discriminate|now apply HA in Ha].
    destruct (negb _); [discriminate|]. destruct (cn_fp c); [|discriminate]. destruct v as [| |[un fn]]; try discriminate.
    destruct (decode_string _) as [[n|]|]; try discriminate. destruct (pair_new_client _ _ _ _ _). discriminate.
  - destruct (negb _); [discriminate|]. apply guard_def; auto. destruct (negb _); [discriminate|].
    destruct (cn_pwname c); [|discriminate]. destruct (find_user _ _); [|discriminate]. destruct (cn_fp c); [|discriminate].
    destruct (find_user_fp _ _); [destruct (Nat.eqb _ _); discriminate|]. apply coap_on_user_def.
  - destruct (negb _); [discriminate|]. destruct (check_access _ _ _ _ _) as [[|]|] eqn:Ha; [|discriminate|now apply HA in Ha].
    destruct (st_pw_open_password _); [|discriminate]. destruct (st_open_role _); [|discriminate].
    destruct (negb _); [discriminate|]. destruct (cn_fp c); [|discriminate]. destruct v as [| |[[pw un] fn]]; try discriminate.
    destruct (decode_string pw); [discriminate|].
    destruct (decode_string un) as [[n|]|]; try discriminate. destruct (pair_new_client _ _ _ _ _). discriminate.
  - apply guard_def; auto. destruct v as [| |v]; try discriminate.
    destruct (String.eqb _ _); [destruct v; discriminate|]. destruct (String.eqb _ _); [destruct v; discriminate|].
    destruct (String.eqb _ _); [destruct v; discriminate|]. discriminate.
  - apply guard_def; auto. destruct v as [| |v]; try discriminate. destruct (String.eqb _ _); [|discriminate].
    destruct (decode_string _) as [[n|]|]; try discriminate. destruct (N.ltb _ _); discriminate.
Qed.

Lemma coap_def : forall E ops i x c r, along E removal_safe iam_init ops -> run E iam_init ops = Some i ->
  r <> RqCreateUser (PlOk CbNull) -> coap E x c i r <> CUndefined.
Proof.
  intros E ops i x c r Ha Hr Hn. unfold coap.
  destruct (handle E x c i r) eqn:Hh; [discriminate|]. exfalso. apply (@handle_def E x c i r) in Hh; auto.
  intros. eapply no_dangling; eauto.
Qed.

Lemma api_def : forall x i a, no_null a -> run_api x i a <> Undefined.
Proof.
  intros x i a H. destruct a; cbn [run_api no_null] in *.
  - unfold api_create_user. destruct name; [|congruence]. destruct (_ || _); [discriminate|]. destruct (N.leb _ _); [discriminate|].
    destruct (find_user _ _); [discriminate|]. destruct (user_new _ _); [|discriminate]. destruct (x_sct x); discriminate.
  - unfold api_set_fp. destruct fp; [|congruence]. destruct (negb _); [discriminate|]. apply on_user_def.
  - unfold api_add_fp. destruct H. destruct fp; [|congruence]. destruct (negb _); [discriminate|]. destruct fpname; [|congruence].
    destruct (N.ltb _ _); [discriminate|]. apply on_user_def.
  - apply on_user_def.
  - unfold api_set_sct. destruct v; [|congruence]. destruct (N.ltb _ _); [discriminate|]. apply on_user_def.
  - unfold api_set_password. destruct v; [|congruence]. destruct (_ || _); [discriminate|]. apply on_user_def.
  - unfold api_set_role. destruct (find_user _ _); [|discriminate]. destruct (find_role _ _); [|discriminate]. apply on_user_def.
  - unfold api_set_display. destruct v; [|congruence]. destruct (N.ltb _ _); [discriminate|]. apply on_user_def.
  - unfold api_set_fcm_token. destruct v; [|congruence]. destruct (N.ltb _ _); [discriminate|]. apply on_user_def.
  - unfold api_set_fcm_project. destruct v; [|congruence]. destruct (N.ltb _ _); [discriminate|]. apply on_user_def.
  - unfold api_set_cats. destruct (find_user _ _); [|discriminate]. destruct (forallb _ _); [|discriminate]. apply on_user_def.
  - unfold api_set_oauth. destruct v; [|congruence]. destruct (N.ltb _ _); [discriminate|]. apply on_user_def.
  - unfold api_delete_user. destruct name; [|discriminate]. destruct (find_user _ _); discriminate.
  - unfold api_authorize. destruct (find_user _ _); discriminate.
  - discriminate.
Qed.

(** ** C18 *)
Lemma step_auth : forall E i x o i', step E i (x, o) = Some i' ->
  i_auth i' = i_auth i \/ (exists r, o = OpClosed r /\ i_auth i' = erase_first_ref r (i_auth i)) \/
  (exists r n id, o = OpApi (ApAuthorize r n) /\ i_auth i' = (i_auth i ++ [(r, id)])%list).
Proof.
  intros E i x o i' H. destruct o; simpl in H.
  - destruct (run_api x i a) as [i1 e|] eqn:Ha; [|discriminate]. injection H as <-.
    apply api_fixed in Ha. destruct Ha as (_ & _ & _ & _ & [Ha|(r & n & u & -> & Hu & Ha & Hs)]); auto.
    right. right. eauto.
  - destruct (coap E x c i r) as [i1 k|] eqn:Ha; [|discriminate]. injection H as <-.
    apply coap_resp in Ha. destruct Ha as (i2 & -> & Ha). apply handle_fixed in Ha. destruct Ha as [(_ & _ & _ & Ha) _]. auto.
  - destruct (check_access E i c action m); [|discriminate]. injection H as <-. auto.
  - injection H as <-. right. left. eauto.
  - injection H as <-. destruct (load_state x i s) as [i1 b] eqn:Hl. simpl.
    apply load_inv in Hl. destruct Hl as (_ & _ & _ & -> & _). auto.
  - injection H as <-. destruct (load_conf i c) as [i1 b] eqn:Hl. simpl.
    apply load_conf_inv in Hl. destruct Hl as [-> | ->]; auto.
  - injection H as <-. auto.
  - injection H as <-. auto.
Qed.

Lemma erase_nodup : forall r l, NoDup (map fst l) -> NoDup (map fst (erase_first_ref r l)) /\ ~ In r (map fst (erase_first_ref r l)).
Proof.
  intros r l. induction l as [|a l IH]; simpl; intros H; [split; auto|]. inversion H; subst. destruct (Nat.eqb_spec (fst a) r).
  - subst. auto.
  - destruct (IH H3) as [N1 N2]. split.
    + simpl. constructor; auto. intros Hin. apply H2. apply in_map_iff in Hin. destruct Hin as (z & Hz & Hi).
      rewrite <- Hz. apply in_map. eapply erase_first_incl; eauto.
    + simpl. intros [H0|H0]; auto.
Qed.

Lemma auth_nodup_step : forall E i o i', NoDup (map fst (i_auth i)) -> authorize_once i o -> step E i o = Some i' ->
  NoDup (map fst (i_auth i')).
Proof.
  intros E i [x o] i' HN HA H. apply step_auth in H. destruct H as [->|[(r & -> & ->)|(r & n & id & -> & ->)]]; auto.
  - now apply erase_nodup.
  - cbn in HA. rewrite map_app. simpl. clear - HN HA.
    assert (~ In r (map fst (i_auth i))).
    { intros Hin. apply in_map_iff in Hin. destruct Hin as ([r' id'] & <- & Hi). now apply HA in Hi. }
    apply NoDup_Add with (a := r) (l := (map fst (i_auth i) ++ [])%list); [apply Add_app|]. rewrite app_nil_r. auto.
Qed.

Lemma closed_clean : forall E ops i r, along E authorize_once iam_init ops -> run E iam_init ops = Some i ->
  forall id, ~ In (r, id) (i_auth (conn_closed i r)).
Proof.
  intros E ops i r Ha Hr id Hin.
  assert (HN : NoDup (map fst (i_auth i))).
  { eapply (@run_inv (fun i => NoDup (map fst (i_auth i))) E authorize_once); eauto.
    - intros. eapply auth_nodup_step; eauto.
    - constructor. }
  apply (erase_nodup r) in HN. destruct HN as [_ HN]. apply HN. now apply (in_map fst) in Hin.
Qed.

(** Without an entry the connection is never a token user again. *)
Lemma no_token_identity : forall i c, (forall id, ~ In (cn_ref c, id) (i_auth i)) -> no_fp_user i c -> no_pw_user i c ->
  resolve_user i c = Some None.
Proof.
  intros i c Ha Hf Hp. unfold resolve_user.
  assert (F : find_user_fp (users i) (cn_fp c) = None).
  { destruct (cn_fp c) as [f|] eqn:E; auto. apply find_fp_none. now apply Hf. }
  rewrite F.
  assert (P : (if cn_pwauth c then find_user (users i) (cn_pwname c) else None) = None).
  { destruct (cn_pwauth c) eqn:E1; auto. destruct (cn_pwname c) as [n|] eqn:E2; auto. apply find_user_none. now apply Hp. }
  rewrite P. destruct (find _ (i_auth i)) as [[r id]|] eqn:Hfd; auto.
  apply find_some in Hfd. destruct Hfd as [Hin He]. apply Nat.eqb_eq in He. simpl in He. subst. now apply Ha in Hin.
Qed.

Lemma gone_denied : forall E i c action m, cn_fp c = None -> cn_virtual c = false -> check_access E i c action m = Some false.
Proof. intros. unfold check_access. now rewrite H, H0. Qed.

(** ** C62 *)
Definition registered (i : iam) : Prop := forall u t, In u (users i) -> u_sct u = Some t -> In t (i_tokens i).

Lemma reg_upd : forall i n u u', registered i -> find_user (users i) (Some n) = Some u -> u_sct u' = u_sct u -> registered (upd n u' i).
Proof.
  intros i n u u' HR Hu Hs v t Hv Ht. apply find_split in Hu. destruct Hu as (pre & post & He & Hn & Hp).
  rewrite upd_users, He, update_user_app in Hv by auto. simpl.
  apply in_app_iff in Hv. destruct Hv as [Hv|[<-|Hv]].
  - apply (HR v); auto. rewrite He. apply in_app_iff. auto.
  - apply (HR u); [|congruence]. rewrite He. apply in_app_iff. right. now left.
  - apply (HR v); auto. rewrite He. apply in_app_iff. right. now right.
Qed.

Lemma reg_add : forall i u t, registered i -> u_sct u = Some t -> registered (addu u t i).
Proof.
  intros i u t HR Hu v s Hv Hs. rewrite addu_users in Hv. apply in_app_iff in Hv. simpl. destruct Hv as [Hv|[<-|[]]].
  - right. eapply HR; eauto.
  - left. congruence.
Qed.

Lemma reg_remove : forall i n u, registered i -> find_user (users i) (Some n) = Some u ->
  registered (mark_changed (set_users (remove_user n (users i)) i)).
Proof.
  intros i n u HR Hu v t Hv Ht. apply find_split in Hu. destruct Hu as (pre & post & He & Hn & Hp).
  unfold users in Hv. simpl in Hv. fold (users i) in Hv. rewrite He, remove_user_app in Hv by auto. simpl.
  apply (HR v); auto. rewrite He. apply in_app_iff in Hv. apply in_app_iff. simpl. tauto.
Qed.

Lemma reg_step : forall E i o i', registered i -> tokens_registered i o -> step E i o = Some i' -> registered i'.
Proof.
  intros E i [x o] i' HR HT H. destruct o; simpl in H; cbn [tokens_registered snd fst] in HT.
  - destruct (run_api x i a) as [i1 e|] eqn:Ha; [|discriminate]. injection H as <-.
    apply api_inv in Ha. destruct Ha as [[_ [->|[->| ->]]]|[[_ H]|[_ T]]]; auto.
    + destruct a; try contradiction. subst. exact HR.
    + destruct a; cbn [atrans] in T; try contradiction.
      * destruct T as (m & t & u & -> & Hv & Hl & Hm & Hn & Hs & Hu & Ha & ->). now apply reg_add.
      * destruct T as (m & f & u & u' & -> & -> & Hl & Hu & Hs & ->). eapply reg_upd; eauto.
        unfold user_set_fp in Hs. destruct (u_fps u); injection Hs as <-; reflexivity.
      * destruct T as (m & f & nm & u & -> & -> & -> & Hl & _ & Hu & ->). eapply reg_upd; eauto.
      * destruct T as (m & f & u & u' & -> & -> & Hu & Hs & ->). eapply reg_upd; eauto.
        unfold user_remove_fp in Hs. destruct (remove_first_fp _ _); [injection Hs as <-; reflexivity|discriminate].
      * destruct T as (m & s & u & -> & -> & Hl & Hu & ->). eapply reg_upd; eauto.
      * destruct T as (m & s & u & -> & -> & Hl & Hu & ->). eapply reg_upd; eauto.
      * destruct T as (m & s & u & -> & -> & Hl & Hu & ->). eapply reg_upd; eauto.
      * destruct T as (m & s & u & -> & -> & Hl & Hu & ->). eapply reg_upd; eauto.
      * destruct T as (m & s & u & -> & -> & Hl & Hu & ->). eapply reg_upd; eauto.
      * destruct T as (m & u & -> & Hl & Hu & ->). eapply reg_upd; eauto.
      * destruct T as (m & s & u & -> & -> & Hl & Hu & ->). eapply reg_upd; eauto.
      * destruct T as (m & u & -> & Hu & ->). eapply reg_remove; eauto.
      * destruct T as (u & m & -> & Hu & ->). exact HR.
      * subst. intros u t Hu Ht. simpl. apply (HR u t); auto. unfold users in *. simpl in Hu. destruct m; exact Hu.
  - destruct (coap E x c i r) as [i1 k|] eqn:Ha; [|discriminate]. injection H as <-.
    apply coap_resp in Ha. destruct Ha as (i2 & -> & Ha).
    assert (HRD : registered i2 -> registered (do_callbacks i2)) by (intros HH; exact HH). apply HRD. clear HRD.
    apply handle_inv in Ha. destruct Ha as [[[->| ->] _]|[_ T]]; auto.
    assert (PA : paired c x i i2 -> registered i2).
    { intros (n & f & fn & ro & t & u & _ & _ & _ & _ & _ & _ & _ & _ & ->). now apply reg_add. }
    destruct r; cbn [trans] in T.
    + destruct T as (n & t & u & _ & Hv & Hl & Hm & Hn & Hs & Hsl & Hu & Ha & -> & _). now apply reg_add.
    + destruct T as (u & Hu & -> & _). eapply reg_remove; eauto.
    + destruct T as (u & nm & _ & Hu & Hf & -> & _). eapply reg_upd; eauto.
    + destruct T as (u & u' & Hu & Hr & -> & _). eapply reg_upd; eauto.
      unfold user_remove_fp in Hr. destruct (remove_first_fp _ _); [injection Hr as <-; reflexivity|discriminate].
    + destruct T as (u & n' & _ & Hu & Hn & Hv & Hl & -> & _). eapply reg_upd; eauto.
    + destruct T as (u & s & _ & Hu & _ & -> & _). eapply reg_upd; eauto.
    + destruct T as (u & s & _ & Hu & Hl & -> & _). eapply reg_upd; eauto.
    + destruct T as (u & s & u' & _ & Hu & Hf & Hl & Hs & -> & _). eapply reg_upd; eauto.
      unfold user_set_fp in Hs. destruct s, (u_fps u); try discriminate; injection Hs as <-; reflexivity.
    + destruct T as (u & s & _ & Hu & Hl & -> & _). eapply reg_upd; eauto.
    + destruct T as (u & t & p & _ & Hu & Hl1 & Hl2 & -> & _). eapply reg_upd; eauto.
    + destruct T as (u & s & -> & Hu & Hl & -> & _). rewrite HT.
      apply find_split in Hu. destruct Hu as (pre & post & He & Hn & Hp).
      intros v t Hv Ht. unfold users in Hv. simpl in Hv. fold (users i) in Hv. rewrite He, update_user_app in Hv by auto. simpl.
      apply in_app_iff in Hv. destruct Hv as [Hv|[<-|Hv]].
      * right. apply (HR v); auto. rewrite He. apply in_app_iff. auto.
      * left. simpl in Ht. congruence.
      * right. apply (HR v); auto. rewrite He. apply in_app_iff. right. now right.
    + destruct T as (u & s & _ & Hu & Hl & -> & _). eapply reg_upd; eauto.
    + destruct T as (u & l & _ & Hu & Hl & -> & _). eapply reg_upd; eauto.
    + destruct T as (n & u & f & nm & _ & _ & _ & Hu & _ & Hf & -> & _). eapply reg_upd; eauto.
    + destruct T as (_ & _ & T & _). auto.
    + destruct T as (n & u & f & nm & _ & _ & _ & Hu & Hf & Hff & -> & _). eapply reg_upd; eauto.
    + destruct T as (_ & _ & _ & T & _). auto.
    + destruct T as (m & b & _ & _ & _ & -> & _). intros u t Hu Ht. simpl. apply (HR u t); auto. unfold users in *. simpl in Hu. destruct m; exact Hu.
    + destruct T as (s & _ & _ & Hl & -> & _). exact HR.
  - destruct (check_access E i c action m); [|discriminate]. now injection H as <-.
  - injection H as <-. exact HR.
  - injection H as <-. destruct (load_state x i s) as [i1 b] eqn:Hl. simpl.
    apply load_inv in Hl. destruct Hl as (_ & L2 & L3 & _ & _ & _ & L7 & [(_ & H1 & _)|(_ & Hv & H1 & _ & Ht)]).
    + intros u t Hu Hs. apply L7. apply (HR u t); auto. unfold users in *. now rewrite <- H1.
    + intros u t Hu Hs. apply Ht. unfold users in Hu. rewrite H1 in Hu. simpl in Hu. rewrite <- Hs.
      clear - Hu. revert Hu. generalize (i_next i). induction (st_users s) as [|a us IH]; intros n; simpl; auto.
      intros [<-|Hu]; eauto.
  - injection H as <-. destruct (load_conf i c) as [i1 b] eqn:Hl. simpl.
    apply load_conf_inv in Hl. destruct Hl as [-> | ->]; auto.
  - injection H as <-. exact HR.
  - injection H as <-. exact HR.
Qed.

Lemma tokens_always : forall E ops i u t, along E tokens_registered iam_init ops -> run E iam_init ops = Some i ->
  In u (users i) -> u_sct u = Some t -> In t (i_tokens i).
Proof.
  intros E ops i u t Ha Hr Hu Ht. revert u t Hu Ht. change (registered i).
  eapply (@run_inv registered E tokens_registered); eauto.
  - intros. eapply reg_step; eauto.
  - intros u t [].
Qed.

(** Allocation ids stay unique, so that the token identity is a single user. *)
Definition ids_ok (i : iam) : Prop := NoDup (map u_id (users i)) /\ forall u, In u (users i) -> u_id u < i_next i.

Lemma renumber_ids : forall us n, map u_id (renumber n us) = seq n (length us).
Proof. induction us; intros n; simpl; f_equal; auto. Qed.

Lemma ids_step : forall E i o i', ids_ok i -> step E i o = Some i' -> ids_ok i'.
Proof.
  intros E i [x o] i' [HN HB] H. apply step_uch in H.
  destruct H as [He Hx|u He Hid Hx _ _ _ _|pre u u' post He He' Hx Ho|pre u post He He' Hx Hm|s Ho He Hx _].
  - split; rewrite He; auto. intros u Hu. apply HB in Hu. lia.
  - split; rewrite He.
    + rewrite map_app. simpl. apply NoDup_Add with (a := u_id u) (l := (map u_id (users i) ++ [])%list); [apply Add_app|].
      rewrite app_nil_r. split; auto. intros Hin. apply in_map_iff in Hin. destruct Hin as (v & Hv & Hi). apply HB in Hi. lia.
    + intros v Hv. apply in_app_iff in Hv. destruct Hv as [Hv|[<-|[]]]; [apply HB in Hv|]; lia.
  - rewrite He in HN, HB. split; rewrite He'.
    + rewrite map_app in *. simpl in *. now rewrite (uo_id Ho).
    + intros v Hv. rewrite Hx. apply in_app_iff in Hv. destruct Hv as [Hv|[<-|Hv]].
      * apply HB. apply in_app_iff. auto.
      * rewrite (uo_id Ho). apply HB. apply in_app_iff. right. now left.
      * apply HB. apply in_app_iff. right. now right.
  - rewrite He in HN, HB. split; rewrite He'.
    + rewrite map_app in *. simpl in *. now apply NoDup_remove_1 in HN.
    + intros v Hv. rewrite Hx. apply HB. apply in_app_iff in Hv. apply in_app_iff. simpl. tauto.
  - split; rewrite He.
    + rewrite renumber_ids. apply seq_NoDup.
    + intros v Hv. apply (in_map u_id) in Hv. rewrite renumber_ids in Hv. apply in_seq in Hv. lia.
Qed.

Lemma ids_always : forall E ops i, run E iam_init ops = Some i -> NoDup (map u_id (users i)).
Proof.
  intros E ops i Hr. 
  assert (A : forall l j, along E (fun _ _ => True) j l).
  { induction l; intros j; simpl; auto. }
  destruct (@run_inv ids_ok E (fun _ _ => True)) with (l := ops) (i := iam_init) (i' := i); auto.
  - intros. eapply ids_step; eauto.
  - split; [constructor|]. intros u [].
Qed.
