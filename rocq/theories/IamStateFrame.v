(** More lemmas for the IAM state: frames, reload, notifications, pairing, tokens. *)
From Coq Require Import String Ascii List Bool Arith NArith Lia.
From Verif Require Import IamPolicyModel IamPolicySpec IamPolicyProofs IamStateModel IamStateSpec IamStateProofs IamStateInv.
Import ListNotations.
Open Scope string_scope.
Set Implicit Arguments.
Unset Strict Implicit.

Ltac break T := repeat match type of T with
  | ex _ => let x := fresh "w" in destruct T as [x T]
  | _ /\ _ => let H := fresh "K" in destruct T as [H T]
  end.

Lemma coap_resp : forall E x c i r i' code, coap E x c i r = Resp i' code ->
  exists i1, i' = do_callbacks i1 /\ handle E x c i r = Resp i1 code.
Proof.
  intros E x c i r i' code H. unfold coap in H. destruct (handle E x c i r) as [i1 k|]; [|discriminate].
  injection H as <- <-. eauto.
Qed.

Definition fixed (i i' : iam) : Prop :=
  i_conf i' = i_conf i /\ i_lim i' = i_lim i /\ i_cats i' = i_cats i /\ i_auth i' = i_auth i.

Lemma trans_fixed : forall x c i r i' code, trans x c i r i' code -> fixed i i' /\ incl (i_tokens i) (i_tokens i') /\ i_changed i' = true /\ i_callbacks i' = i_callbacks i.
Proof.
  intros x c i r i' code T.
  assert (U : forall n u', fixed i (upd n u' i) /\ incl (i_tokens i) (i_tokens (upd n u' i)) /\ i_changed (upd n u' i) = true /\ i_callbacks (upd n u' i) = i_callbacks i).
  { intros. repeat split. apply incl_refl. }
  assert (A : forall u t, fixed i (addu u t i) /\ incl (i_tokens i) (i_tokens (addu u t i)) /\ i_changed (addu u t i) = true /\ i_callbacks (addu u t i) = i_callbacks i).
  { intros. repeat split. simpl. apply incl_tl, incl_refl. }
  assert (P : paired c x i i' -> fixed i i' /\ incl (i_tokens i) (i_tokens i') /\ i_changed i' = true /\ i_callbacks i' = i_callbacks i).
  { intros (n & f & fn & ro & t & u & _ & _ & _ & _ & _ & _ & _ & _ & ->). apply A. }
  assert (M : forall s, fixed i (mark_changed (set_state s i)) /\ incl (i_tokens i) (i_tokens (mark_changed (set_state s i))) /\ i_changed (mark_changed (set_state s i)) = true /\ i_callbacks (mark_changed (set_state s i)) = i_callbacks i).
  { intros. repeat split. apply incl_refl. }
  destruct r; cbn [trans] in T; break T; subst; auto; try apply M.
  destruct (x_add x _); [|apply U]. repeat split. simpl. apply incl_tl, incl_refl.
Qed.

Lemma handle_fixed : forall E x c i r i' code, handle E x c i r = Resp i' code -> fixed i i' /\ incl (i_tokens i) (i_tokens i').
Proof.
  intros E x c i r i' code H. apply handle_inv in H. destruct H as [[[->| ->] _]|[_ T]].
  - repeat split. apply incl_refl.
  - repeat split. apply incl_refl.
  - apply trans_fixed in T. tauto.
Qed.

Lemma api_fixed : forall x i a i' e, run_api x i a = Done i' e ->
  i_conf i' = i_conf i /\ i_lim i' = i_lim i /\ i_cats i' = i_cats i /\ incl (i_tokens i) (i_tokens i') /\
  (i_auth i' = i_auth i \/ exists r n u, a = ApAuthorize r (Some n) /\ find_user (users i) (Some n) = Some u /\
                                        i_auth i' = (i_auth i ++ [(r, u_id u)])%list /\ i_state i' = i_state i).
Proof.
  intros x i a i' e H. apply api_inv in H. destruct H as [[_ [->|[->| ->]]]|[[_ H]|[_ T]]].
  1-3: repeat split; auto; apply incl_refl.
  - destruct a; try contradiction. subst. repeat split; auto; apply incl_refl.
  - destruct a; cbn [atrans] in T; break T; subst; repeat split; auto; try apply incl_refl; try (simpl; apply incl_tl, incl_refl).
    right. eauto 10.
Qed.

Lemma step_fixed : forall E i x o i', step E i (x, o) = Some i' ->
  (i_lim i' = i_lim i \/ exists l, o = OpSetLimits l /\ i_lim i' = l) /\
  (i_cats i' = i_cats i \/ exists l, o = OpSetCats l /\ i_cats i' = l) /\
  incl (i_tokens i) (i_tokens i').
Proof.
  intros E i x o i' H. destruct o; simpl in H.
  - destruct (run_api x i a) eqn:Ha; [|discriminate]. injection H as <-. apply api_fixed in Ha. tauto.
  - destruct (coap E x c i r) eqn:Ha; [|discriminate]. injection H as <-. apply coap_resp in Ha.
    destruct Ha as (i1 & -> & Ha). apply handle_fixed in Ha. destruct Ha as [(H1 & H2 & H3 & H4) H5]. simpl. auto.
  - destruct (check_access E i c action m); [|discriminate]. injection H as <-. repeat split; auto. apply incl_refl.
  - injection H as <-. repeat split; auto. apply incl_refl.
  - injection H as <-. destruct (load_state x i s) as [i1 b] eqn:Hl. simpl.
    apply load_inv in Hl. tauto.
  - injection H as <-. destruct (load_conf i c) as [i1 b] eqn:Hl. simpl.
    apply load_conf_inv in Hl. destruct Hl as [-> | ->]; repeat split; auto; apply incl_refl.
  - injection H as <-. repeat split; eauto. apply incl_refl.
  - injection H as <-. repeat split; eauto. apply incl_refl.
Qed.

(** ** C09 *)
Lemma renumber_length : forall us n, length (renumber n us) = length us.
Proof. induction us; intros; simpl; auto. Qed.

Lemma count_step : forall E i o i', (user_count i <= l_max_users (i_lim i))%N -> room_to_pair i o ->
  step E i o = Some i' -> (user_count i' <= l_max_users (i_lim i'))%N /\ l_max_users (i_lim i') = l_max_users (i_lim i).
Proof.
  intros E i [x o] i' Hc Hr H. pose proof (step_fixed H) as (Hl & _). apply step_uch in H. unfold user_count in *.
  assert (HL : l_max_users (i_lim i') = l_max_users (i_lim i)).
  { destruct Hl as [->|(l & -> & ->)]; auto. }
  split; auto. rewrite HL.
  destruct H as [He _|u He _ _ _ _ _ Hm|pre u u' post He He' _ _|pre u post He He' _ _|s Ho He _ Hv].
  - now rewrite He.
  - rewrite He, app_length. simpl. destruct Hm as [Hm|Hm]; [lia|].
    destruct o as [|c r| | | | | |]; try contradiction. destruct r; try contradiction; cbn in Hr; unfold user_count in Hr; lia.
  - rewrite He'. rewrite He in Hc. rewrite app_length in *. simpl in *. lia.
  - rewrite He'. rewrite He in Hc. rewrite app_length in *. simpl in *. lia.
  - rewrite He, renumber_length. unfold validate_state in Hv. nb. lia.
Qed.

Lemma count_always : forall E l i i', (user_count i <= l_max_users (i_lim i))%N -> along E room_to_pair i l ->
  run E i l = Some i' -> (user_count i' <= l_max_users (i_lim i))%N.
Proof.
  intros E l i i' Hc Ha Hr.
  assert ((user_count i' <= l_max_users (i_lim i'))%N /\ l_max_users (i_lim i') = l_max_users (i_lim i)) as [H1 H2].
  { eapply (@run_inv (fun j => (user_count j <= l_max_users (i_lim j))%N /\ l_max_users (i_lim j) = l_max_users (i_lim i)) E room_to_pair); eauto.
    intros j o j' [H1 H2] Hp Hs. destruct (count_step H1 Hp Hs). split; congruence. }
  lia.
Qed.

(** ** C10 *)
Lemma upd_one : forall i n u u' fs (R : user -> user -> Prop), find_user (users i) (Some n) = Some u -> u_id u' = u_id u -> R u u' ->
  (forall g, ~ In g fs -> get g u' = get g u) -> one_user_changed n fs R (i_state i) (i_state (upd n u' i)).
Proof.
  intros i n u u' fs R Hu Hid HR Hg. apply find_split in Hu. destruct Hu as (pre & post & He & Hn & Hp).
  split; [reflexivity|]. exists pre, u, u', post. unfold users in He. repeat split; auto.
  simpl. unfold users. rewrite He. now rewrite update_user_app.
Qed.

Ltac fld := let g := fresh in let Hg := fresh in intros g Hg; destruct g; try reflexivity; exfalso; apply Hg; simpl; auto.

Lemma fps_add : forall f nm u, fps (user_add_fp f nm u) = (fps u ++ [(f, nm)])%list.
Proof. intros. unfold fps, user_add_fp. simpl. rewrite map_app. reflexivity. Qed.

Lemma remove_first_split : forall f l l', remove_first_fp f l = Some l' ->
  exists a b c, l = (a ++ b :: c)%list /\ l' = (a ++ c)%list /\ fp_val b = f /\ ~ In f (map fp_val a).
Proof.
  intros f l. induction l as [|g l IH]; intros l' H; simpl in H; [discriminate|].
  destruct (String.eqb (fp_val g) f) eqn:Hg.
  - injection H as <-. exists [], g, l. apply String.eqb_eq in Hg. repeat split; auto.
  - destruct (remove_first_fp f l) as [l2|] eqn:Hr; [|discriminate]. injection H as <-.
    destruct (IH _ eq_refl) as (a & b & c & -> & -> & Hb & Hn). exists (g :: a), b, c. repeat split; auto.
    simpl. intros [H|H]; auto. apply String.eqb_neq in Hg. auto.
Qed.

Lemma remove_fp_effect : forall i n u u' f, find_user (users i) (Some n) = Some u -> user_remove_fp f u = Some u' ->
  api_effect (ApRemoveFp (Some n) (Some f)) (i_state i) (i_state (upd n u' i)).
Proof.
  intros i n u u' f Hu Hr. unfold user_remove_fp in Hr. destruct (remove_first_fp f (u_fps u)) as [l|] eqn:Hf; [|discriminate].
  injection Hr as <-. cbn [api_effect]. exists n, f. repeat split; auto.
  apply (@upd_one i n u _ [FFps] _ Hu); [reflexivity| |fld].
  apply remove_first_split in Hf. destruct Hf as (a & b & c & He & Hl & Hb & Hn).
  exists (map (fun f => (fp_val f, fp_name f)) a), (fp_name b), (map (fun f => (fp_val f, fp_name f)) c).
  unfold fps. simpl. rewrite He, Hl, !map_app. simpl. rewrite Hb. repeat split; auto.
  rewrite map_map. simpl. exact Hn.
Qed.

Lemma set_fp_effect : forall i n u u' f, find_user (users i) (Some n) = Some u -> user_set_fp (Some f) u = Some u' ->
  api_effect (ApSetFp (Some n) (Some f)) (i_state i) (i_state (upd n u' i)).
Proof.
  intros i n u u' f Hu Hr. cbn [api_effect]. exists n, f. repeat split; auto.
  unfold user_set_fp in Hr.
  apply (@upd_one i n u _ [FFps] _ Hu).
  - destruct (u_fps u); injection Hr as <-; reflexivity.
  - unfold fps. destruct (u_fps u) as [|g l]; injection Hr as <-; reflexivity.
  - destruct (u_fps u); injection Hr as <-; fld.
Qed.

Lemma create_effect : forall i n u t, find_user (users i) (Some n) = None -> user_new (i_next i) n = Some u ->
  api_effect (ApCreateUser (Some n)) (i_state i) (i_state (addu (set_u_sct (Some t) u) t i)).
Proof.
  intros i n u t Hn Hu. apply user_new_spec in Hu. destruct Hu as [_ ->]. cbn [api_effect].
  eexists n, _. split; [reflexivity|]. split; [reflexivity|]. split; [reflexivity|].
  split; [now apply find_user_none|]. repeat split; auto.
Qed.

Lemma delete_effect : forall i n u, find_user (users i) (Some n) = Some u ->
  api_effect (ApDeleteUser (Some n)) (i_state i) (i_state (mark_changed (set_users (remove_user n (users i)) i))).
Proof.
  intros i n u Hu. apply find_split in Hu. destruct Hu as (pre & post & He & Hn & Hp). cbn [api_effect].
  exists n, pre, u, post. split; auto. split; [reflexivity|]. split; auto. split; auto.
  simpl. rewrite He. now apply remove_user_app.
Qed.

Lemma mode_effect : forall m b s, api_effect (ApSetMode m b) s (set_mode m b s).
Proof. intros m b s. destruct m; cbn; auto 12. Qed.

Lemma quiet_state : forall i i', quiet_api i i' -> i_state i' = i_state i /\ i_auth i' = i_auth i /\ i_tokens i' = i_tokens i
  /\ i_conf i' = i_conf i /\ i_lim i' = i_lim i /\ i_cats i' = i_cats i.
Proof. intros i i' [->|[->| ->]]; simpl; auto 8. Qed.

Lemma api_error_frame : forall x i a i' e, run_api x i a = Done i' e -> e <> EOk -> observable i' = observable i.
Proof.
  intros x i a i' e H He. apply api_inv in H. destruct H as [[_ H]|[[-> _]|[-> _]]]; try congruence.
  apply quiet_state in H. unfold observable. destruct H as (-> & -> & -> & -> & -> & ->). reflexivity.
Qed.

Lemma atrans_effect : forall x i a i', atrans x i a i' -> api_effect a (i_state i) (i_state i').
Proof.
  intros x i a i' T. destruct a; cbn [atrans] in T.
  - destruct T as (m & t & u & -> & _ & _ & _ & Hn & _ & Hu & _ & ->). now apply create_effect.
  - destruct T as (m & f & u & u' & -> & -> & _ & Hu & Hs & ->). now apply (@set_fp_effect i m u).
  - destruct T as (m & f & nm & u & -> & -> & -> & _ & _ & Hu & ->). cbn [api_effect]. exists m, f. repeat split; auto.
    apply (@upd_one i m u _ [FFps] _ Hu); [reflexivity|apply fps_add|fld].
  - destruct T as (m & f & u & u' & -> & -> & Hu & Hs & ->). now apply (@remove_fp_effect i m u).
  - destruct T as (m & s & u & -> & -> & _ & Hu & ->). cbn [api_effect]. exists m. split; auto.
    apply (@upd_one i m u _ [FSct] _ Hu); [reflexivity|reflexivity|fld].
  - destruct T as (m & s & u & -> & -> & _ & Hu & ->). cbn [api_effect]. exists m. split; auto.
    apply (@upd_one i m u _ [FPassword] _ Hu); [reflexivity|reflexivity|fld].
  - destruct T as (m & s & u & -> & -> & _ & Hu & ->). cbn [api_effect]. exists m. split; auto.
    apply (@upd_one i m u _ [FRole] _ Hu); [reflexivity|reflexivity|fld].
  - destruct T as (m & s & u & -> & -> & _ & Hu & ->). cbn [api_effect]. exists m. split; auto.
    apply (@upd_one i m u _ [FDisplay] _ Hu); [reflexivity|reflexivity|fld].
  - destruct T as (m & s & u & -> & -> & _ & Hu & ->). cbn [api_effect]. exists m. split; auto.
    apply (@upd_one i m u _ [FFcmToken] _ Hu); [reflexivity|reflexivity|fld].
  - destruct T as (m & s & u & -> & -> & _ & Hu & ->). cbn [api_effect]. exists m. split; auto.
    apply (@upd_one i m u _ [FFcmProject] _ Hu); [reflexivity|reflexivity|fld].
  - destruct T as (m & u & -> & _ & Hu & ->). cbn [api_effect]. exists m. split; auto.
    apply (@upd_one i m u _ [FCats] _ Hu); [reflexivity|reflexivity|fld].
  - destruct T as (m & s & u & -> & -> & _ & Hu & ->). cbn [api_effect]. exists m. split; auto.
    apply (@upd_one i m u _ [FOauth] _ Hu); [reflexivity|reflexivity|fld].
  - destruct T as (m & u & -> & Hu & ->). now apply (@delete_effect i m u).
  - destruct T as (u & m & -> & Hu & ->). reflexivity.
  - subst. apply mode_effect.
Qed.

Lemma api_ok_effect : forall x i a i', run_api x i a = Done i' EOk ->
  (forall t, x_add x t = true) -> api_effect a (i_state i) (i_state i').
Proof.
  intros x i a i' H Hx. pose proof H as H0. apply api_inv in H. destruct H as [[He _]|[[_ H]|[_ T]]]; [congruence| |].
  - exfalso. destruct a; try contradiction. cbn in H0. unfold api_create_user in H0. destruct name; [|discriminate].
    destruct (_ || _); [discriminate|]. destruct (N.leb _ _); [discriminate|]. destruct (find_user _ _); [discriminate|].
    destruct (user_new _ _) eqn:Hu; [|discriminate]. destruct (x_sct x) eqn:Hs; [|discriminate].
    unfold add_user in H0. simpl in H0. rewrite Hx in H0. simpl in H0. injection H0 as H0. rewrite <- H0 in H.
    apply (f_equal (fun j => length (st_users (i_state j)))) in H. cbn in H. unfold users in H. rewrite app_length in H. cbn in H. lia.
  - eapply atrans_effect; eauto.
Qed.

Lemma set_contains_in : forall l s, set_contains l s = true <-> In s l.
Proof.
  intros l s. unfold set_contains. rewrite existsb_exists. split.
  - intros (y & Hy & He). apply String.eqb_eq in He. now subst.
  - intros H. exists s. split; auto. apply String.eqb_refl.
Qed.

Lemma api_ok_validated : forall x i a i', run_api x i a = Done i' EOk -> api_validated i a.
Proof.
  intros x i a i' H. destruct a; cbn [run_api api_validated] in *; auto.
  - unfold api_create_user in H. destruct name as [n|]; [|discriminate].
    destruct (_ || _) eqn:Hv; [discriminate|]. destruct (N.leb _ _) eqn:Hm; [discriminate|]. nb.
    split; [now apply validate_username_ok|]. split; auto.
  - unfold api_set_fp in H. destruct fp as [f|]; [|discriminate]. destruct (negb _) eqn:Hl; [discriminate|]. now nb.
  - unfold api_add_fp in H. destruct fp as [f|]; [|discriminate]. destruct (negb _) eqn:Hl; [discriminate|].
    destruct fpname as [nm|]; [|discriminate]. destruct (N.ltb _ _) eqn:Hn; [discriminate|]. nb. auto.
  - unfold api_set_sct in H. destruct v; [|discriminate]. destruct (N.ltb _ _) eqn:Hn; [discriminate|]. now nb.
  - unfold api_set_password in H. destruct v; [|discriminate]. destruct (_ || _) eqn:Hn; [discriminate|]. now nb.
  - apply api_role_inv in H. destruct H as [[H _]|(_ & m & u & w & _ & -> & Hr & _)]; [congruence|].
    unfold find_role in Hr. destruct (find (fun x => String.eqb (r_id x) w) (conf_roles (i_conf i))) as [r|] eqn:Hf.
    + apply find_some in Hf. destruct Hf as [Hi He]. apply String.eqb_eq in He. exists r. split; congruence.
    + cbn in Hr. congruence.
  - unfold api_set_display in H. destruct v; [|discriminate]. destruct (N.ltb _ _) eqn:Hn; [discriminate|]. now nb.
  - unfold api_set_fcm_token in H. destruct v; [|discriminate]. destruct (N.ltb _ _) eqn:Hn; [discriminate|]. now nb.
  - unfold api_set_fcm_project in H. destruct v; [|discriminate]. destruct (N.ltb _ _) eqn:Hn; [discriminate|]. now nb.
  - apply api_cats_inv in H. destruct H as [[H _]|(_ & m & u & _ & Hf & _)]; [congruence|].
    rewrite forallb_forall in Hf. intros s Hs. now apply set_contains_in, Hf.
  - unfold api_set_oauth in H. destruct v; [|discriminate]. destruct (N.ltb _ _) eqn:Hn; [discriminate|]. now nb.
Qed.

Lemma decode_reads : forall w v, decode_string w = Some v -> reads (PlOk w) v.
Proof.
  intros [| |s] v H; simpl in H; try discriminate.
  - injection H as <-. reflexivity.
  - destruct (N.ltb _ _); [injection H as <-; reflexivity|discriminate].
Qed.

Lemma trans_effect : forall x c i r i' code, trans x c i r i' code -> coap_effect r (i_state i) (i_state i').
Proof.
  intros x c i r i' code T. destruct r; cbn [trans coap_effect] in *; auto.
  - destruct T as (n & t & u & -> & _ & _ & _ & Hn & _ & _ & Hu & _ & -> & _). exists n. split; auto. now apply create_effect.
  - destruct T as (u & Hu & -> & _). now apply (@delete_effect i user u).
  - destruct T as (u & nm & (v & -> & ->) & Hu & _ & -> & _).
    apply (@upd_one i user u _ [FFps] _ Hu); [reflexivity| |fld].
    exists (decode_or_null v). split; [apply fps_add|].
    intros y Hy. unfold decode_or_null in Hy. destruct (decode_string v) as [o|] eqn:Hd; [|discriminate]. subst.
    apply decode_some in Hd. now subst.
  - destruct T as (u & u' & Hu & Hr & -> & _). now apply (@remove_fp_effect i user u).
  - destruct T as (u & n' & -> & Hu & Hn & Hv & _ & -> & _). exists n'. split; auto. split; [now apply validate_username_ok|].
    split; [now apply find_user_none in Hn|].
    apply (@upd_one i user u _ [FName] _ Hu); [reflexivity|reflexivity|fld].
  - destruct T as (u & s & -> & Hu & _ & -> & _). exists s. split; auto. exists user. split; auto.
    apply (@upd_one i user u _ [FRole] _ Hu); [reflexivity|reflexivity|fld].
  - destruct T as (u & s & (w & -> & Hd) & Hu & _ & -> & _). exists s. split; [now apply decode_reads|]. exists user. split; auto.
    apply (@upd_one i user u _ [FPassword] _ Hu); [reflexivity|reflexivity|fld].
  - destruct T as (u & s & u' & (w & -> & Hd) & Hu & _ & _ & Hs & -> & _). exists s. split; [now apply decode_reads|].
    destruct s as [f|].
    + now apply (@set_fp_effect i user u).
    + unfold user_set_fp in Hs. destruct (u_fps u) as [|g l] eqn:Hg; [discriminate|]. injection Hs as <-.
      apply (@upd_one i user u _ [FFps] _ Hu); [reflexivity| |fld].
      exists (fp_val g, fp_name g). unfold fps. now rewrite Hg.
  - destruct T as (u & s & (w & -> & Hd) & Hu & _ & -> & _). exists s. split; [now apply decode_reads|]. exists user. split; auto.
    apply (@upd_one i user u _ [FDisplay] _ Hu); [reflexivity|reflexivity|fld].
  - destruct T as (u & t & p & -> & Hu & _ & _ & -> & _). exists t, p. split; auto.
    apply (@upd_one i user u _ [FFcmToken; FFcmProject] _ Hu); [reflexivity|split; reflexivity|fld].
  - destruct T as (u & s & -> & Hu & _ & -> & _). exists s. split; auto. exists user. split; auto.
    assert (H : one_user_changed user [FSct] (becomes FSct (VStr (Some s))) (i_state i) (i_state (upd user (set_u_sct (Some s) u) i))).
    { apply (@upd_one i user u _ [FSct] _ Hu); [reflexivity|reflexivity|fld]. }
    destruct (x_add x s); exact H.
  - destruct T as (u & s & (w & -> & Hd) & Hu & _ & -> & _). exists s. split; [now apply decode_reads|]. exists user. split; auto.
    apply (@upd_one i user u _ [FOauth] _ Hu); [reflexivity|reflexivity|fld].
  - destruct T as (u & l & -> & Hu & _ & -> & _). exists l. split; auto. exists user. split; auto.
    apply (@upd_one i user u _ [FCats] _ Hu); [reflexivity|reflexivity|fld].
  - destruct T as (m & b & -> & -> & Hm & -> & _). exists b. split; auto.
    destruct m; [right; right|left|right; left|congruence]; split; auto; apply mode_effect.
  - destruct T as (s & -> & -> & _ & -> & _). exists s. repeat split.
Qed.

Lemma coap_effect_lemma : forall E x c i r i' code, coap E x c i r = Resp i' code ->
  (observable i' = observable i /\ (code >= 400 \/ may_be_idle r = true)%N) \/
  (coap_effect r (i_state i) (i_state i') /\ (200 <= code < 300)%N).
Proof.
  intros E x c i r i' code H. apply coap_resp in H. destruct H as (i1 & -> & H). apply handle_inv in H.
  destruct H as [[Hq Hc]|[_ T]].
  - left. split; auto. destruct Hq as [->| ->]; reflexivity.
  - right. split; [exact (trans_effect T)|]. destruct r; cbn [trans] in T; break T; subst; lia.
Qed.

Lemma coap_error_frame : forall E x c i r i' code, coap E x c i r = Resp i' code -> (code >= 400)%N ->
  observable i' = observable i.
Proof.
  intros E x c i r i' code H Hc. apply coap_effect_lemma in H. destruct H as [[H _]|[_ H]]; auto. lia.
Qed.

Lemma coap_ok_effect : forall E x c i r i' code, coap E x c i r = Resp i' code -> i_state i' <> i_state i ->
  coap_effect r (i_state i) (i_state i') /\ (200 <= code < 300)%N.
Proof.
  intros E x c i r i' code H Hc. apply coap_effect_lemma in H. destruct H as [[H _]|H]; auto.
  exfalso. apply Hc. unfold observable in H. congruence.
Qed.

Lemma coap_success_changes : forall E x c i r i' code, coap E x c i r = Resp i' code -> (code < 400)%N ->
  may_be_idle r = false -> coap_effect r (i_state i) (i_state i').
Proof.
  intros E x c i r i' code H Hc Hr. apply coap_effect_lemma in H. destruct H as [[_ [H|H]]|[H _]]; auto. lia. congruence.
Qed.

(** ** C16 *)
Lemma coap_permission : forall E x c i r i' code, coap E x c i r = Resp i' code -> observable i' <> observable i ->
  check_access E i c (fst (required r)) (snd (required r)) = Some true.
Proof.
  intros E x c i r i' code H Hn. apply coap_resp in H. destruct H as (i1 & -> & H). apply handle_inv in H.
  destruct H as [[[->| ->] _]|[Ha _]]; auto; now contradict Hn.
Qed.

Lemma one_only : forall n fs R s s', one_user_changed n fs R s s' -> only_user n s s'.
Proof.
  intros n fs R s s' (H1 & pre & u & u' & post & Hs & Hs' & Hn & _). split; auto.
  exists pre, u, post. repeat split; auto. right. eauto.
Qed.

Lemma coap_target : forall E x c i r i' code n, coap E x c i r = Resp i' code -> i_state i' <> i_state i ->
  target r = Some n -> only_user n (i_state i) (i_state i').
Proof.
  intros E x c i r i' code n H Hc Ht. pose proof (coap_ok_effect H Hc) as [T _].
  destruct r; try discriminate Ht; injection Ht as <-; cbn [coap_effect api_effect] in T.
  - destruct T as (name & pre & u & post & [= <-] & H1 & H2 & H3 & H4 & _). split; auto. exists pre, u, post. auto.
  - eapply one_only; eauto.
  - destruct T as (name & f & [= <-] & _ & T). eapply one_only; eauto.
  - destruct T as (v' & _ & _ & _ & T). eapply one_only; eauto.
  - destruct T as (v' & _ & name & [= <-] & T). eapply one_only; eauto.
  - destruct T as (v' & _ & name & [= <-] & T). eapply one_only; eauto.
  - destruct T as ([f|] & _ & T).
    + destruct T as (name & g & [= <-] & _ & T). eapply one_only; eauto.
    + eapply one_only; eauto.
  - destruct T as (v' & _ & name & [= <-] & T). eapply one_only; eauto.
  - destruct T as (t & q & _ & T). eapply one_only; eauto.
  - destruct T as (v' & _ & name & [= <-] & T). eapply one_only; eauto.
  - destruct T as (v' & _ & name & [= <-] & T). eapply one_only; eauto.
  - destruct T as (v' & _ & name & [= <-] & T). eapply one_only; eauto.
Qed.

(** ** C14 *)
Lemma coap_announces : forall E x c i r i' code, coap E x c i r = Resp i' code -> i_state i' <> i_state i ->
  i_callbacks i' = S (i_callbacks i) /\ i_changed i' = false.
Proof.
  intros E x c i r i' code H Hn. apply coap_resp in H. destruct H as (i1 & -> & H). apply handle_inv in H.
  destruct H as [[[->| ->] _]|[_ T]]; try (now contradict Hn).
  apply trans_fixed in T. destruct T as (_ & _ & T1 & T2). simpl. rewrite T1, T2. auto.
Qed.

Lemma mode_announces : forall x i m b i' e, run_api x i (ApSetMode m b) = Done i' e ->
  i_callbacks i' = S (i_callbacks i) /\ i_changed i' = false.
Proof. intros x i m b i' e H. cbn in H. unfold api_set_mode in H. injection H as <- _. auto. Qed.

(** Any change is at least recorded, so that the next request announces it. *)
Lemma api_records : forall x i a i' e, run_api x i a = Done i' e -> i_state i' <> i_state i ->
  i_changed i' = true \/ i_callbacks i' = S (i_callbacks i).
Proof.
  intros x i a i' e H Hn. apply api_inv in H. destruct H as [[_ H]|[[_ H]|[_ T]]].
  - apply quiet_state in H. destruct H as [H _]. congruence.
  - destruct a; try contradiction. subst. now contradict Hn.
  - destruct a; cbn [atrans] in T; break T; subst; auto. 
Qed.

Lemma next_request_announces : forall E x c i r i' code, coap E x c i r = Resp i' code -> i_changed i = true ->
  i_callbacks i' = S (i_callbacks i) /\ i_changed i' = false.
Proof.
  intros E x c i r i' code H Hc. apply coap_resp in H. destruct H as (i1 & -> & H). apply handle_inv in H.
  destruct H as [[[->| ->] _]|[_ T]]; simpl; try rewrite Hc; auto.
  apply trans_fixed in T. destruct T as (_ & _ & T1 & T2). rewrite T1, T2. auto.
Qed.

Lemma coap_silent : forall E x c i r i' code, coap E x c i r = Resp i' code -> i_changed i = false -> (code >= 400)%N ->
  i_callbacks i' = i_callbacks i.
Proof.
  intros E x c i r i' code H Hc Hk. apply coap_resp in H. destruct H as (i1 & -> & H). apply handle_inv in H.
  destruct H as [[[->| ->] _]|[_ T]]; simpl; try rewrite Hc; auto.
  destruct r; cbn [trans] in T; break T; subst; lia.
Qed.

(** ** C15 *)
Lemma paired_effect : forall c x i i', paired c x i i' -> open_pairing_effect c i i'.
Proof.
  intros c x i i' (n & f & fn & ro & t & u & Hc & Hv & Hl & Hn & Hf & Hr & Ht & Hu & ->).
  apply user_new_spec in Hu. destruct Hu as [_ ->]. split; [reflexivity|].
  eexists f, n, _. split; auto. split; [now apply find_fp_none|]. split; [now apply find_user_none|].
  split; [reflexivity|]. split; [reflexivity|]. split; [now apply validate_username_ok|]. rewrite Hr. repeat split; auto. discriminate.
Qed.

Lemma pairing_guarded : forall E x c i r i' code, coap E x c i r = Resp i' code -> i_state i' <> i_state i ->
  pairing_ok E c i i' r.
Proof.
  intros E x c i r i' code H Hn. apply coap_resp in H. destruct H as (i1 & -> & H). apply handle_inv in H.
  destruct H as [[[->| ->] _]|[Ha T]]; try (now contradict Hn). unfold pairing_ok, may.
  destruct r; auto; cbn [required fst snd trans] in *.
  - destruct T as (n & u & f & nm & Hm & Hl & Hi & Hu & Hp & Hf & -> & _). repeat split; auto.
    exists n, f. repeat split; auto.
    apply (@upd_one i n u _ [FFps] _ Hu); [reflexivity| |fld].
    unfold is_user_paired in Hp. destruct (u_fps u) eqn:Hfs; [|discriminate]. destruct (u_oauth u) eqn:Hoa; [discriminate|].
    unfold fp_values, user_add_fp. simpl. rewrite Hfs. auto.
  - destruct T as (Hm & Hl & T & _). apply paired_effect in T. repeat split; auto; apply T.
  - destruct T as (n & u & f & nm & Hm & Hp & Hi & Hu & Hf & Hff & -> & _). repeat split; auto.
    exists n, f. repeat split; auto; [now apply find_fp_none|].
    apply (@upd_one i n u _ [FFps; FPassword] _ Hu); [reflexivity| |fld].
    unfold fp_values, user_add_fp. simpl. rewrite map_app. auto.
  - destruct T as (Hm & Hl & Hp & T & _). apply paired_effect in T. repeat split; auto; apply T.
Qed.

Lemma initial_needs_unpaired : forall E x c i r i', (match r with RqPairLocalInitial _ => True | _ => False end) ->
  coap E x c i r = Resp i' 201 ->
  exists n u f nm, st_initial_user (i_state i) = Some n /\ find_user (users i) (Some n) = Some u /\ is_user_paired u = false /\
    i' = do_callbacks (upd n (user_add_fp f nm u) i).
Proof.
  intros E x c i r i' Hr H. apply coap_resp in H. destruct H as (i1 & -> & H). apply handle_inv in H.
  destruct r; try contradiction. destruct H as [[_ [H|H]]|[_ T]]; [lia|discriminate|].
  cbn [trans] in T. destruct T as (n & u & f & nm & _ & _ & Hi & Hu & Hp & _ & -> & _). eauto 10.
Qed.

(** The initial user stays paired. *)
Definition initial_done (i : iam) : Prop :=
  exists n u, st_initial_user (i_state i) = Some n /\ find_user (users i) (Some n) = Some u /\ is_user_paired u = true.

Lemma find_update_same : forall us n u u', find_user us (Some n) = Some u -> u_name u' = u_name u ->
  find_user (update_user n (fun _ => u') us) (Some n) = Some u'.
Proof.
  intros us n u u' Hu Hn. apply find_split in Hu. destruct Hu as (pre & post & -> & Hnm & Hp).
  rewrite update_user_app by auto. apply find_user_first. exists pre, post. repeat split; auto. congruence.
Qed.

Lemma find_update_other : forall us n m u u', find_user us (Some n) = Some u -> u_name u' = u_name u -> n <> m ->
  find_user (update_user n (fun _ => u') us) (Some m) = find_user us (Some m).
Proof.
  intros us n m u u' Hu Hn Hm. apply find_split in Hu. destruct Hu as (pre & post & -> & Hnm & Hp).
  rewrite update_user_app by auto. simpl. clear Hp. induction pre as [|v pre IH]; simpl.
  - assert (E1 : String.eqb (u_name u') m = false) by (apply String.eqb_neq; congruence).
    assert (E2 : String.eqb (u_name u) m = false) by (apply String.eqb_neq; congruence).
    now rewrite E1, E2.
  - destruct (String.eqb (u_name v) m); auto.
Qed.

Lemma find_app_some : forall us vs n u, find_user us (Some n) = Some u -> find_user (us ++ vs)%list (Some n) = Some u.
Proof.
  intros us vs n u H. simpl in *. induction us as [|a us IH]; simpl in *; [discriminate|].
  destruct (String.eqb (u_name a) n); auto.
Qed.

Lemma add_fp_paired : forall f nm u, is_user_paired (user_add_fp f nm u) = true.
Proof. intros. unfold is_user_paired, user_add_fp. simpl. destruct (u_fps u); reflexivity. Qed.

Lemma initial_done_step : forall E x c i r i' code, is_pairing r = true -> initial_done i ->
  coap E x c i r = Resp i' code -> initial_done i'.
Proof.
  intros E x c i r i' code Hr (n & u & Hi & Hu & Hp) H. apply coap_resp in H. destruct H as (i1 & -> & H). apply handle_inv in H.
  destruct H as [[[->| ->] _]|[_ T]]; [exists n, u; auto|exists n, u; auto|].
  assert (P : paired c x i i1 -> initial_done (do_callbacks i1)).
  { intros (n' & f & fn & ro & t & v & _ & _ & _ & _ & _ & _ & _ & _ & ->). exists n, u. repeat split; auto.
    unfold users. simpl. apply (find_app_some _ Hu). }
  assert (U : forall m v f nm, find_user (users i) (Some m) = Some v ->
     initial_done (do_callbacks (upd m (user_add_fp f nm v) i))).
  { intros m v f nm Hv. destruct (string_dec m n) as [->|Hmn].
    - exists n, (user_add_fp f nm v). repeat split; auto; [|apply add_fp_paired].
      rewrite dc_users, upd_users. eapply find_update_same; eauto.
    - exists n, u. repeat split; auto. rewrite dc_users, upd_users. erewrite find_update_other; eauto. }
  destruct r; try discriminate Hr; cbn [trans] in T.
  - destruct T as (m & v & f & nm & _ & _ & _ & Hv & _ & _ & -> & _). now apply U.
  - destruct T as (_ & _ & T & _). auto.
  - destruct T as (m & v & f & nm & _ & _ & _ & Hv & _ & _ & -> & _).
    destruct (string_dec m n) as [->|Hmn].
    + exists n, (set_u_password None (user_add_fp f nm v)). repeat split; auto; [|apply (add_fp_paired f nm v)].
      rewrite dc_users, upd_users. eapply find_update_same; eauto.
    + exists n, u. repeat split; auto. rewrite dc_users, upd_users. erewrite find_update_other; eauto.
  - destruct T as (_ & _ & _ & T & _). auto.
Qed.

Lemma initial_none_after : forall E l i, initial_done i -> Forall (fun a => is_pairing (snd a) = true) l ->
  initial_pairings E i l = 0.
Proof.
  intros E l. induction l as [|[[x c] r] l IH]; intros i Hi Hl; simpl; auto. inversion Hl; subst. simpl in *.
  destruct (coap E x c i r) as [i' code|] eqn:Hc; auto.
  rewrite IH; auto; [|eapply initial_done_step; eauto].
  destruct r; auto. destruct (N.eqb_spec code 201); auto. subst.
  apply initial_needs_unpaired in Hc; [|exact I]. destruct Hc as (n & u & f & nm & A1 & A2 & A3 & _).
  destruct Hi as (n' & u' & B1 & B2 & B3). rewrite A1 in B1. injection B1 as <-. congruence.
Qed.

Lemma initial_at_most_once : forall E l i, Forall (fun a => is_pairing (snd a) = true) l -> initial_pairings E i l <= 1.
Proof.
  intros E l. induction l as [|[[x c] r] l IH]; intros i Hl; simpl; auto. inversion Hl; subst. simpl in *.
  destruct (coap E x c i r) as [i' code|] eqn:Hc; auto.
  destruct r; try (specialize (IH i' H2); simpl; lia).
  destruct (N.eqb_spec code 201); [|specialize (IH i' H2); simpl; lia]. subst.
  rewrite initial_none_after; auto.
  apply initial_needs_unpaired in Hc; [|exact I]. destruct Hc as (n & u & f & nm & A1 & A2 & A3 & ->).
  exists n, (user_add_fp f nm u). repeat split; auto; [|apply add_fp_paired].
  rewrite dc_users, upd_users. eapply find_update_same; eauto.
Qed.

Lemma invite_single_use : forall E x c i p i' code, coap E x c i (RqPairPasswordInvite p) = Resp i' code ->
  i_state i' <> i_state i -> exists n, cn_pwname c = Some n /\ (n <> "" -> pake_password i' (Some n) = None).
Proof.
  intros E x c i p i' code H Hn. apply coap_resp in H. destruct H as (i1 & -> & H). apply handle_inv in H.
  destruct H as [[[->| ->] _]|[Ha T]]; try (now contradict Hn). cbn [trans] in T.
  destruct T as (n & u & f & nm & _ & _ & Hi & Hu & _ & _ & -> & _). exists n. split; auto. intros He.
  unfold pake_password. apply String.eqb_neq in He. rewrite He. rewrite dc_users, upd_users.
  erewrite find_update_same; eauto.
Qed.
