(** * Histories of a device which was set up *)
From Coq Require Import String Ascii List Bool Arith NArith ZArith Lia.
From Verif Require Import JsonModel IamPolicyModel IamPolicyProofs IamStateModel IamStateSpec IamStateProofs IamStateInv IamStateReload IamJsonModel IamJsonSpec IamJsonProofs
  PerModel PerSpec PerProofs PerProofs2 PerProofs3 PerProofs4 PerProofs5 PerProofs6 DefModel DefSpec DefProofs DefProofs2.
Import ListNotations.
Open Scope string_scope.
Open Scope list_scope.
Open Scope nat_scope.

(** ** The configuration file *)

Ltac pcs := apply c_stringI; vm_compute; repeat split; discriminate.
Ltac pset := split; [repeat constructor; cbn; intuition discriminate|intros x Hx; cbn in Hx; repeat destruct Hx as [<-|Hx]; try destruct Hx; pcs].

Lemma default_proper : proper_conf default_conf.
Proof.
  split; [|split].
  - intros p Hp. cbn in Hp. destruct Hp as [<-|[<-|[<-|[<-|[]]]]]; (split; [pcs|]); intros s Hs; cbn in Hs;
      repeat destruct Hs as [<-|Hs]; try destruct Hs; (split; [now left|]); (split; [pset|]); intros c Hc; cbn in Hc;
      repeat destruct Hc as [<-|Hc]; try destruct Hc. split; [pcs|pset].
  - intros r Hr. cbn in Hr. destruct Hr as [<-|[<-|[<-|[<-|[]]]]]; (split; [pcs|pset]).
  - pcs.
Qed.

Lemma conf_more : forall L t t' c, strtod_sane L -> begins t t' -> conf_load L empty_conf t = Some c -> conf_load L empty_conf t' = Some c.
Proof.
  intros L t t' c HL [u ->] H. unfold conf_load in *. destruct (parse L t) as [j|] eqn:Hp; [|discriminate].
  destruct j; try discriminate. now rewrite (parse_more L t u l HL Hp).
Qed.

Lemma default_read : forall L t c, strtod_sane L -> reads_versions L -> begins t (conf_dump default_conf) ->
  conf_load L empty_conf t = Some c -> c = default_conf.
Proof.
  intros L t c HL HR Hb H. apply (conf_more L t _ c HL Hb) in H. rewrite (conf_round L default_conf HR default_proper) in H. congruence.
Qed.

(** ** Secrets *)

Lemma get_in : forall s n c, String.get n s = Some c -> In c (list_ascii_of_string s).
Proof.
  induction s as [|a s IH]; intros [|n] c H; cbn in *; try discriminate; eauto. left. now injection H.
Qed.
Lemma generate_spec : forall n bytes s, generate n bytes = Some s ->
  String.length s = n /\ Forall (fun c => In c (list_ascii_of_string password_alphabet)) (list_ascii_of_string s).
Proof.
  intros n bytes. revert n. induction bytes as [|[b|] bytes IH]; intros [|n] s H; cbn [generate] in H; try discriminate.
  - injection H as <-. split; constructor.
  - injection H as <-. split; constructor.
  - destruct (String.get (N.to_nat b) password_alphabet) as [c|] eqn:Hg; [|now apply IH].
    destruct (generate n bytes) as [s'|] eqn:Hs; [|discriminate]. injection H as <-. destruct (IH _ _ Hs) as [A B].
    split; cbn [String.length list_ascii_of_string]; [now rewrite A|]. constructor; [|exact B]. eapply get_in; eauto.
  - injection H as <-. split; constructor.
Qed.
Lemma drawn_spec : forall s, drawn (Some s) ->
  String.length s = 12 /\ Forall (fun c => In c (list_ascii_of_string password_alphabet)) (list_ascii_of_string s).
Proof.
  intros s (ready & bytes & H). unfold random_password in H. destruct ready; [|discriminate]. symmetry in H. now apply generate_spec in H.
Qed.
Lemma alpha_not_nul : ~ In "000"%char (list_ascii_of_string password_alphabet).
Proof. vm_compute. intuition discriminate. Qed.
Lemma drawn_c : forall o, drawn o -> opt_c_string o.
Proof.
  intros [s|] H; [|exact I]. apply drawn_spec in H. destruct H as [_ H]. intros X. rewrite Forall_forall in H. exact (alpha_not_nul (H _ X)).
Qed.
Lemma drawn_len : forall lo hi o, drawn o -> (lo <= 12)%N -> (12 <= hi)%N -> check_length lo hi o = true.
Proof.
  intros lo hi [s|] H H1 H2; [|reflexivity]. apply drawn_spec in H. destruct H as [H _].
  cbn [check_length]. unfold strlen. rewrite H. change (N.of_nat 12) with 12%N.
  apply negb_true_iff, orb_false_iff. split; apply N.ltb_ge; assumption.
Qed.

Lemma admin_proper : forall z, made z -> proper_user (admin_user z).
Proof.
  intros z (A & B & _ & _). unfold proper_user, admin_user. cbn. repeat match goal with |- _ /\ _ => split end; auto using drawn_c.
  - apply validate_username_ok. reflexivity.
  - intros f [].
  - pcs.
  - intros c [].
  - constructor.
Qed.
Lemma role_proper : forall n, c_string (role_of n).
Proof. intros [|[|[|[|[|n]]]]]; pcs. Qed.

Lemma first_proper : forall z s, made z -> given s -> proper_state (first_state z s).
Proof.
  intros z s Hz Hs. pose proof Hz as (_ & _ & C & D). destruct s as [|w|]; cbn [first_state]; unfold proper_state, default_state, custom_state, demo_state; cbn -[String.eqb role_of];
    repeat match goal with |- _ /\ _ => split end; auto using drawn_c, role_proper; try pcs.
  - intros u [<-|[]]. now apply admin_proper.
  - destruct (w_local_initial w || w_pw_invite w)%bool; [pcs|exact I].
  - destruct (String.eqb (w_name w) ""); [pcs|]. exact (proj1 (proj2 Hs)).
  - destruct (w_local_initial w || w_pw_invite w)%bool; intros u Hu; [|destruct Hu]. destruct Hu as [<-|[]]. now apply admin_proper.
  - intros u [].
Qed.

Lemma first_friendly : forall z s, st_friendly (first_state z s) <> None.
Proof. intros z [|w|]; discriminate. Qed.

Lemma first_valid : forall z s, made z -> given s -> vstate (i_lim iam_init) (i_cats iam_init) (first_state z s).
Proof.
  intros z s (A & B & C & D) Hs. apply vstate_iff.
  assert (U : validate_user (i_lim iam_init) (i_cats iam_init) (admin_user z) = true).
  { unfold validate_user, admin_user. cbn [u_name u_display u_password u_fps u_sct u_fcm_token u_fcm_project u_oauth u_cats iam_init i_lim i_cats default_limits l_username l_display l_pw_min l_pw_max l_fcm_token l_fcm_project l_oauth l_sct l_friendly].
    rewrite (drawn_len 4 64 _ A), (drawn_len 0 64 _ B) by lia. reflexivity. }
  unfold validate_state. destruct s as [|w|]; cbn [first_state default_state custom_state demo_state st_users st_pw_open_password st_pw_open_sct st_initial_user st_friendly];
    change (l_pw_min (i_lim iam_init)) with 4%N; change (l_pw_max (i_lim iam_init)) with 64%N; change (l_sct (i_lim iam_init)) with 64%N;
    change (l_username (i_lim iam_init)) with 64%N; change (l_friendly (i_lim iam_init)) with 64%N;
    rewrite (drawn_len 4 64 _ C), (drawn_len 0 64 _ D) by lia.
  - cbn [forallb]. rewrite U. reflexivity.
  - assert (F : check_length 0 64 (Some (if String.eqb (w_name w) "" then "Tcp Tunnel" else w_name w)) = true).
    { destruct (String.eqb (w_name w) ""); [reflexivity|]. cbn [check_length]. apply negb_true_iff, orb_false_iff. destruct Hs as (_ & _ & Hs). split; apply N.ltb_ge; lia. }
    rewrite F. destruct (w_local_initial w || w_pw_invite w)%bool; cbn [forallb]; rewrite ?U; reflexivity.
  - reflexivity.
Qed.

(** ** Histories *)

Lemma first_weak : forall z s, careful s -> weak (first_state z s).
Proof.
  intros z [|w|] Hs; [| |destruct Hs].
  - split; [right; right; reflexivity|]. constructor; [|constructor]. left. split; reflexivity.
  - split.
    + cbn in *. destruct (w_role w) as [|[|n]]; [right; left; reflexivity|right; right; reflexivity|lia].
    + cbn. destruct (w_local_initial w || w_pw_invite w)%bool; constructor; [|constructor]. left. split; reflexivity.
Qed.

Definition ran (d : dev) : Prop := forall p, d_run d = Some p -> safe (p_iam p).

Lemma had_snoc : forall L K E d0 ops o d1 o1 s, run L K E d0 ops = Some (d1, o1) -> had L K E d0 (ops ++ [o]) s ->
  had L K E d0 ops s \/ serves E d1 o s.
Proof.
  intros L K E d0 ops o d1 o1 s Hr [H|(pre & o' & post & d & os & He & Hd & Hs)]; [left; now left|].
  destruct post as [|q0 post0]; [|destruct (exists_last (l := q0 :: post0) ltac:(discriminate)) as (post' & y & Hlast); rewrite Hlast in He].
  - apply app_inj_tail in He. destruct He as [-> ->]. right. congruence.
  - change (pre ++ o' :: post' ++ [y]) with (pre ++ (o' :: post') ++ [y]) in He. rewrite app_assoc in He.
    apply app_inj_tail in He. destruct He as [-> ->]. left. right. exists pre, o', post', d, os. auto.
Qed.

Lemma history_safe : forall L K E s0 d0 ops d os, strtod_sane L -> reads_versions L -> proper_state s0 -> weak s0 ->
  set_up s0 d0 -> c_ops ops -> Forall (default_boot L) ops -> Forall stranger ops ->
  run L K E d0 ops = Some (d, os) -> ran d /\ (forall s, had L K E d0 ops s -> weak s).
Proof.
  intros L K E s0 d0 ops d os HL HR Hp Hw [H0 (t0 & Ht0 & Hb0)]. revert d os.
  induction ops as [|o ops IH] using rev_ind; intros d os Hc Hd Hs H.
  - injection H as <- <-. split.
    + intros p Ep. congruence.
    + intros s [(t & Et & Hst)|(pre & o & post & d & os & He & _)]; [|destruct pre; discriminate].
      assert (t = t0) by congruence. subst t. eapply same_weak; [|exact Hw]. eapply loads_printed; eauto.
  - pose proof H as Hall. apply run_app in H. destruct H as (d1 & o1 & o2 & H1 & H2 & ->).
    pose proof Hc as Hc0.
    apply Forall_app in Hc. destruct Hc as [Hc Ho]. apply Forall_app in Hd. destruct Hd as [Hd Hdo]. apply Forall_app in Hs. destruct Hs as [Hs Hso].
    inversion Hdo as [|? ? Hdb _]; subst. inversion Hso as [|? ? Hst _]; subst. inversion Ho as [|? ? Hoc _]; subst.
    destruct (IH _ _ Hc Hd Hs H1) as [IHr IHh]. cbn [run] in H2.
    destruct (step L K E d1 o) as [[d2 o3]|] eqn:Hstep; [|discriminate]. injection H2 as <- <-.
    assert (Hserve : forall s, serves E d1 o s -> weak s).
    { intros s (p & x & e & w & i & Ep & -> & Hi & ->). exact (proj2 (proj2 (safe_step _ _ _ _ _ _ (IHr _ Ep) Hst Hi))). }
    assert (Hhad : forall s, had L K E d0 (ops ++ [o]) s -> weak s).
    { intros s X. destruct (had_snoc _ _ _ _ _ _ _ _ _ H1 X) as [Y|Y]; auto. }
    split; [|exact Hhad].
    destruct o as [b|x e w|].
    + cbn [step] in Hstep. destruct (d_run d1) as [p|] eqn:Hr; [injection Hstep as <- <-; exact IHr|].
      destruct (boot L K b d1) as [d3 o4] eqn:Hb. injection Hstep as <- <-.
      intros p Ep.
      destruct (history_inv _ _ _ _ _ _ _ HL HR H0 Hc H1) as [Hh _].
      destruct (boot_history L K E b d0 ops _ _ _ HL HR Hh Hb Hr) as [_ B]. destruct (B p Ep) as (s & Hhs & _ & Hsame).
      destruct (boot_inv _ _ _ _ _ _ Hb Hr) as [->|(f & ph & _ & _ & _ & [X|(s' & k & i1 & i2 & _ & Hlc & Hls & _ & X)])]; [congruence|congruence|].
      rewrite X in Ep. injection Ep as <-. cbn [p_iam] in *.
      apply load_inv in Hls. destruct Hls as (C1 & _ & _ & C2 & _).
      cbn in Hdb. destruct Hdb as (t & Hbt & Hct). apply (default_read L t _ HL HR Hbt) in Hct.
      unfold load_conf in Hlc. rewrite Hct in Hlc. cbn in Hlc. injection Hlc as <-.
      split; [exact C1|]. split; [exact C2|].
      eapply same_weak; [exact Hsame|]. apply weak_named. auto.
    + destruct (d_run d1) as [p|] eqn:Hr; [|cbn [step] in Hstep; rewrite Hr in Hstep; injection Hstep as <- <-; exact IHr].
      destruct (serve_inv _ _ _ _ _ _ _ _ _ _ Hr Hstep) as (i' & Hi & _ & Hrun & _).
      intros q Eq. destruct Hrun as [E'|E']; [congruence|]. rewrite E' in Eq. injection Eq as <-.
      exact (safe_step _ _ _ _ _ _ (IHr _ Hr) Hst Hi).
    + cbn [step] in Hstep. injection Hstep as <- <-. intros p Ep. discriminate.
Qed.
