(** Lemmas about the futures of a device: a start or a close which is in progress is completed by what the platform completes. *)
From Coq Require Import String List Bool Arith Lia.
From Verif Require Import DevModel DevSpec DevProofs DevMore.
Import ListNotations.

Lemma futures_events : forall l, existsb is_call l = false -> futures l = [].
Proof. induction l as [|o l IH]; [reflexivity|]. cbn [existsb]. intros E. apply orb_false_elim in E as [E1 E2]. change (futures (o :: l)) with (future o ++ futures l). rewrite (IH E2). destruct o; cbn in *; congruence. Qed.
Lemma split_events : forall (h l h1 : list op) o h2, existsb is_call l = false -> is_call o = true -> h ++ l = h1 ++ o :: h2 -> exists h3, h = h1 ++ o :: h3.
Proof.
  induction h as [|x h IH]; intros l h1 o h2 E C H.
  - exfalso. cbn in H. subst l. rewrite existsb_app in E. cbn in E. rewrite C in E. cbn in E. rewrite orb_true_r in E. discriminate.
  - destruct h1 as [|y h1].
    + injection H as -> H. exists h. reflexivity.
    + injection H as -> H. destruct (IH _ _ _ _ E C H) as (h3 & ->). exists h3. reflexivity.
Qed.
Lemma extend : forall h l, existsb is_call l = false -> existsb is_stop l = false -> lawful h -> orderly h -> one_life h -> calm h ->
  lawful (h ++ l) /\ orderly (h ++ l) /\ one_life (h ++ l) /\ calm (h ++ l).
Proof.
  intros h l E S [L1 L2] O O1 C. split; [split|split; [|split]].
  - rewrite futures_app, (futures_events _ E), app_nil_r. exact L1.
  - intros h1 o h2 H X. destruct (split_events _ _ _ _ _ E X H) as (h3 & ->). eapply L2; eauto.
  - intros h1 f k h2 H. destruct (split_events _ _ _ _ _ E (eq_refl : is_call (Start f k) = true) H) as (h3 & ->). eapply O; eauto.
  - intros h1 f k h2 H. destruct (split_events _ _ _ _ _ E (eq_refl : is_call (Start f k) = true) H) as (h3 & ->). eapply O1; eauto.
  - intros X. apply in_app_iff in X as [X|X]; [auto|]. assert (Y : existsb is_stop l = true) by (apply existsb_exists; exists (Stop true); auto). congruence.
Qed.
Lemma run_one : forall o h d, fst (run d (o :: h)) = fst (run (fst (step o d)) h).
Proof. intros. cbn [run]. destruct (step o d) as [d1 l]. cbn [fst]. destruct (run d1 h). reflexivity. Qed.
Lemma conns_done : forall d, v_conns (fst (step ConnsClosed d)) = false.
Proof. intros d. cbn [step]. destruct (v_conns d) eqn:E; [reflexivity|exact E]. Qed.
Lemma attach_done : forall d, a_closing (fst (step AttachClosed d)) = false.
Proof. intros d. cbn [step]. crush d; auto. Qed.
Lemma plat_done : forall c d, v_plat (fst (step (PlatClosed c) d)) = false.
Proof. intros c d. cbn [step]. crush d; auto. Qed.
Lemma settle_run : forall c1 c2 c3 c4 d, let e := fst (run d (settle c1 c2 c3 c4)) in v_stage e = None /\ v_conns e = false /\ a_closing e = false /\ v_plat e = false.
Proof.
  intros c1 c2 c3 c4 d e. unfold e, settle. rewrite !run_one. cbn [run]. generalize (bound_rank c1 d). change (bound c1 d) with (step (Bound c1) d). generalize (fst (step (Bound c1) d)). intros d1 R1.
  generalize (bound_rank c2 d1). change (bound c2 d1) with (step (Bound c2) d1). generalize (fst (step (Bound c2) d1)). intros d2 R2.
  generalize (bound_rank c3 d2). change (bound c3 d2) with (step (Bound c3) d2). generalize (fst (step (Bound c3) d2)). intros d3 R3.
  assert (S : v_stage d3 = None). { unfold rank in *. destruct (v_stage d3) as [[]|], (v_stage d2) as [[]|], (v_stage d1) as [[]|], (v_stage d) as [[]|]; cbn in *; try lia; reflexivity. } clear R1 R2 R3.
  cbn [fst]. generalize (conns_done d3). generalize (event_keeps ConnsClosed d3 (or_introl eq_refl)). generalize (fst (step ConnsClosed d3)). intros d4 (A1 & _) A2.
  generalize (attach_done d4). generalize (event_keeps AttachClosed d4 (or_intror (or_introl eq_refl))). generalize (fst (step AttachClosed d4)). intros d5 (B1 & B2 & _) B3.
  generalize (plat_done c4 d5). generalize (event_keeps (PlatClosed c4) d5 (or_intror (or_intror (ex_intro _ c4 eq_refl)))). generalize (fst (step (PlatClosed c4) d5)). intros d6 (D1 & D2 & D3 & _) D4.
  split; [|split; [|split]]; [congruence|auto| |exact D4]. apply D3; [discriminate|exact B3].
Qed.
Lemma settled : forall h c1 c2 c3 c4, lawful h -> orderly h -> one_life h -> calm h ->
  forall g, inflight g (fst (run init (h ++ settle c1 c2 c3 c4))) = 0.
Proof.
  intros h c1 c2 c3 c4 L OR O C g.
  destruct (extend h (settle c1 c2 c3 c4) eq_refl eq_refl L OR O C) as (L' & OR' & O' & C').
  pose proof (reach_good (h ++ settle c1 c2 c3 c4)) as G. pose proof (reach_live _ O' C') as V.
  revert G V. rewrite run_app. cbn [fst]. destruct (settle_run c1 c2 c3 c4 (fst (run init h))) as (S1 & S2 & S3 & S4). revert S1 S2 S3 S4. generalize (fst (run (fst (run init h)) (settle c1 c2 c3 c4))). intros e S1 S2 S3 S4 [G1 G2 G3 G4] V. unfold live in V.
  unfold inflight. destruct (v_start_cb e) eqn:SC; [destruct (proj2 G2 eq_refl); exact S1|]. cbn. destruct (v_close_fut e) eqn:CF; [|reflexivity]. exfalso. destruct (proj1 G3 ltac:(discriminate)) as [X|X]; [|congruence]. destruct (V X) as [_ [Y|[Y _]]]; congruence.
Qed.
Lemma settle_counts : forall h c1 c2 c3 c4, lawful h -> orderly h -> one_life h -> calm h ->
  forall g, In g (futures h) -> times g (outs (snd (run init (h ++ settle c1 c2 c3 c4)))) = 1.
Proof.
  intros h c1 c2 c3 c4 L OR O C g I. destruct (extend h (settle c1 c2 c3 c4) eq_refl eq_refl L OR O C) as (L' & OR' & _).
  pose proof (reach_count _ L' OR' g) as K. rewrite settled in K by assumption. rewrite Nat.add_0_r in K. rewrite K. unfold calls. rewrite futures_app. change (futures (settle c1 c2 c3 c4)) with (@nil nat). rewrite app_nil_r. apply count_nodup; [apply L|exact I].
Qed.
Lemma at_most_once : forall h, lawful h -> orderly h -> forall g, times g (outs (snd (run init h))) <= 1.
Proof. intros h L O g. pose proof (reach_count h L O g). destruct (count_nodup g _ (proj1 L)) as [C _]. fold (calls g h) in C. lia. Qed.
(** A future which is not resolved is waiting for the start or the close. *)
Lemma waiting : forall h, lawful h -> orderly h -> forall g, In g (futures h) -> times g (outs (snd (run init h))) = 0 -> inflight g (fst (run init h)) = 1.
Proof. intros h L O g I Z. pose proof (reach_count h L O g) as K. destruct (count_nodup g _ (proj1 L)) as [_ C]. fold (calls g h) in C. rewrite (C I) in K. lia. Qed.
