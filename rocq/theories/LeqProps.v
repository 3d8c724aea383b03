(** * C107: an event of the queue on libevent *)
From Coq Require Import List Bool NArith Lia.
From Verif Require Import LeqModel LeqSpec.
Import ListNotations.

Lemma run_app : forall l1 s l2, run s (l1 ++ l2) = match run s l1 with Some s' => run s' l2 | None => None end.
Proof. induction l1 as [|o l1 IH]; intros s l2; [reflexivity|]. cbn. destruct (step s o); [apply IH|reflexivity]. Qed.

Ltac st_cases s := destruct s as [a d p n lp0 ap0 r]; destruct lp0, ap0.

(** Whatever the two threads do, the callback runs only while the application is without
    the core mutex. *)
Theorem C107_mutex : forall s, reached s -> lp s = Inside -> ap s = Out.
Proof.
  intros s (l & R). revert s R. induction l as [|o l IH] using rev_ind; intros s R.
  - injection R as <-. discriminate.
  - rewrite run_app in R. destruct (run start l) as [s0|]; [|discriminate]. specialize (IH s0 eq_refl). cbn [run] in R.
    destruct (step s0 o) as [s1|] eqn:E; [|discriminate]. injection R as <-.
    st_cases s0; destruct o; cbn in E, IH |- *; try discriminate; try specialize (IH eq_refl); try discriminate;
      try (destruct p); cbn in E; try (injection E as <-; cbn; auto; discriminate).
    all: destruct (ready _); try discriminate; injection E as <-; cbn; discriminate.
Qed.

Lemma calm_inv : forall s, calm s -> posted s = true -> active s = true \/ lp s = Taken.
Proof.
  induction 1 as [|s o s' C IH H E]; [discriminate|].
  st_cases s; destruct o; cbn in E, IH, H |- *; try discriminate;
    try (specialize (H eq_refl); subst p); try (destruct p); cbn in E; try (injection E as <-; cbn; auto; discriminate).
  all: unfold ready in E; cbn in E; destruct a; cbn in E; try (injection E as <-; cbn; auto; fail); try (destruct (IH eq_refl); discriminate).
  all: destruct d as [t|]; try discriminate; destruct (N.leb t n); try discriminate; injection E as <-; cbn; auto; discriminate.
Qed.

Lemma active_scheduled : forall s, active s = true -> scheduled s.
Proof.
  intros s A. right. cbn [step set_threads lp]. unfold ready. cbn [set_threads active due now]. rewrite A. cbn [orb].
  eexists. split; [reflexivity|]. eexists. split; reflexivity.
Qed.

(** As long as nobody cancels an event between a post and its callback: a posted event
    will run, by post or by post_maybe_double, whatever this one returns, and it returns
    false only for an event which is scheduled already. *)
Theorem C107_post_partial : forall s, calm s ->
  (forall s', step s Post = Some s' \/ step s PostMaybe = Some s' -> scheduled s') /\
  (snd (post_maybe_double s) = false -> scheduled s).
Proof.
  intros s C. assert (K : posted s = true -> scheduled s).
  { intros P. destruct (calm_inv s C P) as [A|T]; [now apply active_scheduled|now left]. }
  split.
  - intros s' [E|E]; cbn [step] in E; destruct (locked s); try discriminate; injection E as <-.
    + now apply active_scheduled.
    + unfold post_maybe_double. destruct (posted s) eqn:P; [now apply K|now apply active_scheduled].
  - unfold post_maybe_double. destruct (posted s); [intros _; now apply K|discriminate].
Qed.

(** Between a post, by either function, and the beginning of the callback every
    post_maybe_double is told that it is double. *)
Theorem C107_double : forall s o s1 l s2, o = Post \/ o = PostMaybe -> step s o = Some s1 -> ~ In Enter l -> run s1 l = Some s2 ->
  snd (post_maybe_double s2) = false.
Proof.
  intros s o s1 l s2 O E N R. assert (P : posted s1 = true).
  { destruct O as [-> | ->]; cbn [step] in E; destruct (locked s); try discriminate; injection E as <-; [reflexivity|].
    unfold post_maybe_double. destruct (posted s) eqn:P; [exact P|reflexivity]. }
  clear s o O E. revert s1 P R. induction l as [|o l IH]; intros s1 P R.
  - injection R as <-. unfold post_maybe_double. now rewrite P.
  - cbn [run] in R. destruct (step s1 o) as [s|] eqn:E; [|discriminate]. apply (IH (fun X => N (or_intror X)) s); [|exact R].
    destruct o; cbn [step] in E; try (now destruct N; left); destruct (lp s1), (ap s1), (locked s1); try discriminate;
      try destruct (ready s1); try discriminate; injection E as <-; try exact P; try reflexivity; unfold post_maybe_double; rewrite P; exact P.
Qed.

(** A timed event is taken when its time is over and not before. *)
Theorem C107_timed : forall s ms l s1 s2, lp s = Free -> active s = false -> step s (PostTimed ms) = Some s1 ->
  (forall o, In o l -> o = Lock \/ o = Unlock \/ exists d, o = Tick d) -> run s1 l = Some s2 ->
  ((exists s3, step s2 Take = Some s3) <-> (ms <= time l)%N).
Proof.
  intros s ms l s1 s2 F A E H R.
  assert (G : forall l s1 s2 t, lp s1 = Free -> active s1 = false -> due s1 = Some t -> (forall o, In o l -> o = Lock \/ o = Unlock \/ exists d, o = Tick d) ->
    run s1 l = Some s2 -> lp s2 = Free /\ active s2 = false /\ due s2 = Some t /\ now s2 = (now s1 + time l)%N).
  { clear. induction l as [|o l IH]; intros s1 s2 t F A D H R.
    - injection R as <-. repeat split; auto. cbn. lia.
    - cbn [run] in R. destruct (step s1 o) as [s'|] eqn:E; [|discriminate].
      assert (X : lp s' = Free /\ active s' = false /\ due s' = Some t /\ (now s' + time l = now s1 + time (o :: l))%N).
      { destruct (H o (or_introl eq_refl)) as [->|[->|(d & ->)]]; cbn [step] in E.
        - rewrite F in E. destruct (ap s1); try discriminate. injection E as <-. cbn. auto.
        - destruct (ap s1); try discriminate. injection E as <-. cbn. auto.
        - injection E as <-. change (time (Tick d :: l)) with (d + time l)%N. cbn [lp active due now]. repeat split; auto. lia. }
      destruct X as (F' & A' & D' & T). destruct (IH s' s2 t F' A' D' (fun o' X => H o' (or_intror X)) R) as (F2 & A2 & D2 & N2).
      repeat split; auto. rewrite N2. exact T. }
  cbn [step] in E. destruct (locked s); [|discriminate]. injection E as <-.
  assert (M : (ms / 1000 * 1000 + ms mod 1000 = ms)%N) by (rewrite N.mul_comm; symmetry; now apply N.div_mod).
  unfold post_timed in R. rewrite M in R.
  destruct (G l (event_add s ms) s2 _ F A eq_refl H R) as (F2 & A2 & D2 & N2). cbn [event_add now] in N2.
  cbn [step]. rewrite F2. unfold ready. rewrite A2, D2, N2. cbn [orb]. destruct (N.leb_spec (now s + ms) (now s + time l)) as [X|X].
  - split; [intros _; lia|intros _; eauto].
  - split; [intros (s3 & Y); discriminate|lia].
Qed.

(** Nothing is on its way, and no step but a post changes this. *)
Lemma silent : forall l s s', lp s <> Taken -> active s = false -> due s = None ->
  (forall o, In o l -> o <> Post /\ (forall ms, o <> PostTimed ms) /\ (o = PostMaybe -> posted s = true)) ->
  (posted s = true \/ ~ In PostMaybe l) -> run s l = Some s' -> runs s' = runs s.
Proof.
  induction l as [|o l IH]; intros s s' T A D H P R; [now injection R as <-|].
  cbn [run] in R. destruct (step s o) as [s1|] eqn:E; [|discriminate].
  destruct (H o (or_introl eq_refl)) as (H1 & H2 & H3).
  assert (X : lp s1 <> Taken /\ active s1 = false /\ due s1 = None /\ posted s1 = posted s /\ runs s1 = runs s).
  { destruct o; cbn [step] in E.
    - destruct (lp s) eqn:L, (ap s); try discriminate; injection E as <-; cbn; repeat split; auto; congruence.
    - destruct (ap s); try discriminate; injection E as <-; cbn; repeat split; auto.
    - now destruct H1.
    - destruct (locked s); [|discriminate]. injection E as <-. unfold post_maybe_double. rewrite (H3 eq_refl). cbn [fst]. repeat split; auto.
    - now destruct (H2 ms).
    - destruct (locked s); [|discriminate]. injection E as <-. destruct (lp s) eqn:L; cbn; rewrite ?L; repeat split; auto; congruence.
    - destruct (lp s), (ap s); try discriminate; injection E as <-; cbn; repeat split; auto; congruence.
    - unfold ready in E. rewrite A, D in E. cbn in E. destruct (lp s); discriminate.
    - destruct (lp s); try discriminate. now destruct T.
    - destruct (lp s); try discriminate; injection E as <-; cbn; repeat split; auto; congruence.
    - injection E as <-. cbn. repeat split; auto. }
  destruct X as (T' & A' & D' & P' & N). rewrite <- N. apply (IH s1 s'); auto.
  - intros o' X. rewrite P'. apply H. now right.
  - rewrite P'. destruct P as [P|P]; [now left|right; intros X; apply P; now right].
Qed.

(** A cancelled event which the loop does not have in hand runs no more until it is posted
    again. *)
Theorem C107_cancel : forall s s1 l s2, lp s <> Taken -> step s Cancel = Some s1 ->
  (forall o, In o l -> o <> Post /\ o <> PostMaybe /\ forall ms, o <> PostTimed ms) -> run s1 l = Some s2 -> runs s2 = runs s.
Proof.
  intros s s1 l s2 T E H R. cbn [step] in E. destruct (locked s); [|discriminate]. injection E as <-.
  assert (Q : run (event_del s) l = Some s2) by (destruct (lp s); [exact R|now destruct T|exact R]).
  change (runs s) with (runs (event_del s)). apply (silent l (event_del s) s2); auto.
  - intros o X. destruct (H o X) as (H1 & H2 & H3). repeat split; auto; intros Y; contradiction.
  - right. intros X. now destruct (H _ X) as (_ & Y & _).
Qed.

(** The interface: only timed events are cancelled, and post_maybe_double schedules the
    event or finds it scheduled.  Wrong after a post and a cancel: the posted callback
    is lost, and so is every later post_maybe_double, for ever. *)
Theorem C107_lost_refuted : forall s s1 s2, lp s <> Taken -> step s Post = Some s1 -> step s1 Cancel = Some s2 ->
  snd (post_maybe_double s2) = false /\ ~ scheduled s2 /\
  forall l s3, (forall o, In o l -> o <> Post /\ forall ms, o <> PostTimed ms) -> run s2 l = Some s3 -> runs s3 = runs s.
Proof.
  intros s s1 s2 T E1 E2. cbn [step] in E1. destruct (locked s); [|discriminate]. injection E1 as <-.
  cbn [step] in E2. destruct (locked (post s)); [|discriminate]. injection E2 as <-. cbn [post event_active set_posted lp].
  replace (match lp s with Taken => set_threads (event_del (post s)) Taken Deleting | _ => event_del (post s) end) with (event_del (post s)) by (destruct (lp s); [reflexivity|now destruct T|reflexivity]).
  split; [reflexivity|]. split.
  - intros [X|(s' & X & _)]; [now apply T|discriminate].
  - intros l s3 H R. change (runs s) with (runs (event_del (post s))). apply (silent l (event_del (post s)) s3); auto.
    intros o X. destruct (H o X) as (H1 & H2). repeat split; auto.
Qed.

(** Cancelling a timer which the loop has just taken: the application waits in event_del,
    with the core mutex, for the callback, which waits for the mutex.  No step of either
    thread is possible, for ever, and the way there cancels a timed event only. *)
Theorem C107_deadlock_refuted :
  (exists s, calm s /\ ap s = Holding /\ lp s = Taken /\ posted s = false /\ exists s1, step s Cancel = Some s1) /\
  forall s s1, ap s = Holding -> lp s = Taken -> step s Cancel = Some s1 ->
  forall l s2, run s1 l = Some s2 -> lp s2 = Taken /\ ap s2 = Deleting /\ runs s2 = runs s /\ forall o, In o l -> exists ms, o = Tick ms.
Proof.
  split.
  - exists {| active := false; due := None; posted := false; now := 5; lp := Taken; ap := Holding; runs := 0 |}.
    split; [|repeat split; eexists; reflexivity].
    assert (G : forall l s s', calm s -> ~ In Cancel l -> run s l = Some s' -> calm s').
    { induction l as [|o l IH]; intros s s' C N R; [now injection R as <-|]. cbn [run] in R. destruct (step s o) as [s0|] eqn:E; [|discriminate].
      apply (IH s0 s'); auto; [|intros X; apply N; now right]. apply (calm_step s o); auto. intros ->. destruct N. now left. }
    apply (G [Lock; PostTimed 5; Unlock; Tick 5; Take; Lock] start); [constructor| |reflexivity].
    cbn. intros H. repeat (destruct H as [H|H]; [discriminate|]). exact H.
  - intros s s1 A L E. cbn [step] in E. destruct (locked s); [|discriminate]. rewrite L in E. injection E as <-.
    assert (G : forall l s s2, lp s = Taken -> ap s = Deleting -> run s l = Some s2 -> lp s2 = Taken /\ ap s2 = Deleting /\ runs s2 = runs s /\ forall o, In o l -> exists ms, o = Tick ms).
    { clear. induction l as [|o l IH]; intros s s2 L A R; [injection R as <-; repeat split; auto; intros o []|].
      cbn [run] in R. destruct o; cbn [step] in R; unfold locked in R; rewrite ?L, ?A in R; try discriminate.
      apply IH in R; [|reflexivity|reflexivity]. destruct R as (X1 & X2 & X3 & X4).
      repeat split; auto. intros o [<-|X]; [eauto|now apply X4]. }
    intros l s2 R. exact (G l (set_threads (event_del s) Taken Deleting) s2 eq_refl eq_refl R).
Qed.

(** A timer and a post, each run once. *)
Example C107_ex : exists s, run start [Lock; PostTimed 5; Unlock; Tick 5; Take; Enter; PostMaybe; PostMaybe; Leave; Take; Enter; Leave] = Some s /\ runs s = 2 /\ ready s = false /\
  run start [Lock; PostTimed 5; Unlock; Tick 4; Take] = None /\
  exists s1, run start [Lock; Post; Cancel; PostMaybe; PostMaybe; Unlock; Tick 1000] = Some s1 /\ ready s1 = false /\ runs s1 = 0.
Proof. eexists. repeat split. eexists. repeat split. Qed.

Print Assumptions C107_mutex.
Print Assumptions C107_post_partial.
Print Assumptions C107_double.
Print Assumptions C107_timed.
Print Assumptions C107_cancel.
Print Assumptions C107_lost_refuted.
Print Assumptions C107_deadlock_refuted.
