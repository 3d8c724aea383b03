(** Lemmas about the attach setting of a device. *)
From Coq Require Import String List Bool Arith Lia NArith.
From Verif Require Import DevModel DevSpec DevProofs DevMore DevLife.
Import ListNotations.

Definition is_ok (x : out) : bool := match x with Resolved _ Ok => true | _ => false end.
(** [b]: attach is enabled; [k]: a start has succeeded. *)
Record att (b k : bool) (d : dev) : Prop := {
  t_setup : v_phase d = Setup -> a_module d = MSetup /\ v_stage d = None /\ v_attach d = b /\ k = false;
  t_still : v_phase d = Running -> v_stage d = None -> (a_module d = MRunning <-> b = true) /\ (a_module d = MSetup <-> v_attach d = false);
  t_stage : v_stage d <> None \/ v_phase d = Stopped -> a_module d = MSetup /\ v_attach d = b /\ (k = true -> b = false) }.
Lemma start_att : forall f k d, let r := start f k d in existsb is_ok (snd r) = false /\ (forall n, In (Bind P2p n) (snd r) -> a_module d = MSetup).
Proof.
  intros f k d. cbv zeta. unfold start. set (d0 := set_start (v_start_cb d) (Some f) d). destruct (v_key d0); [|split; [reflexivity|intros n [X|[]]; discriminate]].
  change (a_module d0) with (a_module d). destruct (a_module d) eqn:M; try (split; [reflexivity|intros n [X|[]]; discriminate]).
  destruct k; try (split; [reflexivity|auto]). destruct (core_start_ok d0) as (x & y & z & [H|H]); rewrite H; split; auto.
Qed.
Lemma att_same : forall b k d e, att b k d -> v_phase e = v_phase d -> v_stage e = v_stage d -> a_module e = a_module d -> v_attach e = v_attach d -> att b k e.
Proof. intros b k d e [A B C] P S M T. constructor; rewrite ?P, ?S, ?M, ?T; auto. Qed.
Lemma step_att : forall o d b k, good d -> is_close o = false -> is_stop o = false -> (is_set_attach o = true -> v_start_cb d = false) -> v_close_cb d = false -> v_plat d = false -> v_conns d = false -> v_closing d = false -> att b k d ->
  att (enabled1 b (o, snd (step o d))) (k || existsb is_ok (snd (step o d))) (fst (step o d)) /\ v_close_cb (fst (step o d)) = false /\ v_plat (fst (step o d)) = false /\ v_conns (fst (step o d)) = false.
Proof.
  intros o d b k G C S A CC PL CO CL T.
  destruct o as [f key|f active|active|bb keep| | | |bb|p l|fl v oom|c| | |c|]; try discriminate; cbn [step enabled1]; clear C S.
  - rewrite CL. destruct (start_att f key d) as [N M]. destruct (start_ok f key d) as (x & y & z & c & [E|E]); rewrite E in *; cbn [fst snd] in *.
    + rewrite N, orb_false_r. split; [|auto]. eapply att_same; [exact T| | | |]; reflexivity.
    + cbn [existsb is_ok orb]. rewrite orb_false_r. specialize (M _ (or_introl eq_refl)). destruct T as [T1 T2 T3].
      assert (X : v_attach d = b /\ (k = true -> b = false)).
      { destruct (v_phase d) eqn:P; [destruct (T1 eq_refl) as (_ & _ & X & Y); split; [exact X|congruence]| |destruct T3 as (_ & X & Y); auto].
        destruct (v_stage d) eqn:S; [destruct T3 as (_ & X & Y); [left; discriminate|auto]|]. destruct (T2 eq_refl eq_refl) as [X Y]. destruct b; [destruct X as [_ X]; rewrite (X eq_refl) in M; discriminate|]. split; [apply Y; exact M|auto]. }
      unfold attacher_info. cbn. rewrite M. cbn. split; [|auto]. constructor; cbn; [discriminate|discriminate|]. intros _. rewrite M. split; [reflexivity|exact X].
  - specialize (A eq_refl). destruct G as [G1 G2 G3 G4]. assert (ST : v_stage d = None). { destruct (v_stage d) eqn:E; [|reflexivity]. exfalso. rewrite (proj1 G2 ltac:(discriminate)) in A. discriminate. } clear G1 G2 G3 G4.
    destruct T as [T1 T2 T3]. rewrite CL. unfold basestation_attach, attacher_restart, attacher_start, attacher_close, do_close. destruct (v_phase d) eqn:P.
    + destruct (T1 eq_refl) as (X1 & X2 & X3 & ->). cbn. split; [|auto]. constructor; cbn; rewrite ?P; intros; try discriminate; auto; destruct H; congruence.
    + destruct (T2 eq_refl ST) as [X Y]. destruct bb.
      * destruct (v_attach d) eqn:AT.
        -- destruct (a_module d) eqn:M; cbn; (split; [|auto]); constructor; cbn; rewrite ?P, ?M, ?AT; try (intros; discriminate); try (intros [?|?]; congruence); intuition congruence.
        -- cbn. destruct (a_module d) eqn:M; cbn; (split; [|auto]); constructor; cbn; rewrite ?P, ?M, ?AT; try (intros; discriminate); try (intros [?|?]; congruence); intuition congruence.
      * cbn. split; [|auto]. constructor; cbn; rewrite ?P; try (intros; discriminate); try (intros [?|?]; congruence). intros _ _. destruct (a_module d) eqn:M; intuition congruence.
    + cbn. rewrite orb_false_r. split; [|auto]. constructor; rewrite ?P; auto; discriminate.
  - rewrite CL. destruct (v_phase d) eqn:P; cbn; rewrite ?orb_false_r; (split; [|auto]); try exact T. destruct T as [T1 T2 T3]. destruct (T1 P) as (X1 & X2 & X3 & ->). constructor; cbn; rewrite ?P; intros; try discriminate; auto; destruct H; congruence.
  - rewrite CL. destruct (v_phase d) eqn:P; cbn; rewrite ?orb_false_r; (split; [|auto]); try exact T; eapply att_same; [exact T| | | |]; reflexivity.
  - rewrite CL. cbn. rewrite orb_false_r. auto.
  - rewrite CL. cbn. rewrite orb_false_r. split; [|auto]; eapply att_same; [exact T| | | |]; reflexivity.
  - rewrite CL. cbn. rewrite orb_false_r. split; [|auto]; eapply att_same; [exact T| | | |]; reflexivity.
  - destruct (set_str_ok fl v oom d CL) as (x & y & z & c & E). cbn [step] in E. rewrite E. cbn. rewrite orb_false_r. split; [|auto]; eapply att_same; [exact T| | | |]; reflexivity.
  - destruct T as [T1 T2 T3]. unfold bound. destruct (v_stage d) as [s|] eqn:ST; [|cbn; rewrite orb_false_r; split; [constructor; rewrite ?ST; auto|auto]].
    destruct T3 as (X1 & X2 & X3); [left; discriminate|]. cbn [v_phase set_stage]. assert (SC : v_start_cb d = true) by (apply (g_stage _ G); congruence). assert (SF := g_start _ G SC).
    destruct (v_phase d) eqn:P; [destruct (T1 eq_refl) as (_ & X & _); discriminate| |].
    + destruct c.
      1: destruct s; cbn.
      1,2: rewrite orb_false_r; split; [|auto]; constructor; cbn; rewrite ?P; try discriminate; auto.
      { unfold sockets_bound, resolve_both, attacher_start, started. cbn. rewrite X2. destruct b; cbn; rewrite ?X1; cbn; rewrite ?CC, ?SC; cbn; (destruct (v_start_fut d); [|congruence]); cbn; (split; [|auto]); constructor; cbn; rewrite ?P; intros; try discriminate; try (destruct H; congruence); rewrite ?X1, ?X2; intuition congruence. }
      all: unfold resolve_both, started; cbn; rewrite CC, SC; cbn; (destruct (v_start_fut d); [|congruence]); cbn; rewrite ?orb_false_r; (split; [|auto]); constructor; cbn; intros; try discriminate; auto.
    + unfold resolve_both, started; cbn; rewrite CC, SC; cbn; (destruct (v_start_fut d); [|congruence]); cbn; rewrite ?orb_false_r; (split; [|auto]); constructor; cbn; rewrite ?P; intros; try discriminate; auto.
  - rewrite CO. cbn. rewrite orb_false_r. auto.
  - unfold attach_closed, core_closed. destruct (a_closing d); [|cbn; rewrite orb_false_r; auto]. destruct (a_cb d) as [[|]|]; cbn; rewrite ?CC; cbn; rewrite orb_false_r; (split; [|auto]); eapply att_same; try exact T; reflexivity.
  - rewrite PL. cbn. rewrite orb_false_r. auto.
  - cbn [fst snd]. assert (X : existsb is_ok (attempt d) = false). { unfold attempt. cases; reflexivity. } rewrite X, orb_false_r. auto.
Qed.
Lemma unhurried_snoc : forall h o, unhurried (h ++ [o]) -> unhurried h.
Proof. intros h o H h1 b k h2 ->. apply (H h1 b k (h2 ++ [o])). rewrite <- app_assoc. reflexivity. Qed.
Lemma in_progress : forall h, lawful h -> orderly h -> v_start_cb (fst (run init h)) = true -> starting (snd (run init h)).
Proof.
  intros h L O S. destruct (reach_from h S) as (f & k & F & I). exists f, k. rewrite map_fst_run. split; [exact I|].
  pose proof (reach_count h L O f) as K. unfold inflight in K. rewrite S, F in K. cbn in K. rewrite Nat.eqb_refl in K. cbn in K. destruct (count_nodup f _ (proj1 L)) as [C _]. fold (calls f h) in C. lia.
Qed.
Lemma reach_att : forall h, lawful h -> orderly h -> unhurried h -> existsb is_close h = false -> existsb is_stop h = false ->
  let d := fst (run init h) in att (enabled (snd (run init h))) (existsb is_ok (outs (snd (run init h)))) d /\ v_close_cb d = false /\ v_plat d = false /\ v_conns d = false.
Proof.
  induction h as [|o h IH] using rev_ind; intros L O U C S.
  - cbn. split; [|auto]. constructor; cbn; try discriminate; auto.
  - pose proof (lawful_snoc _ _ L) as [L1 _]. pose proof (orderly_snoc _ _ O) as O1. pose proof (unhurried_snoc _ _ U) as U1. rewrite existsb_app in C, S. apply orb_false_elim in C as [C1 C2]. apply orb_false_elim in S as [S1 S2]. cbn in C2, S2. rewrite orb_false_r in C2, S2.
    destruct (IH L1 O1 U1 C1 S1) as (A & B1 & B2 & B3). rewrite run_snoc. cbv zeta. cbn [fst snd]. unfold enabled. rewrite fold_left_app. fold (enabled (snd (run init h))). cbn [fold_left]. rewrite outs_snoc, existsb_app.
    apply step_att; auto; [apply reach_good| |rewrite reach_closing; exact S1].
    intros SA. destruct o; try discriminate. destruct (v_start_cb (fst (run init h))) eqn:E; [|reflexivity]. exfalso. apply (U h b keep [] eq_refl). apply in_progress; auto.
Qed.
Lemma attaching : forall h, lawful h -> orderly h -> unhurried h -> existsb is_close h = false -> existsb is_stop h = false -> existsb is_ok (outs (snd (run init h))) = true -> ~ starting (snd (run init h)) ->
  a_module (fst (run init h)) = MRunning <-> enabled (snd (run init h)) = true.
Proof.
  intros h L O U C S K NS. destruct (reach_att h L O U C S) as ([T1 T2 T3] & _). rewrite K in *. destruct (v_phase (fst (run init h))) eqn:P.
  - destruct (T1 eq_refl) as (_ & _ & _ & X). discriminate.
  - apply T2; [reflexivity|]. destruct (v_stage (fst (run init h))) eqn:ST; [|reflexivity]. exfalso. apply NS. apply in_progress; auto. apply (g_stage _ (reach_good h)). congruence.
  - destruct T3 as (X1 & X2 & X3); [auto|]. rewrite (X3 eq_refl), X1. split; discriminate.
Qed.

(** A device which was stopped does not attach. *)
Lemma step_stopped : forall o d, v_closing d = true /\ v_phase d = Stopped /\ a_module d <> MRunning -> v_phase (fst (step o d)) = Stopped /\ a_module (fst (step o d)) <> MRunning.
Proof.
  intros o d (A & B & C). open_step o; try congruence; cbn [fst snd]; auto.
  - crush d; auto; congruence.
  - crush d; auto; congruence.
  - crush d; auto; congruence.
  - crush d; auto; congruence.
  - crush d; auto; congruence.
  - crush d; auto; congruence.
  - crush d; auto; congruence.
  - crush d; auto; congruence.
  - crush d; auto; congruence.
  - crush d; auto; congruence.
  - crush d; auto; congruence.
  - crush d; auto; congruence.
Qed.
Lemma reach_stopped : forall h, existsb is_stop h = true -> v_phase (fst (run init h)) = Stopped /\ a_module (fst (run init h)) <> MRunning.
Proof.
  induction h as [|o h IH] using rev_ind; [discriminate|]. rewrite existsb_app. cbn [existsb]. rewrite orb_false_r, run_snoc. cbn [fst]. intros S. destruct (existsb is_stop h) eqn:E.
  - apply step_stopped. rewrite reach_closing. auto.
  - pose proof (reach_closing h) as C. rewrite E in C. destruct o; try discriminate. cbn [step]. unfold stop. rewrite C. destruct active; cbn; (split; [reflexivity|]); destruct (a_module _); discriminate.
Qed.

(** A device which was closed does not attach. *)
Definition shut (d : dev) : Prop := v_phase d = Stopped /\ a_module d <> MRunning.
Record quiet (k : bool) (d : dev) : Prop := {
  q_cb : v_close_cb d = true -> v_phase d = Stopped;
  q_att : a_cb d = Some CbDevice -> shut d;
  q_plat : v_plat d = true -> shut d;
  q_done : k = true -> shut d }.
Definition closes_ok (o : op) (d : dev) : bool := match o with PlatClosed Ok => v_plat d | _ => false end.
Lemma step_quiet : forall o d q, (is_start o = true -> v_close_cb d = false /\ a_cb d <> Some CbDevice /\ v_plat d = false /\ q = false) -> (v_conns d = true -> v_phase d = Stopped) -> good d -> quiet q d -> quiet (q || closes_ok o d) (fst (step o d)).
Proof.
  intros o d q S V G [A B C D]. unfold shut in *. open_step o; cbn [is_start closes_ok] in *; rewrite ?orb_false_r; cbn [fst snd]; try (constructor; assumption).
  - destruct (S eq_refl) as (S1 & S2 & S3 & ->). unfold attacher_info. constructor; cbn; destruct (a_module d); cbn; rewrite ?S1, ?S3; intros; congruence.
  - clear S G. crush d; constructor; cbn; auto; try congruence; intros X; unfold shut; cbn; intuition congruence.
  - clear S G. crush d; constructor; cbn; auto; try congruence; intros X; unfold shut; cbn; intuition congruence.
  - clear S G. crush d; constructor; cbn; auto; try congruence; intros X; unfold shut; cbn; intuition congruence.
  - clear S G. crush d; constructor; cbn; auto; try congruence; intros X; unfold shut; cbn; intuition congruence.
  - clear S G. crush d; constructor; cbn; auto; try congruence; intros X; unfold shut; cbn; intuition congruence.
  - clear S G. crush d; constructor; cbn; auto.
  - clear S G. crush d; constructor; cbn; auto.
  - clear S G. crush d; constructor; cbn; auto.
  - clear S V. destruct G as [G1 G2 G3 G4]. crush d; constructor; cbn; auto; try congruence; intros X; unfold shut; cbn; try solve [intuition congruence].
  - clear S G. crush d; constructor; cbn; auto; try congruence; intros X; unfold shut; cbn; intuition congruence.
  - clear S V. destruct G as [G1 G2 G3 G4]. crush d; constructor; cbn; auto; try congruence; intros X; unfold shut; cbn; intuition congruence.
  - clear S V G. crush d; constructor; cbn; rewrite ?orb_false_r; auto; try congruence; intros X; unfold shut; cbn; intuition congruence.
Qed.
Lemma step_conns : forall o d, is_start o = false -> (v_conns d = true -> v_phase d = Stopped) -> v_conns (fst (step o d)) = true -> v_phase (fst (step o d)) = Stopped.
Proof.
  intros o d S V. open_step o; try discriminate; cbn [fst snd]; auto; clear S.
  - crush d; auto.
  - crush d; auto.
  - crush d; auto.
  - crush d; auto.
  - crush d; auto.
  - crush d; auto.
  - crush d; auto.
  - crush d; auto.
  - crush d; auto; intuition congruence.
  - crush d; auto.
  - crush d; auto.
  - crush d; auto.
Qed.
Definition some_close (h : list op) (d : dev) : Prop := v_close_cb d = true \/ v_close_fut d <> None \/ v_conns d = true \/ a_cb d = Some CbDevice \/ v_plat d = true -> existsb is_close h = true.
Lemma step_some : forall o d, is_close o = false -> good d -> v_close_cb d = false -> v_close_fut d = None -> v_conns d = false -> a_cb d <> Some CbDevice -> v_plat d = false -> let e := fst (step o d) in v_close_cb e = false /\ v_close_fut e = None /\ v_conns e = false /\ a_cb e <> Some CbDevice /\ v_plat e = false.
Proof.
  intros o d S G A B C D E. cbv zeta. open_step o; try discriminate; cbn [fst snd]; auto; clear S.
  - unfold attacher_info. cbn. destruct (a_module d); cbn; auto.
  - crush d; repeat split; auto; congruence.
  - crush d; repeat split; auto; congruence.
  - crush d; repeat split; auto; congruence.
  - crush d; repeat split; auto; congruence.
  - crush d; repeat split; auto; congruence.
  - crush d; repeat split; auto; congruence.
  - crush d; repeat split; auto; congruence.
  - crush d; repeat split; auto; congruence.
  - crush d; repeat split; auto; congruence.
  - crush d; repeat split; auto; congruence.
  - crush d; repeat split; auto; congruence.
Qed.
Lemma reach_none : forall h, existsb is_close h = false -> let e := fst (run init h) in v_close_cb e = false /\ v_close_fut e = None /\ v_conns e = false /\ a_cb e <> Some CbDevice /\ v_plat e = false.
Proof.
  induction h as [|o h IH] using rev_ind; intros N; [cbn; repeat split; auto; discriminate|]. rewrite existsb_app in N. apply orb_false_elim in N as [N1 N2]. cbn in N2. rewrite orb_false_r in N2. destruct (IH N1) as (A & B & C & D & E). rewrite run_snoc. cbn [fst]. apply step_some; auto. apply reach_good.
Qed.
Fixpoint done (d : dev) (h : list op) : bool := match h with [] => false | o :: h => closes_ok o d || done (fst (step o d)) h end.
Lemma done_snoc : forall h o d, done d (h ++ [o]) = done d h || closes_ok o (fst (run d h)).
Proof. induction h as [|x h IH]; intros o d; [cbn; apply orb_false_r|]. cbn [app done]. rewrite run_one, IH, orb_assoc. reflexivity. Qed.
Lemma done_none : forall h, existsb is_close h = false -> done init h = false.
Proof.
  induction h as [|o h IH] using rev_ind; intros N; [reflexivity|]. rewrite existsb_app in N. apply orb_false_elim in N as [N1 N2]. rewrite done_snoc, (IH N1). destruct (reach_none h N1) as (_ & _ & _ & _ & E). unfold closes_ok. destruct o as [| | | | | | | | | | | | |[]|]; auto.
Qed.
Lemma reach_quiet : forall h, one_life h -> quiet (done init h) (fst (run init h)) /\ (v_conns (fst (run init h)) = true -> v_phase (fst (run init h)) = Stopped).
Proof.
  induction h as [|o h IH] using rev_ind; intros O; [split; [constructor; cbn; discriminate|discriminate]|]. destruct (IH (one_life_snoc _ _ O)) as [Q V]. rewrite run_snoc, done_snoc. cbn [fst]. split.
  - apply step_quiet; auto; [|apply reach_good]. intros S. destruct o as [f k| | | | | | | | | | | | | |]; try discriminate. pose proof (O h f k [] eq_refl) as N. destruct (reach_none h N) as (A & B & C & D & E). rewrite (done_none h N). auto.
  - destruct (is_start o) eqn:S; [|apply step_conns; auto]. destruct o as [f k| | | | | | | | | | | | | |]; try discriminate. pose proof (O h f k [] eq_refl) as N. destruct (reach_none (h ++ [Start f k])) as (_ & _ & C & _); [rewrite existsb_app, N; reflexivity|]. rewrite run_snoc in C. cbn [fst] in C. congruence.
Qed.
(** What a resolve with OK is. *)
Lemma step_ok : forall g o d, good d -> In (Resolved g Ok) (snd (step o d)) -> (v_start_cb d = true /\ v_start_fut d = Some g) \/ closes_ok o d = true.
Proof.
  intros g o d G I. destruct o as [f k| | | | | | | | | | | | | |].
  1: { exfalso. cbn [step] in I. destruct (v_closing d); [destruct I|]. destruct (start_att f k d) as [N _]. assert (X : existsb is_ok (snd (start f k d)) = true) by (apply existsb_exists; exists (Resolved g Ok); auto). congruence. }
  all: revert I; unfold closes_ok; destruct G as [G1 G2 G3 G4].
  all: match goal with |- In _ (snd (step (SetStr ?f ?v ?oom) ?d)) -> _ => cbn [step]; destruct (v_closing d) eqn:CL; [intros []|]; destruct (set_str_ok f v oom d CL) as (? & ? & ? & ? & H); cbn [step] in H; rewrite CL in H; rewrite H; cbn; intuition discriminate | _ => cbn [step] end.
  - crush d; intuition congruence.
  - crush d; intuition congruence.
  - crush d; intuition congruence.
  - crush d; intuition congruence.
  - crush d; intuition congruence.
  - crush d; intuition congruence.
  - crush d; intuition congruence.
  - crush d; intuition congruence.
  - crush d; intros X; repeat (destruct X as [X|X]); try discriminate; try (match type of X with False => destruct X end); try congruence; left; split; congruence.
  - crush d; intuition congruence.
  - crush d; intuition congruence.
  - crush d; intuition congruence.
  - cbn. unfold attempt. destruct (a_module d); cbn; try tauto. cases; cbn; intuition discriminate.
Qed.
Lemma start_distinct : forall h f k a, NoDup (futures h) -> In (Start f k) h -> In (Close f a) h -> False.
Proof.
  induction h as [|o h IH]; intros f k a N I J; [destruct I|]. change (futures (o :: h)) with (future o ++ futures h) in N.
  assert (K : forall o, In o h -> In f (future o) -> In f (futures h)) by (intros x X Y; apply in_flat_map; eauto).
  destruct I as [->|I]; [destruct J as [J|J]; [discriminate|]; cbn in N; inversion N; subst; apply H1; eapply K; [exact J|left; reflexivity]|].
  destruct J as [->|J]; [cbn in N; inversion N; subst; apply H1; eapply K; [exact I|left; reflexivity]|]. apply (IH f k a); auto. destruct o; cbn in N; auto; inversion N; auto.
Qed.
Lemma closed_done : forall h g a, lawful h -> In (Close g a) h -> In (Resolved g Ok) (outs (snd (run init h))) -> done init h = true.
Proof.
  assert (X : forall h g, In (Resolved g Ok) (outs (snd (run init h))) -> (exists k, In (Start g k) h) \/ done init h = true).
  { induction h as [|o h IH] using rev_ind; intros g I; [destruct I|]. rewrite run_snoc in I. cbn [snd] in I. rewrite outs_snoc, in_app_iff in I. rewrite done_snoc. destruct I as [I|I].
    - destruct (IH g I) as [(k & K)|K]; [left; exists k; apply in_app_iff; auto|rewrite K; auto].
    - destruct (step_ok g o _ (reach_good h) I) as [[S F]|C]; [|rewrite C, orb_true_r; auto]. destruct (reach_from h S) as (f & k & F1 & J). left. exists k. apply in_app_iff. left. congruence. }
  intros h g a [N _] I J. destruct (X h g J) as [(k & K)|K]; [|exact K]. destruct (start_distinct h g k a N K I).
Qed.
