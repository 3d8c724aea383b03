(** Proofs for the properties C39 to C41: from steps to histories. *)
From Coq Require Import List Arith Lia Bool.
From Verif Require Import AttachModel AttachSpec AttachProofs AttachMore AttachTurns AttachClose AttachLive AttachRank AttachTokens AttachFinal AttachEnd.
Import ListNotations.

(** ** The closed callback comes when everything is closed *)
Lemma before_close : forall h, reached h -> forallb (fun m => negb (closes m)) h = true ->
  p_mod (fst (run init h)) <> Stopped /\ p_state (fst (run init h)) <> Closed /\ ~ In QClose (p_queue (fst (run init h))).
Proof.
  intros h. induction h as [|[o e] h IH] using rev_ind; intros H C; [cbn; intuition discriminate|].
  destruct (reached_step h o e [] H) as (H1 & I & A & K). rewrite forallb_app in C. apply andb_prop in C. destruct C as [C1 C2].
  destruct (IH H1 C1) as (M & S & Q). rewrite run_app. destruct (run init h) as [s t]. cbn [fst snd run] in *.
  cbn in C2. destruct (closes (o, e)) eqn:C; [discriminate|].
  pose proof (step_queue_close e o s C M S Q) as X. destruct (step e o s). exact X.
Qed.
Lemma keep_close_ok : forall h s w, inv s w -> obeys s w h -> forallb (fun m => negb (begins m)) h = true -> close_ok s -> close_ok (fst (run s h)).
Proof.
  induction h as [|[o e] h IH]; intros s w I O B Q; [exact Q|]. cbn in B. apply andb_prop in B. destruct B as [B1 B2]. destruct O as [O1 O2].
  pose proof (what_is_known _ _ _ I O1) as K.
  assert (Q1 : close_ok (fst (step e o s))) by (eapply step_close_ok; eauto; destruct (begins (o, e)); [discriminate|auto]).
  pose proof (step_inv e o s w I O1) as I1. cbn [run]. destruct (step e o s) as [s1 l]. cbn [fst snd] in *.
  specialize (IH s1 _ I1 O2 B2 Q1). destruct (run s1 h). exact IH.
Qed.
Lemma reached_close_ok : forall h1 h2, reached (h1 ++ h2) -> forallb (fun m => negb (closes m)) h1 = true ->
  forallb (fun m => negb (begins m)) h2 = true -> close_ok (fst (run init (h1 ++ h2))).
Proof.
  intros h1 h2 H C B. unfold reached in H. rewrite obeys_app in H. destruct H as [H1 H2].
  destruct (before_close h1 H1 C) as (M & S & Q). pose proof (reached_inv h1 H1) as I. unfold world_of in I.
  rewrite run_app. destruct (run init h1) as [s t]. cbn [fst snd] in *.
  assert (X : close_ok s) by (intros Y; contradiction).
  pose proof (keep_close_ok h2 s _ I H2 B X) as Z. destruct (run s h2). exact Z.
Qed.
Lemma last_move : forall (h : list move) o e s, snd (run s (h ++ [(o, e)])) = snd (run s h) ++ [((o, e), snd (step e o (fst (run s h))))] /\
  fst (run s (h ++ [(o, e)])) = fst (step e o (fst (run s h))).
Proof.
  intros h o e s. rewrite run_app. destruct (run s h) as [s1 t]. cbn [run fst snd]. destruct (step e o s1) as [s2 l]. auto.
Qed.
Lemma last_run : forall (h : list move) o e s, run s (h ++ [(o, e)]) = (fst (step e o (fst (run s h))), snd (run s h) ++ [((o, e), snd (step e o (fst (run s h))))]).
Proof. intros h o e s. destruct (last_move h o e s) as [L1 L2]. destruct (run s (h ++ [(o, e)])). cbn [fst snd] in *. congruence. Qed.
Lemma forallb_front : forall (f : move -> bool) h m, forallb f (h ++ [m]) = true -> forallb f h = true.
Proof. intros f h m H. rewrite forallb_app in H. apply andb_prop in H. tauto. Qed.
Lemma cb_clean : forall h1 h2 t x k, reached (h1 ++ h2) -> forallb (fun m => negb (closes m)) h1 = true ->
  forallb (fun m => negb (begins m)) h2 = true -> snd (run init (h1 ++ h2)) = t ++ [x] -> In (ClosedCb k) (snd x) ->
  w_live (world_of (t ++ [x])) = None /\ busy (t ++ [x]) = 0.
Proof.
  intros h1 h2 t x k H C B E X.
  assert (N : exists (h : list move) o e, h1 ++ h2 = h ++ [(o, e)] /\ close_ok (fst (run init h))).
  { destruct h2 as [|m h2 _] using rev_ind.
    - destruct h1 as [|m h1 _] using rev_ind; [destruct t; discriminate|]. destruct m as [o e]. exists h1, o, e. split; [apply app_nil_r|].
      rewrite app_nil_r in H. destruct (reached_step h1 o e [] H) as (H1 & _).
      pose proof (reached_close_ok h1 [] ltac:(rewrite app_nil_r; exact H1) (forallb_front _ _ _ C) eq_refl) as Z. rewrite app_nil_r in Z. exact Z.
    - destruct m as [o e]. exists (h1 ++ h2), o, e. rewrite app_assoc in *. split; auto.
      destruct (reached_step (h1 ++ h2) o e [] H) as (H1 & _). apply reached_close_ok; auto. eapply forallb_front; eauto. }
  destruct N as (h & o & e & N & Q). rewrite <- E. pose proof (reached_inv _ H) as I. rewrite <- is_busy. rewrite N in *.
  destruct (last_move h o e init) as [L1 L2]. rewrite L1 in E. apply app_inj_tail in E. destruct E as [_ <-]. cbn [snd] in X.
  destruct (cb_step e o _ k X) as (-> & (q & Y) & S1 & S2).
  assert (Z : p_mod (fst (run init h)) = Setup \/ p_state (fst (run init h)) = Closed) by (apply Q; rewrite Y; left; auto).
  rewrite <- S1, <- S2, <- L2 in Z. destruct I as (B1 & P & _). rewrite (v_live _ _ _ _ _ _ B1). unfold phase_ok in P.
  destruct (p_mod (fst (run init (h ++ [(Run, e)])))), (p_state (fst (run init (h ++ [(Run, e)])))); destruct Z; try discriminate; intuition lia.
Qed.

(** ** The closed callback comes *)
Lemma keep_has_close : forall h s w, inv s w -> obeys s w h -> has_close s -> has_close (fst (run s h)).
Proof.
  induction h as [|[o e] h IH]; intros s w I O Q; [exact Q|]. destruct O as [O1 O2]. pose proof (what_is_known _ _ _ I O1) as K.
  pose proof (step_has_close e o s w I K Q) as Q1. pose proof (step_inv e o s w I O1) as I1. cbn [run]. destruct (step e o s) as [s1 l]. cbn [fst snd] in *.
  specialize (IH s1 _ I1 O2 Q1). destruct (run s1 h). exact IH.
Qed.
Lemma keep_cb : forall h s k, p_cb s = Some k -> forallb (fun m => negb (asks m)) h = true ->
  In (ClosedCb k) (outs (snd (run s h))) \/ p_cb (fst (run s h)) = Some k.
Proof.
  induction h as [|[o e] h IH]; intros s k C B; [right; exact C|]. cbn in B. apply andb_prop in B. destruct B as [B1 B2].
  cbn [run]. assert (X : In (ClosedCb k) (snd (step e o s)) \/ p_cb (fst (step e o s)) = Some k).
  { destruct o; try discriminate; try (right; match goal with |- p_cb (fst (step e ?o s)) = _ => destruct (step_other e o s I) as [E _]; congruence end).
    pose proof (run_cb e s) as R. destruct (p_queue s) as [|[| |] q]; try (right; destruct R; congruence).
    left. destruct R as [_ ->]. rewrite C. destruct k; cbn; auto. }
  destruct (step e o s) as [s1 l]. cbn [fst snd] in *. destruct X as [X|X].
  - left. destruct (run s1 h). unfold outs. cbn. apply in_or_app. auto.
  - destruct (IH s1 k X B2) as [Y|Y]; destruct (run s1 h); [left|right; exact Y]. unfold outs in *. cbn in *. apply in_or_app. auto.
Qed.
Lemma reached_has_close : forall h, reached h -> has_close (fst (run init h)).
Proof. intros h H. eapply keep_has_close; [apply inv_init|exact H|]. intros X. contradiction X; reflexivity. Qed.
Lemma reached_app : forall h1 h2, reached (h1 ++ h2) <-> reached h1 /\ obeys (fst (run init h1)) (world_of (snd (run init h1))) h2.
Proof. intros. apply obeys_app. Qed.
Lemma leads_reached : forall k h, reached h -> leads k (fst (run init h)) (world_of (snd (run init h))) ->
  exists h2, forallb environment h2 = true /\ reached (h ++ h2) /\ In (ClosedCb k) (outs (snd (run (fst (run init h)) h2))).
Proof. intros k h H (h2 & E & O & C). exists h2. repeat split; auto. apply reached_app. auto. Qed.
Lemma close_answered : forall (h1 : list move) k e (h2 : list move), reached (h1 ++ (Close k, e) :: h2) ->
  forallb (fun m => negb (begins m) && negb (asks m)) h2 = true ->
  exists h3, forallb environment h3 = true /\ reached (h1 ++ (Close k, e) :: h2 ++ h3) /\
    In (ClosedCb k) (outs (snd (run (fst (run init (h1 ++ [(Close k, e)]))) (h2 ++ h3)))).
Proof.
  intros h1 k e h2 H B. assert (B1 : forallb (fun m => negb (begins m)) h2 = true /\ forallb (fun m => negb (asks m)) h2 = true).
  { rewrite !forallb_forall in *. split; intros m M; specialize (B m M); apply andb_prop in B; tauto. } destruct B1 as [B1 B2].
  change ((Close k, e) :: h2) with ([(Close k, e) : move] ++ h2) in *. rewrite app_assoc in H. pose proof H as H0. apply reached_app in H. destruct H as [H1 H2].
  set (h := h1 ++ [(Close k, e) : move]) in *. pose proof (reached_inv h H1) as I.
  assert (C : p_cb (fst (run init h)) = Some k).
  { unfold h. destruct (last_move h1 (Close k) e init) as [_ L]. refine (eq_trans (f_equal p_cb L) _). cbn [step]. unfold andthen. cbn [set_cb fst snd].
    match goal with |- context [do_close e ?s0] => destruct (close_cb e s0) as [X _]; destruct (do_close e s0) as [s1 l] end. exact X. }
  assert (M : p_mod (fst (run init h)) <> Running).
  { unfold h. destruct (last_move h1 (Close k) e init) as [_ L]. intros Y. apply (closes_stop e (Close k) (fst (run init h1)) eq_refl). exact (eq_trans (eq_sym (f_equal p_mod L)) Y). }
  destruct (quiet h2 _ _ I H2 M B1) as [_ M2]. destruct (keep_cb h2 _ k C B2) as [D|D].
  - exists []. rewrite app_nil_r. split; [reflexivity|]. split; [|exact D].
    unfold h in H0. rewrite <- app_assoc in H0. exact H0.
  - pose proof (reached_has_close _ H0) as HC. pose proof (reached_inv _ H0) as I2.
    assert (X : fst (run init (h ++ h2)) = fst (run (fst (run init h)) h2)).
    { rewrite run_app. destruct (run init h) as [s t]. cbn [fst]. destruct (run s h2). reflexivity. }
    rewrite X in HC, I2. pose proof (close_ends k _ _ I2 HC M2 D) as L. rewrite <- X in L.
    destruct (leads_reached k _ H0 L) as (h3 & E & R & C3). exists h3. split; auto. split.
    + rewrite <- app_assoc in R. unfold h in R. rewrite <- app_assoc in R. exact R.
    + rewrite X in C3. change (In (ClosedCb k) (outs (snd (run (fst (run init h)) (h2 ++ h3))))). rewrite run_app. destruct (run (fst (run init h)) h2) as [s2 t2]. cbn [fst] in C3. destruct (run s2 h3) as [s3 t3]. cbn [snd] in *.
      rewrite outs_app. apply in_or_app. auto.
Qed.

(** ** Retries *)
Definition running (s : st) : bool := match p_mod s with Running => true | _ => false end.
Definition says_ok (l : list out) : bool := existsb (fun y => match y with Return Ok => true | _ => false end) l.
Lemma step_started : forall e o s, running (fst (step e o s)) =
  match o with Start | Restart => running s || says_ok (snd (step e o s)) | Close _ | Stop => false | _ => running s end.
Proof. intros e o s. unfold running, says_ok. destruct o; open_step; split_step; cbn; congruence. Qed.

Lemma is_started : forall h, running (fst (run init h)) = started (snd (run init h)).
Proof.
  intros h. induction h as [|[o e] h IH] using rev_ind; [reflexivity|]. rewrite last_run. cbn [fst snd].
  rewrite step_started, IH. unfold started. rewrite fold_left_app. reflexivity.
Qed.
Lemma reached_queue : forall h, reached h -> forallb memory h = true -> queue_ok (fst (run init h)).
Proof.
  intros h. induction h as [|[o e] h IH] using rev_ind; intros H M; [reflexivity|].
  destruct (reached_step h o e [] H) as (H1 & I & A & K). pose proof (forallb_front _ _ _ M) as M1.
  rewrite forallb_app in M. cbn in M. rewrite M1, andb_true_r in M. cbn in M. unfold memory in M. apply andb_prop in M. destruct M as [E1 E2]. cbn in E1, E2.
  rewrite last_run. cbn [fst snd]. eapply step_queue; eauto.
Qed.
Lemma is_trying : forall h, reached h -> started (snd (run init h)) = true -> p_state (fst (run init h)) <> Attached -> trying (fst (run init h)).
Proof.
  intros h H S A. rewrite <- is_started in S. split; auto. unfold running in S. destruct (p_mod (fst (run init h))); congruence.
Qed.

(** ** Tokens *)
Lemma added_fold : forall t a, fold_left more t a = a ++ added t.
Proof.
  induction t as [|x t IH]; intros a; [symmetry; apply app_nil_r|]. cbn [fold_left]. rewrite IH. unfold more. rewrite <- app_assoc. unfold added. cbn [flat_map].
  rewrite app_nil_r. reflexivity.
Qed.
Lemma reached_tokens : forall h, reached h -> tokens_ok (fst (run init h)) (world_of (snd (run init h))) (added (snd (run init h))).
Proof.
  intros h H.
  destruct (run_keeps (list nat) more tokens_ok (fun _ => true) (fun e o s w g _ I A K T => step_tokens e o s w g I K T) h init outside [] (all_true h) inv_init H) as [_ X].
  - unfold tokens_ok, past. cbn. repeat split; auto; try lia; try congruence; try (intros [X|(c & X & _)]; discriminate).
  - rewrite added_fold in X. exact X.
Qed.
Lemma step_sync : forall e s, In (Return Ok) (snd (step e Synchronized s)) -> p_state s <> Attached \/ p_synced s = p_version s.
Proof. intros e s. open_step. split_step; cbn; intros H; try (left; congruence); try (right; apply Nat.eqb_eq; assumption); intuition discriminate. Qed.
Lemma synchronized : forall (h : list move) e t x, reached (h ++ [(Synchronized, e)]) -> snd (run init (h ++ [(Synchronized, e)])) = t ++ [x] -> In (Return Ok) (snd x) ->
  is_attached false (outs t) = true -> incl (added t) (w_acked (world_of t)).
Proof.
  intros h e t x H E X A. destruct (reached_step h Synchronized e [] H) as (H1 & I & _ & K). rewrite last_run in E. cbn [fst snd] in E. apply app_inj_tail in E. destruct E as [<- <-]. cbn [snd] in X. pose proof (believes h H1 A) as P.
  destruct (reached_tokens h H1) as (-> & _ & _ & _ & _ & T). destruct (step_sync _ _ X) as [Y|Y]; [congruence|]. apply T; auto. left. exact P.
Qed.

(** ** Nothing crashes *)
Lemma no_crash : forall h, reached h -> ~ In Crash (outs (snd (run init h))).
Proof.
  intros h. induction h as [|[o e] h IH] using rev_ind; intros H; [cbn; auto|].
  destruct (reached_step h o e [] H) as (H1 & I & A & K). rewrite last_run. cbn [fst snd]. rewrite outs_app, in_app_iff.
  intros [X|X]; [exact (IH H1 X)|]. unfold outs in X. cbn in X. rewrite app_nil_r in X. exact (step_crash e o _ _ K X).
Qed.
