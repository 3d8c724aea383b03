(** Threads which take locks in order do not block each other for ever. *)
From Coq Require Import List Bool Arith Lia.
From Verif Require Import LockModel LockSpec LockCheck.
Import ListNotations.

(** The invariant of a thread. *)
Definition fine (th : thread) : Prop := orderly (map fst (has th)) (map fst (todo th)) /\ held (map fst (has th)) (map fst (todo th)) = [].
Lemma orderly_tail : forall h a t, orderly h (a :: t) -> orderly (held1 h a) t.
Proof. intros h a t O t1 b t2 E N. apply (O (a :: t1) b t2); [rewrite E; reflexivity|exact N]. Qed.
Lemma orderly_head : forall h a t, orderly h (a :: t) -> a <> ATouch -> proper h a.
Proof. intros h a t O N. apply (O [] a t eq_refl N). Qed.
Lemma orderly_cons : forall h a t, proper h a -> orderly (held1 h a) t -> orderly h (a :: t).
Proof. intros h a t P O t1 b t2 E N. destruct t1 as [|x t1]; inversion E; subst; [exact P|]. apply (O t1 b t2 eq_refl N). Qed.
Lemma release_drop : forall l h, map fst (release l h) = drop l (map fst h).
Proof. induction h as [|[x i] h IH]; [reflexivity|]. cbn [release map fst drop]. destruct (lock_eqb x l); [reflexivity|]. cbn [map fst]. rewrite IH. reflexivity. Qed.
Lemma move_fine : forall s th th', move s th th' -> fine th -> fine th'.
Proof.
  intros s th th' M [O H]. destruct M; cbn [todo has map fst] in *; unfold fine; cbn [todo has map fst].
  - split; [apply (orderly_tail _ _ _ O)|exact H].
  - rewrite release_drop. split; [apply (orderly_tail _ _ _ O)|exact H].
  - pose proof (orderly_head _ _ _ O ltac:(discriminate)) as P. cbn [proper] in P. rewrite release_drop. rewrite P in *. cbn [drop]. assert (E : lock_eqb l l = true) by (destruct l; reflexivity). rewrite E. split.
    + apply orderly_cons; [intros l' []|]. apply (orderly_tail _ _ _ O).
    + exact H.
  - split; [destruct H0; subst; apply (orderly_tail _ _ _ O)|]. destruct H0; subst; exact H.
  - split; [apply (orderly_tail _ _ _ O)|exact H].
Qed.
(** No mutex is held twice. *)
Definition apart (s : list thread) : Prop := NoDup (flat_map has s).
Lemma release_in : forall l h x, In x (release l h) -> In x h.
Proof. induction h as [|[y i] h IH]; intros x H; [exact H|]. cbn [release fst] in H. destruct (lock_eqb y l); [right; exact H|]. destruct H as [H|H]; [left; exact H|right; auto]. Qed.
Lemma nodup_perm : forall (A : Type) (a b c : list A) x, NoDup (a ++ b ++ c) -> ~ In x (a ++ b ++ c) -> NoDup (a ++ (x :: b) ++ c).
Proof. intros A a b c x N X. cbn [app]. apply NoDup_Add with (a := x) (l := a ++ b ++ c); [apply Add_app|]. auto. Qed.
Lemma nodup_release : forall l h a c, NoDup (a ++ h ++ c) -> NoDup (a ++ release l h ++ c).
Proof.
  induction h as [|[y i] h IH]; intros a c N; [exact N|]. cbn [release fst]. destruct (lock_eqb y l); [cbn [app] in N; apply NoDup_remove_1 in N; exact N|].
  cbn [app] in *. replace (a ++ (y, i) :: h ++ c) with ((a ++ [(y, i)]) ++ h ++ c) in N by (rewrite <- app_assoc; reflexivity). apply IH in N. rewrite <- app_assoc in N. exact N.
Qed.
Lemma move_apart : forall s1 s2 th th', move (s1 ++ s2) th th' -> apart (s1 ++ th :: s2) -> apart (s1 ++ th' :: s2).
Proof.
  intros s1 s2 th th' M A. unfold apart in *. rewrite flat_map_app in *. cbn [flat_map] in *. destruct M; cbn [has] in *.
  - apply nodup_perm; [exact A|]. intros X. apply in_app_or in X. destruct X as [X|X]; [|apply in_app_or in X; destruct X as [X|X]; [contradiction|]]; apply in_flat_map in X; destruct X as (th & X1 & X2); apply (H th); auto; apply in_or_app; auto.
  - apply nodup_release. exact A.
  - apply nodup_release. exact A.
  - exact A.
  - exact A.
Qed.
Lemma steps_inv : forall s s', steps s s' -> Forall fine s -> apart s -> Forall fine s' /\ apart s'.
Proof.
  intros s s' S F A. induction S as [|s s1 s2 th th' S IH M]; [auto|]. destruct (IH F A) as [F1 A1]. split; [|apply (move_apart _ _ _ _ M A1)].
  apply Forall_app in F1. destruct F1 as [F1 F2]. inversion F2; subst. apply Forall_app. split; [exact F1|]. constructor; [|assumption]. apply (move_fine _ _ _ M). assumption.
Qed.
Lemma in_dec_mutex : forall (m : lock * nat) h, {In m h} + {~ In m h}.
Proof. intros m h. apply in_dec. intros [a i] [b j]. destruct a, b; try (right; congruence); destruct (Nat.eq_dec i j); [left|right| left|right| left|right| left|right]; congruence. Qed.
Lemma holder_dec : forall m s, (exists s1 th s2, s = s1 ++ th :: s2 /\ In m (has th)) \/ free m s.
Proof.
  intros m s. induction s as [|th s IH]; [right; intros th []|]. destruct (in_dec_mutex m (has th)) as [I|N]; [left; exists [], th, s; auto|].
  destruct IH as [(s1 & th' & s2 & -> & I)|F]; [left; exists (th :: s1), th', s2; auto|]. right. intros th' [<-|X]; auto.
Qed.
Lemma in_has_class : forall (m : lock * nat) (h : list (lock * nat)), In m h -> In (fst m) (map fst h). Proof. intros. apply in_map. assumption. Qed.
(** A thread which is not at rest goes on, or waits for a mutex which comes after all it has and which somebody has. *)
Lemma go_or_wait : forall s1 th s2, Forall fine (s1 ++ th :: s2) -> ~ at_rest th ->
  can_go (s1 ++ th :: s2) \/ exists l i t s3 th' s4, todo th = (ALock l, i) :: t /\ s1 ++ th :: s2 = s3 ++ th' :: s4 /\ In (l, i) (has th').
Proof.
  intros s1 th s2 F R. assert (Ft : fine th) by (rewrite Forall_forall in F; apply F; apply in_or_app; right; left; reflexivity).
  destruct th as [t h]. destruct t as [|[a i] t]; [destruct R; left; reflexivity|].
  assert (G : forall th', move (s1 ++ s2) {| todo := (a, i) :: t; has := h |} th' -> a <> AJoin -> can_go (s1 ++ {| todo := (a, i) :: t; has := h |} :: s2)).
  { intros th' M N. exists s1, {| todo := (a, i) :: t; has := h |}, s2, th'. split; [reflexivity|]. split; [exact M|]. cbn [todo]. intros i0 t0 E. congruence. }
  destruct a.
  - destruct (holder_dec (l, i) (s1 ++ {| todo := (ALock l, i) :: t; has := h |} :: s2)) as [(s3 & th' & s4 & E & I)|Fr].
    + right. exists l, i, t, s3, th', s4. auto.
    + left. eapply G; [|discriminate]. constructor; [|apply (Fr {| todo := (ALock l, i) :: t; has := h |}); apply in_or_app; right; left; reflexivity].
      intros x X. apply Fr. apply in_app_or in X. apply in_or_app. destruct X; [left|right; right]; assumption.
  - left. eapply G; [constructor|discriminate].
  - left. eapply G; [constructor|discriminate].
  - destruct R. right. exists i, t. reflexivity.
  - left. eapply G; [constructor; auto|discriminate].
  - left. eapply G; [constructor; auto|discriminate].
Qed.
(** Who has a mutex is not at rest. *)
Lemma holder_busy : forall th m, fine th -> In m (has th) -> ~ at_rest th.
Proof.
  intros [t h] m [O H] I [R|(i & t' & R)]; cbn [todo has] in *; subst t.
  - cbn in H. apply in_has_class in I. rewrite H in I. exact I.
  - cbn [map fst] in O. pose proof (orderly_head _ _ _ O ltac:(discriminate)) as P. cbn [proper] in P. apply in_has_class in I. rewrite P in I. exact I.
Qed.
Lemma rank_lt4 : forall l, rank l < 4. Proof. destruct l; cbn; lia. Qed.
Lemma progress : forall n s s1 th s2 l i t, Forall fine s -> s = s1 ++ th :: s2 -> todo th = (ALock l, i) :: t -> 4 - rank l <= n -> can_go s.
Proof.
  induction n as [|n IH]; intros s s1 th s2 l i t F E T L; [pose proof (rank_lt4 l); lia|]. subst s.
  assert (R : ~ at_rest th) by (intros [R|(i' & t' & R)]; congruence).
  destruct (go_or_wait s1 th s2 F R) as [G|(l0 & i0 & t0 & s3 & th' & s4 & T' & E & I)]; [exact G|]. rewrite T in T'. inversion T'; subst l0 i0 t0.
  assert (Ft : fine th') by (rewrite Forall_forall in F; apply F; rewrite E; apply in_or_app; right; left; reflexivity).
  rewrite E in F |- *. destruct (go_or_wait s3 th' s4 F (holder_busy _ _ Ft I)) as [G|(l1 & i1 & t1 & _ & _ & _ & T1 & _)]; [exact G|].
  apply (IH (s3 ++ th' :: s4) s3 th' s4 l1 i1 t1 F eq_refl T1). destruct Ft as [O _]. rewrite T1 in O. cbn [map fst] in O. pose proof (orderly_head _ _ _ O ltac:(discriminate)) as P. cbn [proper] in P. specialize (P l (in_has_class _ _ I)). pose proof (rank_lt4 l1). lia.
Qed.
Theorem no_deadlock : forall s s', Forall (fun th => has th = [] /\ orderly [] (map fst (todo th)) /\ held [] (map fst (todo th)) = []) s -> steps s s' -> NoDup (flat_map has s') /\ (can_go s' \/ Forall at_rest s').
Proof.
  intros s s' H S. assert (F : Forall fine s) by (eapply Forall_impl; [|exact H]; intros th (E & O & D); unfold fine; rewrite E; auto).
  assert (A : apart s). { unfold apart. clear -H. induction H as [|th s (E & _) H IH]; [constructor|]. cbn [flat_map]. rewrite E. exact IH. }
  destruct (steps_inv _ _ S F A) as [F' A']. split; [exact A'|]. clear -F'.
  assert (X : forall s2 s1, Forall fine (s1 ++ s2) -> can_go (s1 ++ s2) \/ Forall at_rest s2).
  { induction s2 as [|th s2 IH]; intros s1 F; [right; constructor|]. destruct (IH (s1 ++ [th])) as [G|R]; [rewrite <- app_assoc; exact F|rewrite <- app_assoc in G; left; exact G|].
    assert (D : at_rest th \/ ~ at_rest th).
    { destruct (todo th) as [|[a i] t] eqn:T; [left; left; exact T|]. destruct a; try (right; intros [Z|(i' & t' & Z)]; congruence). left. right. eauto. }
    destruct D as [D|D]; [right; constructor; assumption|]. left. destruct (go_or_wait s1 th s2 F D) as [G|(l & i & t & _ & _ & _ & T & _)]; [exact G|]. eapply progress; [exact F|reflexivity|exact T|apply le_n]. }
  exact (X s' [] F').
Qed.
