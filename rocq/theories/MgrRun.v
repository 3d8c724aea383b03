(** Runs of the stream manager. *)
From Coq Require Import List Bool Arith NArith Lia.
From Verif Require Import MgrModel MgrSpec MgrProofs MgrMore.
Import ListNotations.

Lemma run_none : forall h, run None h = (None, map (fun o => (o, [])) h).
Proof. induction h as [|o h IH]; [reflexivity|]. cbn [run]. rewrite IH. reflexivity. Qed.
Lemma run_app : forall h1 h2 x, run x (h1 ++ h2) = (fst (run (fst (run x h1)) h2), snd (run x h1) ++ snd (run (fst (run x h1)) h2)).
Proof.
  induction h1 as [|o h1 IH]; intros h2 x; cbn [app run]; [cbn [fst snd app]; destruct (run x h2); reflexivity|].
  destruct x as [m|]; [destruct (step o m) as [[m1 l1]|]|]; rewrite IH; destruct (run _ h1) as [x1 t1]; reflexivity.
Qed.
Definition after (n : nat) (h : list op) : option mgr := fst (run (Some (init n)) h).
Lemma trace_snoc : forall n h o, trace n (h ++ [o]) = trace n h ++ [(o, match after n h with Some m => match step o m with Some (_, l) => l | None => [] end | None => [] end)].
Proof. intros. unfold trace, after. rewrite run_app. cbn [snd]. f_equal. cbn [run]. destruct (fst (run (Some (init n)) h)) as [m|]; [destruct (step o m) as [[m1 l1]|]|]; reflexivity. Qed.
Lemma after_snoc : forall n h o, after n (h ++ [o]) = match after n h with Some m => match step o m with Some (m', _) => Some m' | None => None end | None => None end.
Proof. intros. unfold after. rewrite run_app. cbn [fst]. cbn [run]. destruct (fst (run (Some (init n)) h)) as [m|]; [destruct (step o m) as [[m1 l1]|]|]; reflexivity. Qed.
Lemma trace_app : forall n h h', exists t, trace n (h ++ h') = trace n h ++ t.
Proof. intros. unfold trace. rewrite run_app. cbn [snd]. eauto. Qed.
Lemma ops_trace : forall n h, ops (trace n h) = h.
Proof.
  intros n h. unfold ops. induction h as [|o h IH] using rev_ind; [reflexivity|]. rewrite trace_snoc, map_app, IH. reflexivity.
Qed.
Lemma outs_app : forall t t', outs (t ++ t') = outs t ++ outs t'.
Proof. intros. unfold outs. apply flat_map_app. Qed.
Lemma lawful_snoc : forall n h o, lawful n (h ++ [o]) -> lawful n h /\ fair o (trace n h).
Proof.
  intros n h o L. split; [|apply (L h o []); reflexivity]. intros h1 o1 h2 E. apply (L h1 o1 (h2 ++ [o])). rewrite E, <- app_assoc. reflexivity.
Qed.
Lemma lawful_prefix : forall n h h', lawful n (h ++ h') -> lawful n h.
Proof. intros n h h' L h1 o h2 E. apply (L h1 o (h2 ++ h')). rewrite E, <- app_assoc. reflexivity. Qed.
Lemma lawful_add : forall n h o, lawful n h -> fair o (trace n h) -> lawful n (h ++ [o]).
Proof.
  intros n h o L F h1 o1 h2 E. destruct h2 as [|o2 h2] using rev_ind.
  - apply app_inj_tail in E. destruct E as [-> ->]. exact F.
  - clear IHh2. rewrite app_comm_cons, app_assoc in E. apply app_inj_tail in E. destruct E as [E _]. apply (L h1 o1 h2 E).
Qed.
Definition Ds (h : list op) : nat -> bool := fun k => existsb (is_destroy k) h.
Definition Vs (h : list op) : nat -> bool := fun k => existsb (is_vfree k) h.

Section Run.
Variable B : Prop.
Lemma inv_ext : forall k d w g D V D' V' m, (forall j, D' j = D j) -> (forall j, V' j = V j) -> Inv B k d w g D V m -> Inv B k d w g D' V' m.
Proof.
  intros k d w g D V D' V' m HD HV []. constructor; auto. intros j. specialize (i_all j). unfold at_ in *. rewrite HD, HV. exact i_all.
Qed.
Lemma init_inv : forall n, Inv B 0 0 false [] (Ds []) (Vs []) (init n).
Proof.
  intros n. constructor; [constructor|reflexivity|reflexivity| |intros j s j' s' c H; discriminate|constructor|intros j c id []|intros j c id s []|intros j s c H; discriminate|intros j s H; discriminate|intros j c id []|reflexivity].
  intros j. unfold at_. cbn. split; [destruct (j =? 0); reflexivity|]. repeat split; auto; intros; lia.
Qed.
Lemma tk_in : forall k g, tk k g = true <-> In (Taken k) g.
Proof.
  intros k g. unfold tk. rewrite existsb_exists. split.
  - intros (x & I & H). destruct x; try discriminate. apply Nat.eqb_eq in H. subst. exact I.
  - intros I. exists (Taken k). split; [exact I|apply Nat.eqb_refl].
Qed.
Lemma vo_in : forall k g, vo k g = true <-> In (VOpened k) g.
Proof.
  intros k g. unfold vo. rewrite existsb_exists. split.
  - intros (x & I & H). destruct x; try discriminate. apply Nat.eqb_eq in H. subst. exact I.
  - intros I. exists (VOpened k). split; [exact I|apply Nat.eqb_refl].
Qed.
Lemma fr_in : forall k g, fr k g = true <-> In (Freed k) g.
Proof.
  intros k g. unfold fr. rewrite existsb_exists. split.
  - intros (x & I & H). destruct x; try discriminate. apply Nat.eqb_eq in H. subst. exact I.
  - intros I. exists (Freed k). split; [exact I|apply Nat.eqb_refl].
Qed.
Lemma ended_in : forall k g, ended k g = true <-> In (Ended k) g.
Proof.
  intros k g. unfold ended. rewrite existsb_exists. split.
  - intros (x & I & H). destruct x; try discriminate. apply Nat.eqb_eq in H. subst. exact I.
  - intros I. exists (Ended k). split; [exact I|apply Nat.eqb_refl].
Qed.
Lemma fair_fair : forall n h o, fair o (trace n h) -> fair_b o (outs (trace n h)) (Ds h) (Vs h) = true.
Proof.
  intros n h o F. destruct o; cbn [fair_b]; try reflexivity; cbn [fair] in F; unfold owned, held in F; rewrite ?ops_trace in F.
  - rewrite F. reflexivity.
  - destruct F as [F1 F2]. unfold Vs. rewrite (proj2 (vo_in _ _) F1), F2. reflexivity.
  - destruct F as [F1 F2]. unfold Vs. rewrite (proj2 (vo_in _ _) F1), F2. reflexivity.
  - destruct F as [F1 F2]. unfold Ds. rewrite (proj2 (tk_in _ _) F1), F2. reflexivity.
  - destruct F as [F1 F2]. unfold Ds. rewrite (proj2 (tk_in _ _) F1), F2. reflexivity.
  - destruct F as [F1 F2]. unfold Ds. rewrite (proj2 (tk_in _ _) F1), F2. reflexivity.
Qed.
Lemma Ds_snoc : forall h o j, Ds (h ++ [o]) j = nextD o (Ds h) j.
Proof.
  intros h o j. unfold Ds. rewrite existsb_app. cbn [existsb]. rewrite orb_false_r. destruct o; cbn [is_destroy nextD]; rewrite ?orb_false_r; try reflexivity.
  unfold upd. rewrite Nat.eqb_sym. destruct (j =? k); [apply orb_true_r|apply orb_false_r].
Qed.
Lemma Vs_snoc : forall h o j, Vs (h ++ [o]) j = nextV o (Vs h) j.
Proof.
  intros h o j. unfold Vs. rewrite existsb_app. cbn [existsb]. rewrite orb_false_r. destruct o; cbn [is_vfree nextV]; rewrite ?orb_false_r; try reflexivity.
  unfold upd. rewrite Nat.eqb_sym. destruct (j =? k); [apply orb_true_r|apply orb_false_r].
Qed.
Lemma run_inv : forall n h m, lawful n h -> (B -> calm h) -> after n h = Some m -> Inv B 0 0 false (outs (trace n h)) (Ds h) (Vs h) m.
Proof.
  intros n h. induction h as [|o h IH] using rev_ind; intros m L C H.
  - inversion H; subst. apply init_inv.
  - destruct (lawful_snoc _ _ _ L) as (L1 & F). rewrite after_snoc in H. rewrite trace_snoc, outs_app. destruct (after n h) as [m0|]; [|discriminate].
    assert (I := IH m0 L1 (fun b x Hx => C b x (in_or_app _ _ _ (or_introl Hx))) eq_refl).
    pose proof (step_inv B o m0 _ _ _ I (fair_fair _ _ _ F) (fun b => C b o (in_or_app h [o] o (or_intror (in_eq o []))))) as X.
    destruct (step o m0) as [[m1 l1]|]; [|discriminate]. inversion H; subst m1. unfold outs at 2. cbn [flat_map snd]. rewrite app_nil_r.
    eapply inv_ext; [apply Ds_snoc|apply Vs_snoc|exact X].
Qed.
End Run.
Lemma run_lists : forall n h m, after n h = Some m -> listeners m = ports (trace n h) /\ limit m = limit_of n (trace n h).
Proof.
  intros n h. induction h as [|o h IH] using rev_ind; intros m H; [inversion H; subst; split; reflexivity|].
  rewrite after_snoc in H. rewrite trace_snoc. destruct (after n h) as [m0|]; [|discriminate]. destruct (IH m0 eq_refl) as (E1 & E2).
  destruct (step o m0) as [[m1 l1]|] eqn:S; [|discriminate]. inversion H; subst m1. pose proof (step_mild _ _ _ _ S) as X.
  unfold ports, limit_of. rewrite !fold_left_app. cbn [fold_left]. fold (ports (trace n h)). fold (limit_of n (trace n h)). rewrite <- E1, <- E2. unfold ports1. cbn [fst snd].
  destruct o; try (destruct X as (X1 & X2 & X3); rewrite (plain_listen _ X3), app_nil_r; auto).
  - symmetry in X. destruct (listen_mild _ _ _ _ _ _ X) as (X1 & X2). auto.
  - exact X.
Qed.
(** After a crash nothing is seen any more. *)
Lemma crash_split : forall n h, after n h = None -> exists h1 o h2 m, h = h1 ++ o :: h2 /\ after n h1 = Some m /\ step o m = None /\ outs (trace n h) = outs (trace n h1).
Proof.
  intros n h. induction h as [|o h IH] using rev_ind; intros H; [discriminate|]. rewrite after_snoc in H. destruct (after n h) as [m|] eqn:A.
  - destruct (step o m) as [[m1 l1]|] eqn:S; [discriminate|]. exists h, o, [], m. split; [reflexivity|]. split; [exact A|]. split; [exact S|]. rewrite trace_snoc, A, S, outs_app. apply app_nil_r.
  - destruct (IH eq_refl) as (h1 & o1 & h2 & m & E & A1 & S1 & O1). exists h1, o1, (h2 ++ [o]), m. split; [rewrite E, <- app_assoc; reflexivity|]. split; [exact A1|]. split; [exact S1|].
    rewrite trace_snoc, A, outs_app. cbn. rewrite app_nil_r. exact O1.
Qed.
Lemma inv_outs : forall (P : list out -> Prop) n h, lawful n h -> (forall h m, lawful n h -> after n h = Some m -> P (outs (trace n h))) -> P (outs (trace n h)).
Proof.
  intros P n h L H. destruct (after n h) as [m|] eqn:A; [eapply H; eauto|]. destruct (crash_split _ _ A) as (h1 & o & h2 & m & E & A1 & _ & O). rewrite O. eapply H; [|exact A1]. rewrite E in L. apply (lawful_prefix _ _ _ L).
Qed.
Lemma in_use_in : forall p m, in_use p m = true <-> In p (map snd (listeners m)).
Proof.
  intros p m. unfold in_use. rewrite existsb_exists, in_map_iff. split.
  - intros (x & I & H). apply N.eqb_eq in H. eauto.
  - intros (x & H & I). exists x. split; [exact I|]. apply N.eqb_eq. exact H.
Qed.
Lemma run_served : forall n h, lawful n h -> served n h -> after n h <> None.
Proof.
  intros n h L Sv A. destruct (crash_split _ _ A) as (h1 & o & h2 & m & E & A1 & S & _). rewrite E in L.
  pose proof (run_inv False n h1 m (lawful_prefix _ _ _ L) (fun f => match f with end) A1) as I.
  pose proof (step_inv False o m _ _ _ I (fair_fair _ _ _ (L h1 o h2 eq_refl)) (fun f => match f with end)) as X. rewrite S in X. destruct X as (c & p & a & t & -> & X).
  destruct (Sv h1 c p a t h2 E) as (T & P). rewrite <- (proj1 (run_lists _ _ _ A1)) in P. apply in_use_in in P. destruct X; congruence.
Qed.
