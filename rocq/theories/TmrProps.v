(** * C101, C102: the DTLS timer and the watchdog *)
From Coq Require Import List Bool NArith ZArith Lia.
From Verif Require Import TmrModel TmrSpec.
Import ListNotations.
Open Scope N_scope.

Lemma run_app : forall a b t, run t (a ++ b) = let (t1, x) := run t a in let (t2, y) := run t1 b in (t2, x ++ y).
Proof.
  induction a as [|o a IH]; intros b t; cbn; [destruct (run t b); reflexivity|].
  destruct (step t o) as [t1 x]. rewrite IH. destruct (run t1 a) as [t2 y]. destruct (run t2 b) as [t3 z]. now rewrite app_assoc.
Qed.

Lemma unset_cons : forall o l, unset (o :: l) -> (forall i f, o <> SetDelay i f) /\ unset l.
Proof. intros o l H. split; intros i f X; apply (H i f); [left; congruence | right; exact X]. Qed.

(** What a history without a new delay does. *)
Lemma after_set : forall l t, unset l -> let (t', o) := run t l in
  t_armed t' = t_armed t /\ t_inter t' = t_inter t /\ t_now t' = t_now t + elapsed l /\
  (In Callback o -> t_expired t' = true /\ t_event t' = None) /\
  (~ In Callback o -> t_expired t' = t_expired t /\ (In Cancel l -> t_event t' = None) /\ (~ In Cancel l -> t_event t' = t_event t)) /\
  (t_event t = None -> ~ In Callback o).
Proof.
  induction l as [|o l IH]; intros t Hu.
  - cbn. rewrite N.add_0_r. intuition.
  - apply unset_cons in Hu. destruct Hu as [Ho Hu]. cbn [run]. destruct (step t o) as [t1 x] eqn:E.
    specialize (IH t1 Hu). destruct (run t1 l) as [t2 y]. destruct IH as (I1 & I2 & I3 & I4 & I5 & I6).
    destruct o as [i f| | |d|]; cbn [step] in E.
    + exfalso. apply (Ho i f). reflexivity.
    + injection E as <- <-. cbn [elapsed fold_right]. fold (elapsed l). cbn [app In].
      split; [exact I1|]. split; [exact I2|]. split; [exact I3|]. split; [|split].
      * intros [X|X]; [discriminate|auto].
      * intros Hn. destruct I5 as (J1 & J2 & J3); [tauto|]. split; [exact J1|]. split; [intros [X|X]; [discriminate|auto] | intros X; apply J3; tauto].
      * intros X [Y|Y]; [discriminate|]. now apply I6.
    + injection E as <- <-. cbn [elapsed fold_right]. fold (elapsed l). cbn [app In]. cbn in I1, I2, I3, I5, I6.
      split; [exact I1|]. split; [exact I2|]. split; [exact I3|]. split; [exact I4|]. split.
      * intros Hn. destruct I5 as (J1 & J2 & J3); [exact Hn|]. split; [exact J1|]. split.
        -- intros _. destruct (in_dec (fun a b : op => ltac:(decide equality; apply N.eq_dec)) Cancel l); auto.
        -- intros X. exfalso. apply X. now left.
      * intros _. now apply I6.
    + injection E as <- <-. cbn [elapsed fold_right]. fold (elapsed l). cbn [app In]. cbn in I1, I2, I3, I5, I6.
      split; [exact I1|]. split; [exact I2|]. split; [lia|]. split; [exact I4|]. split.
      * intros Hn. destruct I5 as (J1 & J2 & J3); [exact Hn|]. split; [exact J1|]. split; [intros [X|X]; [discriminate|auto] | intros X; apply J3; tauto].
      * exact I6.
    + cbn [elapsed fold_right]. fold (elapsed l). unfold run_event in E.
      destruct (t_event t) as [d|] eqn:Ed.
      * destruct (N.leb d (t_now t)).
        -- injection E as <- <-. cbn [app In]. cbn in I1, I2, I3, I4, I5, I6. split; [exact I1|]. split; [exact I2|]. split; [exact I3|]. split; [|split].
           ++ intros _. specialize (I6 eq_refl). destruct (I5 I6) as (J1 & J2 & J3). split; [exact J1|].
              destruct (in_dec (fun a b : op => ltac:(decide equality; apply N.eq_dec)) Cancel l); auto.
           ++ intros Hn. exfalso. apply Hn. now left.
           ++ discriminate.
        -- injection E as <- <-. cbn [app]. rewrite Ed in I5, I6. split; [exact I1|]. split; [exact I2|]. split; [exact I3|]. split; [exact I4|]. split; [|discriminate].
           intros Hn. destruct (I5 Hn) as (J1 & J2 & J3). split; [exact J1|]. split; [intros [X|X]; [discriminate|auto] | intros X; apply J3; intros Y; apply X; now right].
      * injection E as <- <-. cbn [app]. rewrite Ed in I5, I6. split; [exact I1|]. split; [exact I2|]. split; [exact I3|]. split; [exact I4|]. split; [|exact I6].
        intros Hn. destruct (I5 Hn) as (J1 & J2 & J3). split; [exact J1|]. split; [intros [X|X]; [discriminate|auto] | intros X; apply J3; intros Y; apply X; now right].
Qed.

(** Every history has a last delay or none. *)
Lemma last_set : forall l, unset l \/ exists pre i f post, l = pre ++ SetDelay i f :: post /\ unset post.
Proof.
  induction l as [|o l IH]; [left; intros i f []|]. destruct IH as [H | (pre & i & f & post & -> & H)].
  - destruct o as [i f| | |d|]; try (left; intros i' f' [X|X]; [discriminate|now apply (H i' f')]).
    right. exists [], i, f, l. auto.
  - right. exists (o :: pre), i, f, post. auto.
Qed.

Lemma passed_ok : forall t0 i e, i < two31 -> e <= two31 -> passed_or_now (t0 + e) (future t0 i) = (i <=? e).
Proof.
  intros t0 i e Hi He. unfold passed_or_now, less_or_equal, future, clock, two31, two32 in *.
  set (M := 4294967296) in *.
  assert (HM : M <> 0) by discriminate.
  pose proof (N.mod_upper_bound t0 M HM) as B0. set (a := t0 mod M) in *.
  assert (E1 : (t0 + e) mod M = (a + e) mod M) by (unfold a; now rewrite N.add_mod_idemp_l).
  rewrite E1.
  assert (Hm : forall x, x < 2 * M -> x mod M = if x <? M then x else x - M).
  { intros x Hx. destruct (N.ltb_spec x M); [now apply N.mod_small|]. symmetry. apply (N.mod_unique x M 1 (x - M)); lia. }
  assert (HMv : M = 4294967296) by reflexivity.
  rewrite (Hm (a + i)) by lia. rewrite (Hm (a + e)) by lia.
  assert (C : ((if a + i <? M then a + i else a + i - M) + M - (if a + e <? M then a + e else a + e - M)) mod M = if i <? e then M - (e - i) else i - e).
  { destruct (N.ltb_spec (a + i) M), (N.ltb_spec (a + e) M), (N.ltb_spec i e); rewrite Hm by lia;
      match goal with |- context [?x <? M] => destruct (N.ltb_spec x M) end; lia. }
  rewrite C. destruct (N.ltb_spec i e), (N.leb_spec i e); try lia.
  - apply Bool.orb_true_iff. right. apply N.leb_le. lia.
  - apply Bool.orb_true_iff. left. apply N.eqb_eq. lia.
  - apply Bool.orb_false_iff. split; [apply N.eqb_neq|apply N.leb_gt]; lia.
Qed.

(** ** C101 *)

(** With no delay set, or the last one of 0, the answer is -1: cancelled. *)
Theorem C101_cancelled : forall t0 l t o, run (init t0) l = (t, o) ->
  (unset l \/ exists pre i post, l = pre ++ SetDelay i 0 :: post /\ unset post) ->
  step t GetDelay = (t, [Delay (-1)]) /\ step t Run = (t, []).
Proof.
  intros t0 l t o H HC.
  assert (X : t_armed t = false /\ t_event t = None).
  { destruct HC as [Hu | (pre & i & post & -> & Hu)].
    - pose proof (after_set l (init t0) Hu) as A. rewrite H in A. destruct A as (A1 & _ & _ & A4 & A5 & A6). split; [exact A1|].
      specialize (A6 eq_refl). destruct (A5 A6) as (_ & J2 & J3).
      destruct (in_dec (fun a b : op => ltac:(decide equality; apply N.eq_dec)) Cancel l); auto.
    - rewrite run_app in H. destruct (run (init t0) pre) as [t1 x]. cbn [run step set_delay N.eqb] in H.
      match type of H with context [run ?s post] => pose proof (after_set post s Hu) as A; destruct (run s post) as [t2 y] end.
      injection H as <- _. destruct A as (A1 & _ & _ & A4 & A5 & A6). split; [exact A1|].
      specialize (A6 eq_refl). destruct (A5 A6) as (_ & J2 & J3).
      destruct (in_dec (fun a b : op => ltac:(decide equality; apply N.eq_dec)) Cancel post); auto. }
  destruct X as [X1 X2]. cbn [step]. unfold get_delay, run_event. rewrite X1, X2. auto.
Qed.
Print Assumptions C101_cancelled.

(** After a delay was set: 2 when the callback was called, else 1 from the
    intermediate delay on, else 0; for 24 days. *)
Theorem C101_status_partial : forall t0 pre i f post t1 o1 t2 o2, f <> 0 -> unset post ->
  run (init t0) (pre ++ [SetDelay i f]) = (t1, o1) -> run t1 post = (t2, o2) -> i < two31 -> elapsed post <= two31 ->
  exists z, step t2 GetDelay = (t2, [Delay z]) /\
    (In Callback o2 -> z = 2%Z) /\ (~ In Callback o2 -> i <= elapsed post -> z = 1%Z) /\ (~ In Callback o2 -> elapsed post < i -> z = 0%Z).
Proof.
  intros t0 pre i f post t1 o1 t2 o2 Hf Hu H1 H2 Hi He. rewrite run_app in H1. destruct (run (init t0) pre) as [s x].
  cbn [run step] in H1. injection H1 as <- _. unfold set_delay in H2. apply N.eqb_neq in Hf. rewrite Hf in H2.
  match type of H2 with run ?s post = _ => pose proof (after_set post s Hu) as A end. rewrite H2 in A. cbn in A.
  destruct A as (A1 & A2 & A3 & A4 & A5 & _). eexists. split; [reflexivity|]. unfold get_delay. rewrite A1. split; [|split].
  - intros X. destruct (A4 X) as [-> _]. reflexivity.
  - intros X Y. destruct (A5 X) as (-> & _). rewrite A2, A3, (passed_ok (t_now s) i (elapsed post) Hi He). apply N.leb_le in Y. now rewrite Y.
  - intros X Y. destruct (A5 X) as (-> & _). rewrite A2, A3, (passed_ok (t_now s) i (elapsed post) Hi He). apply N.leb_gt in Y. now rewrite Y.
Qed.
Print Assumptions C101_status_partial.

(** Later than that the answer may be 0 again although the intermediate delay is
    over. *)
Theorem C101_status_refuted : exists t0 i f post t o, f <> 0 /\ f < two32 /\ unset post /\ i < two31 /\ elapsed post < f /\ i <= elapsed post /\
  run (init t0) (SetDelay i f :: post) = (t, o) /\ step t GetDelay = (t, [Delay 0]).
Proof.
  exists 0, 1, 4294967295, [Tick 2147483650]. do 2 eexists. repeat split; try reflexivity; try discriminate.
  intros i f [X|[]]. discriminate.
Qed.
Print Assumptions C101_status_refuted.

(** The callback is called exactly when the event queue runs the timer and the last
    delay was not 0, is over, was not cancelled and the callback was not called for
    it yet. *)
Theorem C101_callback : forall t0 l t o v, run (init t0) l = (t, o) ->
  (In Callback (snd (step t v)) <->
   v = Run /\ exists pre i f post t1 o1, l = pre ++ SetDelay i f :: post /\ unset post /\ f <> 0 /\ f <= elapsed post /\ ~ In Cancel post /\
     run (init t0) (pre ++ [SetDelay i f]) = (t1, o1) /\ ~ In Callback (snd (run t1 post))).
Proof.
  intros t0 l t o v H. split.
  - intros HC. assert (Hv : v = Run) by (destruct v; cbn in HC; intuition discriminate). subst v. split; [reflexivity|].
    destruct (last_set l) as [Hu | (pre & i & f & post & -> & Hu)].
    { rewrite (proj2 (C101_cancelled t0 l t o H (or_introl Hu))) in HC. destruct HC. }
    destruct (N.eq_dec f 0) as [->|Hf].
    { rewrite (proj2 (C101_cancelled t0 _ t o H (or_intror (ex_intro _ pre (ex_intro _ i (ex_intro _ post (conj eq_refl Hu))))))) in HC. destruct HC. }
    destruct (run (init t0) (pre ++ [SetDelay i f])) as [t1 o1] eqn:E1. exists pre, i, f, post, t1, o1.
    replace (pre ++ SetDelay i f :: post) with ((pre ++ [SetDelay i f]) ++ post) in H by (rewrite <- app_assoc; reflexivity).
    rewrite run_app, E1 in H. pose proof (after_set post t1 Hu) as A. destruct (run t1 post) as [t2 o2] eqn:E2. injection H as -> _.
    assert (Ht1 : exists s, t1 = set_delay i f s).
    { rewrite run_app in E1. destruct (run (init t0) pre) as [s x]. cbn [run step] in E1. injection E1 as <- _. eauto. }
    destruct Ht1 as [s ->]. unfold set_delay in A. pose proof Hf as Hf'. apply N.eqb_neq in Hf. rewrite Hf in A. cbn in A.
    destruct A as (_ & _ & A3 & A4 & A5 & _). cbn [step] in HC. unfold run_event in HC.
    assert (Hn : ~ In Callback o2). { intros X. destruct (A4 X) as [_ Y]. rewrite Y in HC. destruct HC. }
    destruct (A5 Hn) as (_ & J2 & J3).
    assert (Hc : ~ In Cancel post). { intros X. rewrite (J2 X) in HC. destruct HC. }
    rewrite (J3 Hc), A3 in HC. cbn [snd] in *. repeat split; auto.
    destruct (N.leb_spec (t_now s + f) (t_now s + elapsed post)); [lia|destruct HC].
  - intros (-> & pre & i & f & post & t1 & o1 & -> & Hu & Hf & He & Hc & E1 & Hn).
    replace (pre ++ SetDelay i f :: post) with ((pre ++ [SetDelay i f]) ++ post) in H by (rewrite <- app_assoc; reflexivity).
    rewrite run_app, E1 in H. pose proof (after_set post t1 Hu) as A. destruct (run t1 post) as [t2 o2] eqn:E2. injection H as -> _. cbn [snd] in Hn.
    assert (Ht1 : exists s, t1 = set_delay i f s).
    { rewrite run_app in E1. destruct (run (init t0) pre) as [s x]. cbn [run step] in E1. injection E1 as <- _. eauto. }
    destruct Ht1 as [s ->]. unfold set_delay in A. apply N.eqb_neq in Hf. rewrite Hf in A. cbn in A.
    destruct A as (_ & _ & A3 & _ & A5 & _). destruct (A5 Hn) as (_ & _ & J3). cbn [step]. unfold run_event. rewrite (J3 Hc), A3.
    replace (t_now s + f <=? t_now s + elapsed post) with true by (symmetry; apply N.leb_le; lia). cbn. auto.
Qed.
Print Assumptions C101_callback.

(** A handshake: the intermediate delay, the final one, a new delay, no delay. *)
Example C101_ex : snd (run (init 4294967000) [GetDelay; SetDelay 250 1000; GetDelay; Tick 250; GetDelay; Run; Tick 750; GetDelay; Run; Run; GetDelay;
    SetDelay 500 2000; GetDelay; Tick 3000; SetDelay 0 0; Run; GetDelay]) =
  [Delay (-1); Delay 0; Delay 1; Delay 1; Callback; Delay 2; Delay 0; Delay (-1)].
Proof. vm_compute. reflexivity. Qed.

(** ** C102 *)
Lemma wrun_app : forall a b s, wrun s (a ++ b) = let (s1, x) := wrun s a in let (s2, y) := wrun s1 b in (s2, x ++ y).
Proof.
  induction a as [|o a IH]; intros b s; cbn; [destruct (wrun s b); reflexivity|].
  destruct (wstep s o) as [s1 x]. rewrite IH. destruct (wrun s1 a) as [s2 y]. destruct (wrun s2 b) as [s3 z]. reflexivity.
Qed.

(** The state and the timeout are those of the specification. *)
Lemma wrun_facts : forall t0 l, let s := fst (wrun (att_init t0) l) in
  a_phase s = phase_after l /\ match a_dog s with Some w => timeout_after l = Some (w_timeout w) | None => timeout_after l = None end.
Proof.
  intros t0 l. induction l as [|o l IH] using rev_ind; [split; reflexivity|].
  cbv zeta in *. rewrite wrun_app. destruct (wrun (att_init t0) l) as [s x]. cbn [fst] in IH. destruct IH as [I1 I2].
  unfold phase_after, timeout_after in *. rewrite !fold_left_app. cbn [fold_left wrun].
  destruct o as [ | |p|ms|d|]; cbn [wstep fst a_phase a_dog]; try (split; [exact I1|]; try reflexivity; try exact I2).
  - split; [reflexivity|]. destruct (a_dog s) as [w|]; exact I2.
  - destruct (a_dog s) as [w|]; rewrite I2; reflexivity.
  - destruct (a_dog s) as [w|] eqn:E; cbn [fst].
    + destruct (w_timer w) as [d|]; [destruct (d <=? a_now s)|]; cbn [fst a_dog w_timeout a_phase]; rewrite ?E; auto.
    + rewrite E. auto.
Qed.

(** What a history without changes does with the timer of the watchdog. *)
Lemma still_run : forall l s w, still l -> a_dog s = Some w -> let (s', r) := wrun s l in
  a_now s' = a_now s + welapsed l /\ exists w', a_dog s' = Some w' /\
  (In true r -> w_timer w' = None) /\ (~ In true r -> w_timer w' = w_timer w) /\ (w_timer w = None -> ~ In true r).
Proof.
  induction l as [|o l IH]; intros s w Hs Hw.
  - cbn. split; [lia|]. exists w. intuition.
  - assert (Hs' : still l) by (intros x Hx; apply Hs; now right).
    pose proof (Hs o (or_introl eq_refl)) as Ho. cbn [wrun welapsed fold_right]. fold (welapsed l).
    destruct o as [ | |p|ms|d|]; try contradiction; cbn [wstep].
    + rewrite Hw. specialize (IH {| a_dog := Some {| w_timeout := ms; w_timer := w_timer w |}; a_phase := a_phase s; a_now := a_now s |} _ Hs' eq_refl).
      destruct (wrun _ l) as [s' r]. cbn in IH. destruct IH as (I0 & w' & I1 & I2 & I3 & I4). split; [exact I0|]. exists w'. cbn [In].
      split; [exact I1|]. split; [intros [X|X]; [discriminate|auto]|]. split; [intros X; apply I3; tauto|intros X [Y|Y]; [discriminate|now apply I4]].
    + specialize (IH {| a_dog := a_dog s; a_phase := a_phase s; a_now := a_now s + d |} w Hs' Hw).
      destruct (wrun _ l) as [s' r]. cbn in IH. destruct IH as (I0 & w' & I1 & I2 & I3 & I4). split; [lia|]. exists w'. cbn [In].
      split; [exact I1|]. split; [intros [X|X]; [discriminate|auto]|]. split; [intros X; apply I3; tauto|intros X [Y|Y]; [discriminate|now apply I4]].
    + rewrite Hw. destruct (w_timer w) as [d|] eqn:Ed.
      * destruct (d <=? a_now s) eqn:El.
        -- specialize (IH {| a_dog := Some {| w_timeout := w_timeout w; w_timer := None |}; a_phase := a_phase s; a_now := a_now s |} _ Hs' eq_refl).
           destruct (wrun _ l) as [s' r]. cbn in IH. destruct IH as (I0 & w' & I1 & I2 & I3 & I4). split; [exact I0|]. exists w'. cbn [In].
           split; [exact I1|]. split; [intros _; apply I3; now apply I4|]. split; [intros X; exfalso; apply X; now left|discriminate].
        -- specialize (IH s w Hs' Hw). destruct (wrun s l) as [s' r]. destruct IH as (I0 & w' & I1 & I2 & I3 & I4). split; [exact I0|]. exists w'. cbn [In]. rewrite Ed in *.
           split; [exact I1|]. split; [intros [X|X]; [discriminate|auto]|]. split; [intros X; apply I3; tauto|discriminate].
      * specialize (IH s w Hs' Hw). destruct (wrun s l) as [s' r]. destruct IH as (I0 & w' & I1 & I2 & I3 & I4). split; [exact I0|]. exists w'. cbn [In]. rewrite Ed in *.
        split; [exact I1|]. split; [intros [X|X]; [discriminate|auto]|]. split; [intros X; apply I3; tauto|intros X [Y|Y]; [discriminate|now apply I4]].
Qed.

Lemma still_none : forall l s, still l -> a_dog s = None -> let (s', r) := wrun s l in a_dog s' = None.
Proof.
  induction l as [|o l IH]; intros s Hs Hw; [exact Hw|]. assert (Hs' : still l) by (intros x Hx; apply Hs; now right).
  pose proof (Hs o (or_introl eq_refl)) as Ho. cbn [wrun]. destruct (wstep s o) as [s1 b] eqn:E.
  assert (H1 : a_dog s1 = None) by (destruct o; try contradiction; cbn [wstep] in E; rewrite ?Hw in E; injection E as <- _; cbn; auto).
  specialize (IH s1 Hs' H1). destruct (wrun s1 l). exact IH.
Qed.

(** After a change of state (or the making of the watchdog) and a history without
    another: a failure is reported exactly when there is a watchdog, the device is not
    attached, its timeout of that moment is over, and none was reported since. *)
Theorem C102_report : forall t0 pre o post s1 r1 s2 r2, (o = WInit \/ exists p, o = WChange p) -> still post ->
  wrun (att_init t0) (pre ++ [o]) = (s1, r1) -> wrun s1 post = (s2, r2) ->
  (snd (wstep s2 WRun) = true <->
   phase_after (pre ++ [o]) <> PAttached /\ (exists ms, timeout_after (pre ++ [o]) = Some ms /\ ms <= welapsed post) /\ ~ In true r2).
Proof.
  intros t0 pre o post s1 r1 s2 r2 Ho Hs H1 H2.
  pose proof (wrun_facts t0 (pre ++ [o])) as F. rewrite H1 in F. cbv zeta in F. cbn [fst] in F. destruct F as [F1 F2].
  assert (HT : forall w, a_dog s1 = Some w -> w_timer w = match a_phase s1 with PAttached => None | _ => Some (a_now s1 + w_timeout w) end).
  { intros w Hw. rewrite wrun_app in H1. destruct (wrun (att_init t0) pre) as [s x]. cbn [wrun] in H1.
    destruct Ho as [-> | [p ->]]; cbn [wstep] in H1.
    - injection H1 as <- _. cbn in Hw. injection Hw as <-. cbn. destruct (a_phase s); reflexivity.
    - injection H1 as <- _. cbn in Hw. destruct (a_dog s); [|discriminate]. injection Hw as <-. cbn. destruct p; reflexivity. }
  destruct (a_dog s1) as [w|] eqn:Ew.
  - pose proof (still_run post s1 w Hs Ew) as A. rewrite H2 in A. destruct A as (A0 & w' & A1 & A2 & A3 & A4). specialize (HT w eq_refl).
    rewrite <- F1, F2. cbn [wstep]. rewrite A1. split.
    + intros X. destruct (w_timer w') as [d|] eqn:Ed; [|discriminate]. destruct (d <=? a_now s2) eqn:El; [|discriminate]. apply N.leb_le in El.
      assert (Hn : ~ In true r2) by (intros Y; specialize (A2 Y); discriminate). specialize (A3 Hn). rewrite HT in A3.
      destruct (a_phase s1) eqn:Ep; try discriminate; injection A3 as ->; (split; [discriminate|]); (split; [|exact Hn]); exists (w_timeout w); (split; [reflexivity|lia]).
    + intros (P & (ms & Hms & Hle) & Hn). injection Hms as <-. specialize (A3 Hn). rewrite HT in A3.
      destruct (a_phase s1) eqn:Ep; try (exfalso; now apply P); rewrite A3; replace (a_now s1 + w_timeout w <=? a_now s2) with true by (symmetry; apply N.leb_le; lia); reflexivity.
  - pose proof (still_none post s1 Hs Ew) as A. rewrite H2 in A. cbn [wstep]. rewrite A. split; [discriminate|]. intros (_ & (ms & Hms & _) & _). rewrite F2 in Hms. discriminate.
Qed.
Print Assumptions C102_report.

(** No failure is reported while the device is attached. *)
Theorem C102_attached : forall t0 l s r o, wrun (att_init t0) l = (s, r) -> phase_after l = PAttached -> snd (wstep s o) = false.
Proof.
  intros t0 l s r o H HP.
  assert (I : forall m s0 r0, wrun (att_init t0) m = (s0, r0) -> a_phase s0 = PAttached -> forall w, a_dog s0 = Some w -> w_timer w = None).
  { clear. intros m. induction m as [|x m IH] using rev_ind; intros s0 r0 H0 HA w Hw; [injection H0 as <- _; discriminate|].
    rewrite wrun_app in H0. destruct (wrun (att_init t0) m) as [s1 r1]. specialize (IH s1 r1 eq_refl). cbn [wrun] in H0.
    destruct x as [ | |p|ms|d|]; cbn [wstep] in H0.
    - injection H0 as <- _. cbn in *. injection Hw as <-. cbn. now rewrite HA.
    - injection H0 as <- _. discriminate.
    - injection H0 as <- _. cbn in *. subst p. destruct (a_dog s1); [|discriminate]. injection Hw as <-. reflexivity.
    - injection H0 as <- _. cbn in *. destruct (a_dog s1) as [w1|]; [|discriminate]. injection Hw as <-. cbn. eapply IH; eauto.
    - injection H0 as <- _. cbn in *. eapply IH; eauto.
    - destruct (a_dog s1) as [w1|] eqn:E1; [|injection H0 as <- _; congruence].
      destruct (w_timer w1) as [d|] eqn:Ed.
      + destruct (d <=? a_now s1); injection H0 as <- _; cbn in *; [injection Hw as <-; reflexivity|]. eapply IH; eauto. congruence.
      + injection H0 as <- _. eapply IH; eauto. congruence. }
  pose proof (wrun_facts t0 l) as F. rewrite H in F. cbv zeta in F. cbn [fst] in F. destruct F as [F _]. rewrite HP in F.
  destruct o as [ | |p|ms|d|]; try reflexivity. cbn [wstep]. destruct (a_dog s) as [w|] eqn:E; [|reflexivity]. now rewrite (I l s r H F w E).
Qed.
Print Assumptions C102_attached.

(** Not so: a device reports a failure when it is not attached and its states are not
    cycled.  No device has a watchdog, so none ever reports. *)
Theorem C102_device_refuted :
  (forall t0 l, forallb device_op l = true -> ~ In true (snd (wrun (att_init t0) l))) /\
  exists l post, forallb device_op (l ++ post) = true /\ still post /\ phase_after l <> PAttached /\ 600000 <= welapsed post /\ In WRun post.
Proof.
  split.
  - intros t0 l H. assert (G : forall s, a_dog s = None -> ~ In true (snd (wrun s l))); [|now apply G].
    induction l as [|o l IH]; intros s Hs; [intros []|]. cbn in H. apply andb_prop in H. destruct H as [H0 H].
    cbn [wrun]. destruct (wstep s o) as [s1 b] eqn:E.
    assert (X : a_dog s1 = None /\ b = false).
    { destruct o as [ | |p|ms|d|]; try discriminate; cbn [wstep] in E; rewrite ?Hs in E; injection E as <- <-; cbn; rewrite ?Hs; auto. }
    destruct X as [X ->]. specialize (IH H s1 X). destruct (wrun s1 l) as [s2 r]. cbn in *. intros [Y|Y]; [discriminate|auto].
  - exists [WChange POther], [WTick 700000; WRun]. split; [reflexivity|]. split.
    { intros o [<-|[<-|[]]]; exact I. }
    split; [discriminate|]. split; [vm_compute; discriminate|cbn; auto].
Qed.
Print Assumptions C102_device_refuted.

(** Not so: with a watchdog, a device which cycles its states as it should never
    reports.  It does within the hour it waits after it was refused, and after it was
    told to detach. *)
Theorem C102_healthy_refuted : exists s, wrun (att_init 0) [WInit; WChange PDenied; WTick 600000; WRun] = (s, [false; false; false; true]) /\ 600000 < denied_wait /\
  exists s', wrun (att_init 0) [WInit; WChange PAttached; WChange PClosed; WTick 600000; WRun] = (s', [false; false; false; false; true]).
Proof. eexists. split; [vm_compute; reflexivity|]. split; [reflexivity|]. eexists. vm_compute. reflexivity. Qed.
Print Assumptions C102_healthy_refuted.

Example C102_ex : snd (wrun (att_init 5) [WInit; WTimeout 50; WTick 599999; WRun; WTick 1; WRun; WRun; WChange POther; WTick 49; WRun; WChange POther; WTick 50; WRun; WChange PAttached; WTick 1000000; WRun]) =
  [false; false; false; false; false; true; false; false; false; false; false; false; true; false; false; false].
Proof. vm_compute. reflexivity. Qed.
