(** Properties C27, C28 and C71: the event queue. *)
From Coq Require Import List Bool Arith NArith Lia.
From Verif Require Import EventModel EventSpec EventProofs.
Import ListNotations.

(** C27: the queue behaves as an agenda with an unbounded clock: what the thread takes is the oldest
    post or the earliest timed event which is due, it sleeps only when nothing can be taken, and posting is
    refused exactly when the event is pending. *)
Theorem C27_queue_is_an_agenda : forall now h s t p x q,
  run (init now) h = Some (s, t) -> timely now t -> t = p ++ x :: q ->
  allowed (agenda_after now p) x.
Proof. intros now h s t p x q R T E. destruct (run_inv now h s t R T) as (_ & _ & A). eapply A; eauto. Qed.
Print Assumptions C27_queue_is_an_agenda.

(** A timed event is not taken before its delay is over. *)
Theorem C27_never_early : forall now h s t p e ms o1 m o2 out q,
  run (init now) h = Some (s, t) -> timely now t ->
  t = p ++ (PostTimed e ms, o1) :: m ++ (o2, out) :: q -> In (Taken e) out ->
  (forall x, In x m -> revokes e (fst x) = false) -> ~ In e (takes m) ->
  (ms <= elapsed m)%N.
Proof. exact not_early. Qed.
Print Assumptions C27_never_early.

(** Callbacks run in the order in which the events are taken, at most one is under way. *)
Theorem C27_runs_as_taken : forall now h s t, run (init now) h = Some (s, t) ->
  takes t = runs t ++ match st_thr s with TRun e => [e] | _ => [] end.
Proof. intros now h s t R. exact (run_order _ _ _ _ R). Qed.
Print Assumptions C27_runs_as_taken.

(** An event does not run more often than it is posted. *)
Theorem C27_at_most_once : forall now h s t e, run (init now) h = Some (s, t) ->
  count_occ Nat.eq_dec (runs t) e <= length (filter (posts e) h).
Proof.
  intros now h s t e R. apply (run_pend _ _ _ _ e) in R. unfold pend, init in R. simpl in R.
  unfold occ, posted_count in R. lia.
Qed.
Print Assumptions C27_at_most_once.

(** A posted event which is not cancelled is taken no later than the take after those in front of it. *)
Theorem C27_taken_in_turn : forall s h s' t e a b, run s h = Some (s', t) ->
  st_events s = a ++ e :: b -> (forall o, In o h -> revokes e o = false) ->
  length a < length (takes t) -> In e (takes t).
Proof. intros s h s' t e a b. apply run_ahead. Qed.
Print Assumptions C27_taken_in_turn.

(** Posting puts a pending-free event at the end. *)
Theorem C27_posted_last : forall now h s t e s' o, run (init now) h = Some (s, t) -> timely now t ->
  a_status (agenda_after now t) e = Nothing -> step s (Post e) = Ok s' o ->
  st_events s' = st_events s ++ [e].
Proof.
  intros now h s t e s' o R T N H. destruct (run_inv now h s t R T) as (I & _ & _).
  simpl in H. destruct (memb e (st_freed s)); [discriminate|]. inversion H; subst.
  destruct (signal_queue (append s e)) as (_ & -> & _). unfold append.
  rewrite (proj2 (in_list_status s _ e I) N). reflexivity.
Qed.
Print Assumptions C27_posted_last.

(** Around the wrap of the 32 bit clock: event 1 due after the wrap, event 2 before it, event 3 posted, event 4 cancelled. *)
Definition ex_start : N := 4294967290.
Definition ex_hist : list op :=
  [PostTimed 1 20; PostTimed 2 4; Post 3; PostMaybe 3; PostTimed 4 2; Cancel 4;
   Tick; Tick; Tick; Tick; Advance 4; Tick; Tick; Tick; Tick; Tick; Tick; Advance 16; Tick; Tick; Tick; Tick].
Definition ex_trace : list (op * list out) :=
  match run (init ex_start) ex_hist with Some (_, t) => t | None => [] end.
Example C27_ex : exists s, run (init ex_start) ex_hist = Some (s, ex_trace) /\ runs ex_trace = [3; 2; 1].
Proof. eexists. split; vm_compute; reflexivity. Qed.

(** Splitting a concrete trace. *)
Fixpoint check_from (now : N) (a : agenda) (t : list (op * list out)) (es : list nat) : bool :=
  match t with
  | [] => true
  | x :: t' =>
      (match fst x with PostTimed _ ms => N.ltb ms (2 ^ 30) | _ => true end) &&
      forallb (fun e => match a_status a e with Due u => N.ltb (a_now a) (u + 2 ^ 30) | _ => true end) es &&
      (negb (existsb is_look (snd x)) || N.ltb (a_now a) (a_read a + 2 ^ 30)) &&
      check_from now (observe a x) t' es
  end.

Lemma check_timely : forall now t es,
  (forall p e u, (exists q, t = p ++ q) -> a_status (agenda_after now p) e = Due u -> In e es) ->
  check_from now (start now) t es = true -> timely now t.
Proof.
  intros now t es H.
  assert (G : forall t0 p0, t = p0 ++ t0 -> check_from now (agenda_after now p0) t0 es = true ->
    forall p x q, t0 = p ++ x :: q ->
      (forall e ms, fst x = PostTimed e ms -> (ms < 2 ^ 30)%N) /\
      (forall e u, a_status (agenda_after now (p0 ++ p)) e = Due u -> (a_now (agenda_after now (p0 ++ p)) < u + 2 ^ 30)%N) /\
      (existsb is_look (snd x) = true -> (a_now (agenda_after now (p0 ++ p)) < a_read (agenda_after now (p0 ++ p)) + 2 ^ 30)%N)).
  { induction t0 as [|y t0 IH]; intros p0 E C p x q S; [destruct p; discriminate|].
    cbn [check_from] in C. rewrite !andb_true_iff in C. destruct C as [[[C1 C2] C3] C4].
    destruct p as [|z p].
    - inversion S; subst x q. rewrite app_nil_r. split; [|split].
      + intros e ms F. rewrite F in C1. apply N.ltb_lt. auto.
      + intros e u D. rewrite forallb_forall in C2.
        assert (IN : In e es) by (apply (H p0 e u); [exists (y :: t0); exact E|exact D]).
        specialize (C2 e IN). rewrite D in C2. apply N.ltb_lt. auto.
      + intros L. rewrite L in C3. simpl in C3. apply N.ltb_lt. auto.
    - inversion S; subst z t0.
      replace (p0 ++ y :: p) with ((p0 ++ [y]) ++ p) by (rewrite <- app_assoc; reflexivity).
      apply (IH (p0 ++ [y])) with (q := q); auto.
      + rewrite <- app_assoc. exact E.
      + unfold agenda_after in *. rewrite fold_left_app. exact C4. }
  intros C p x q S. apply (G t [] eq_refl C p x q S).
Qed.

Lemma agenda_due_in : forall t a e u, a_status (fold_left observe t a) e = Due u ->
  a_status a e = Due u \/ exists ms, In (PostTimed e ms) (map fst t).
Proof.
  induction t as [|x t IH]; intros a e u H; [auto|]. simpl in H. apply IH in H.
  destruct H as [H|[ms H]]; [|right; exists ms; right; auto].
  assert (O : forall l b, a_status (fold_left observe_out l b) e = Due u -> a_status b e = Due u).
  { induction l as [|y l IHl]; intros b K; [auto|]. simpl in K. apply IHl in K. destruct y; simpl in K; auto.
    destruct (Nat.eqb e e0); [discriminate|auto]. }
  unfold observe in H. apply O in H. destruct x as [o l]; simpl in *.
  destruct o as [f|f|f ms|f|f| |ms| |]; simpl in H; auto.
  - unfold post in H. destruct (a_status a f) eqn:F; simpl in H; auto. destruct (Nat.eqb e f); [discriminate|auto].
  - unfold post in H. destruct (a_status a f) eqn:F; simpl in H; auto. destruct (Nat.eqb e f); [discriminate|auto].
  - destruct (Nat.eqb_spec e f); [subst; right; exists ms; auto|auto].
  - destruct (Nat.eqb e f); [discriminate|auto].
  - destruct (Nat.eqb e f); [discriminate|auto].
Qed.

(** The assumption on time holds for it. *)
Example C27_ex_timely : timely ex_start ex_trace.
Proof.
  apply check_timely with (es := [1; 2; 4]); [|vm_compute; reflexivity].
  intros p e u [q E] D. unfold agenda_after in D. apply agenda_due_in in D. destruct D as [D|[ms D]]; [discriminate|].
  assert (I : In (PostTimed e ms) (map fst ex_trace)) by (rewrite E, map_app; apply in_or_app; auto).
  vm_compute in I. repeat (destruct I as [I|I]; [try discriminate I; inversion I; simpl; auto|]). contradiction.
Qed.

(** Without it a timed event can be early: a delay of 2^31 ms is over at once. *)
Example C27_ex_bound : exists s t, run (init 0) [PostTimed 1 (2 ^ 31); Tick; Tick; Tick] = Some (s, t) /\ runs t = [1].
Proof. eexists _, _. split; vm_compute; reflexivity. Qed.

(** C28 does not hold: a callback runs after its event was cancelled, *)
Theorem C28_cancelled_never_runs_refuted : exists now h1 h2 e s t,
  run (init now) (h1 ++ Cancel e :: h2) = Some (s, t) /\
  (forall o, In o h2 -> posts e o = false) /\ (exists t1 t2, t = t1 ++ t2 /\ length t1 = length h1 + 1 /\ In e (runs t2)).
Proof.
  exists 0%N, [PostTimed 1 0; Tick; Tick], [Tick], 1. eexists _, _. split; [vm_compute; reflexivity|].
  split; [intros o [<-|[]]; reflexivity|].
  eexists [_; _; _; _], [_]. split; [reflexivity|]. split; [reflexivity|]. vm_compute. auto.
Qed.
Print Assumptions C28_cancelled_never_runs_refuted.

(** and the queue thread uses the memory of a destroyed event. *)
Theorem C28_destroyed_not_used_refuted : exists now h e s t,
  run (init now) (h ++ [Destroy e]) = Some (s, t) /\ step s Tick = Undef.
Proof.
  exists 0%N, [Post 1; Tick; Tick], 1. eexists _, _. split; vm_compute; reflexivity.
Qed.
Print Assumptions C28_destroyed_not_used_refuted.

(** It holds for every cancel or destroy made while the queue thread is not between taking that
    event and locking the core mutex, for example for every one made from a callback of the queue. *)
Theorem C28_cancelled_never_runs_partial : forall now h1 h2 e o s1 t1 s2 o2 s t,
  o = Cancel e \/ o = Destroy e ->
  run (init now) h1 = Some (s1, t1) -> st_thr s1 <> TRun e ->
  step s1 o = Ok s2 o2 -> run s2 h2 = Some (s, t) ->
  (forall o, In o h2 -> posts e o = false) -> ~ In e (runs t).
Proof.
  intros now h1 h2 e o s1 t1 s2 o2 s t O R1 T S R2 P.
  eapply gone_never_runs; eauto. destruct O as [->| ->]; [eapply cancel_gone|eapply destroy_gone]; eauto.
Qed.
Print Assumptions C28_cancelled_never_runs_partial.

(** While a callback runs, the queue thread is not in between. *)
Theorem C28_in_callbacks_partial : forall h s s' e, tick s = Ok s' [Ran e] ->
  forall s2 t2, run s' h = Some (s2, t2) -> (forall o, In o h -> o <> Tick) -> forall f, st_thr s2 <> TRun f.
Proof.
  intros h s s' e H. assert (B : st_thr s' = TBusy).
  { unfold tick in H. destruct (st_thr s) as [|t|[d|] l|f| |]; try discriminate.
    - destruct (look s t) as [s1 o1] eqn:L. inversion H; subst.
      unfold look in L. destruct (st_events s); [|discriminate].
      destruct (st_timed s) as [|[g x] ti]; [destruct (st_stopped s); discriminate|].
      destruct (less_or_equal x t); [discriminate|]. destruct (st_stopped s); discriminate.
    - destruct (N.leb d (st_now s)); discriminate.
    - destruct (memb f (st_freed s)); [discriminate|]. inversion H; subst. reflexivity. }
  clear H. revert s' B. induction h as [|o h IH]; intros s' B s2 t2 R N f.
  - inversion R; subst. rewrite B. discriminate.
  - simpl in R. destruct (step s' o) as [|s1 o1] eqn:S; [discriminate|].
    destruct (run s1 h) as [[s3 t3]|] eqn:R1; [|discriminate]. inversion R; subst.
    apply (IH s1) with (t2 := t3); auto; [|intros; apply N; right; auto].
    assert (SG : forall x, st_thr x = TBusy -> st_thr (signal x) = TBusy) by (intros x X; unfold signal; rewrite X; exact X).
    assert (AP : forall e, st_thr (append s' e) = TBusy) by (intros e0; unfold append; destruct (in_list s' e0); exact B).
    destruct o; cbn [step] in S; try (destruct (memb _ _); [discriminate|]); try (inversion S; subst; try apply SG; auto; fail).
    destruct (N Tick (or_introl eq_refl) eq_refl).
Qed.
Print Assumptions C28_in_callbacks_partial.

(** No use of destroyed events when none is destroyed in flight. *)
Theorem C28_destroyed_not_used_partial : forall now h s t,
  run (init now) h = Some (s, t) -> careful_run (init now) h -> step s Tick <> Undef.
Proof.
  intros now h s t R C. apply live_tick. eapply run_live; eauto. intros e [].
Qed.
Print Assumptions C28_destroyed_not_used_partial.

Example C28_ex : exists s t s2 o2, run (init 0) [PostTimed 1 5; Post 2; Tick; Tick; Tick] = Some (s, t) /\
  tick s = Ok s2 o2 /\ st_thr s <> TRun 1 /\ careful_run (init 0) [PostTimed 1 5; Post 2; Tick; Tick; Tick; Destroy 1] /\
  exists s3 o3, step s (Destroy 1) = Ok s3 o3.
Proof.
  eexists _, _, _, _. split; [vm_compute; reflexivity|]. split; [vm_compute; reflexivity|].
  split; [discriminate|]. split; [vm_compute; repeat split; intros; discriminate|].
  eexists _, _. vm_compute. reflexivity.
Qed.

(** C71: while the queue thread waits on its condition nothing is posted, the queue is not
    stopped, and the wait ends no later than every due time plus the time the thread needed from reading the
    clock to going to sleep. *)
Theorem C71_no_oversleeping : forall now h s t until lag,
  run (init now) h = Some (s, t) -> timely now t -> st_thr s = TWait until lag ->
  (forall e k, a_status (agenda_after now t) e <> Posted k) /\
  (forall e u, a_status (agenda_after now t) e = Due u -> exists w, until = Some w /\ (w <= u + lag)%N) /\
  st_stopped s = false.
Proof. intros now h s t until lag R T W. exact (run_awake now h s t R T until lag W). Qed.
Print Assumptions C71_no_oversleeping.

Example C71_ex : exists s t, run (init ex_start) [PostTimed 1 20; PostTimed 2 4; Tick; Advance 1; Tick] = Some (s, t) /\
  st_thr s = TWait (Some (ex_start + 5)%N) 1.
Proof. eexists _, _. split; vm_compute; reflexivity. Qed.
