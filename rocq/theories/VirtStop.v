(** Virtual streams: what a stop leaves behind, what a close does. *)
From Coq Require Import List Bool Arith Lia.
From Verif Require Import VirtModel VirtSpec VirtProofs VirtMore VirtData.
Import ListNotations.

(** After nc_stream_stop the device side has nothing; after nc_virtual_stream_client_stop only a read of the client, which was begun later, and the close of the device can wait. *)
Definition quiet (s : vstream) : Prop :=
  (d_stopped (srv s) = true -> d_read (srv s) = None /\ d_write (srv s) = None /\ d_close (srv s) = None) /\
  (d_stopped (cli s) = true -> d_open (cli s) = None /\ d_write (cli s) = None /\ d_close (cli s) = None /\ d_read (srv s) = None /\ d_write (srv s) = None).
Lemma quiet_live : forall s, d_stopped (srv s) || d_stopped (cli s) = false -> quiet s.
Proof. intros s H. apply orb_false_iff in H as [A B]. split; congruence. Qed.
Lemma do_read_stop : forall s, d_write (srv s) = None -> do_read s = (s, []).
Proof. intros s H. unfold do_read. rewrite H. destruct (d_read (cli s)); reflexivity. Qed.
Lemma step_quiet : forall o s, quiet s -> quiet (fst (step o s)) /\ (d_stopped (srv s) = true -> d_stopped (srv (fst (step o s))) = true) /\ (d_stopped (cli s) = true -> d_stopped (cli (fst (step o s))) = true).
Proof.
  intros o s Q. destruct (d_stopped (srv s) || d_stopped (cli s)) eqn:S0.
  - destruct Q as [Q1 Q2]. assert (SAME : quiet s /\ (d_stopped (srv s) = true -> d_stopped (srv s) = true) /\ (d_stopped (cli s) = true -> d_stopped (cli s) = true)) by (split; [split|]; auto). destruct o as [a|all a n|a b|a| |all a n|a b|a|]; cbn [step]; rewrite ?S0; try exact SAME.
    + destruct (d_stopped (srv s)) eqn:A; [split; [exact (proj1 SAME)|split; cbn; auto]|]. destruct (d_stopped (cli s)) eqn:B; [|discriminate]. split; [|split; [reflexivity|cbn; auto]]. split; cbn; auto. intros _. destruct (Q2 eq_refl) as (X1 & X2 & X3 & X4 & X5). auto.
    + destruct (d_read (cli s)); [exact SAME|]. destruct (d_closed (srv s)); [exact SAME|].
      assert (W : d_write (srv s) = None). { destruct (d_stopped (srv s)); [apply (Q1 eq_refl)|]. destruct (d_stopped (cli s)); [apply (Q2 eq_refl)|discriminate]. }
      rewrite do_read_stop by exact W. cbn [fst on_cli srv cli set_read d_stopped]. split; [split; cbn; auto|auto].
    + cbn. destruct (d_write (cli s)) eqn:W; cbn.
      * split; [split; cbn; [auto|]|auto]. intros X. destruct (Q2 X) as (_ & Y & _). congruence.
      * split; [split; cbn; intros X|auto]; [destruct (Q1 X)|destruct (Q2 X)]; intuition congruence.
    + destruct (d_stopped (cli s)) eqn:A; [split; [exact (proj1 SAME)|split; cbn; auto]|]. split; [|split; [cbn; auto|reflexivity]]. split; cbn; auto. intros X. destruct (Q1 X) as (_ & _ & C). auto.
  - assert (D : (o = SStop \/ o = CStop) \/ stopped (fst (step o s)) = false) by (destruct o; auto; right; apply step_live; auto; discriminate).
    pose proof S0 as S1. apply orb_false_iff in S1 as [A B]. destruct D as [D|D]; [|split; [apply quiet_live; exact D|split; congruence]]. destruct D as [-> | ->]; cbn [step]; rewrite ?A, ?B; cbn [fst]; (split; [split; cbn; auto; congruence|split; congruence]).
Qed.
Lemma reach_quiet : forall e0 h, quiet (fst (run (init e0) h)).
Proof. intros e0. induction h as [|o h IH] using rev_ind; [apply quiet_live; reflexivity|]. rewrite run_snoc. apply step_quiet. exact IH. Qed.
Lemma stop_stays : forall e0 h h', (d_stopped (srv (fst (run (init e0) h))) = true -> d_stopped (srv (fst (run (init e0) (h ++ h')))) = true) /\ (d_stopped (cli (fst (run (init e0) h))) = true -> d_stopped (cli (fst (run (init e0) (h ++ h')))) = true).
Proof.
  intros e0 h. induction h' as [|o h' IH] using rev_ind; [rewrite app_nil_r; auto|]. rewrite app_assoc, run_snoc. cbn [fst]. destruct IH as [I1 I2]. destruct (step_quiet o _ (reach_quiet e0 (h ++ h'))) as (_ & A & B). auto.
Qed.
Lemma stopped_after : forall e0 h1 h2, d_stopped (srv (fst (run (init e0) (h1 ++ SStop :: h2)))) = true /\ d_stopped (cli (fst (run (init e0) (h1 ++ CStop :: h2)))) = true.
Proof.
  intros e0 h1 h2. split.
  - change (SStop :: h2) with ([SStop] ++ h2). rewrite app_assoc. apply stop_stays. rewrite run_snoc. cbn [fst step]. destruct (d_stopped (srv (fst (run (init e0) h1)))) eqn:E; [exact E|reflexivity].
  - change (CStop :: h2) with ([CStop] ++ h2). rewrite app_assoc. apply stop_stays. rewrite run_snoc. cbn [fst step]. destruct (d_stopped (cli (fst (run (init e0) h1)))) eqn:E; [exact E|reflexivity].
Qed.
Lemma completions_app : forall e a b, completions e (a ++ b) = completions e a + completions e b.
Proof. intros e a b. unfold completions, outs. rewrite flat_map_app. apply count_app. Qed.
Lemma completions_prefix : forall e0 h h' e, completions e (snd (run (init e0) h)) <= completions e (snd (run (init e0) (h ++ h'))).
Proof. intros. rewrite run_app. cbn [snd]. rewrite completions_app. lia. Qed.
(** An operation which is not held any more is completed. *)
Lemma gone_done : forall e0 h o e, lawful e0 h -> closes_once e0 h \/ (forall e', o <> CClose e') -> In o h -> event1 o = Some e -> ~ holds o (fst (run (init e0) h)) -> completions e (snd (run (init e0) h)) = 1.
Proof.
  intros e0 h o e L C I E N. pose proof (reach_tally e0 h e) as T. pose proof (occ_nodup e _ L) as O. destruct (Nat.eq_dec (completions e (snd (run (init e0) h))) 0) as [Z|Z]; [|lia]. destruct N. apply (waits_holds e0 h o L); [destruct C; auto|]. destruct (in_run h (init e0) o I) as [l J]. exists e, l. auto.
Qed.
Lemma open_done : forall e0 h, lawful e0 h -> d_open (cli (fst (run (init e0) h))) = None -> completions e0 (snd (run (init e0) h)) = 1.
Proof.
  intros e0 h L O. assert (N : ~ In (CClose e0) h) by (intros X; apply (lawful_open _ _ _ L X eq_refl)). pose proof (tally_eq e0 h e0 L (or_intror N)) as T. assert (OC : occ e0 (e0 :: begun h) = 1) by (pose proof (occ_nodup e0 _ L); pose proof (occ_in e0 (e0 :: begun h) (or_introl eq_refl)); lia).
  destruct (Nat.eq_dec (held e0 (fst (run (init e0) h))) 0) as [Z|Z]; [lia|exfalso]. pose proof (reach_kinds e0 h) as K. rewrite <- ho_le in Z. rewrite O, (k_so _ _ _ K) in Z. change (ho e0 None) with 0 in Z.
  assert (X : forall o, In o h -> event1 o = Some e0 -> False) by (intros o J E; apply (lawful_open _ _ _ L J E)).
  assert (P : forall x, x <> Some e0 -> ho e0 x = 0) by (intros [x|] H; [cbn; destruct (e0 =? x) eqn:Q; [apply Nat.eqb_eq in Q; congruence|reflexivity]|reflexivity]). set (s := fst (run (init e0) h)) in *.
  rewrite !P in Z; [lia|..]; intros H.
  - apply (X (CClose e0)); [apply (k_cc _ _ _ K); exact H|reflexivity].
  - apply (X (SClose e0)); [apply (k_sc _ _ _ K); exact H|reflexivity].
  - destruct (d_write (cli s)) as [w|] eqn:W; inversion H. destruct (k_cw _ _ _ K w W) as [n J]. eapply X; [exact J|cbn; congruence].
  - destruct (d_write (srv s)) as [w|] eqn:W; inversion H. destruct (k_sw _ _ _ K w W) as [n J]. eapply X; [exact J|cbn; congruence].
  - destruct (d_read (cli s)) as [w|] eqn:W; inversion H. destruct (k_cr _ _ _ K w W) as [n J]. eapply X; [exact J|cbn; congruence].
  - destruct (d_read (srv s)) as [w|] eqn:W; inversion H. destruct (k_sr _ _ _ K w W) as [n J]. eapply X; [exact J|cbn; congruence].
Qed.
Lemma in_split_run : forall e0 h1 o h2, exists l, In (o, l) (snd (run (init e0) (h1 ++ o :: h2))) /\ l = snd (step o (fst (run (init e0) h1))).
Proof.
  intros e0 h1 o h2. change (o :: h2) with ([o] ++ h2). rewrite app_assoc, run_app, run_snoc. cbn [fst snd]. eexists. split; [|reflexivity]. rewrite !in_app_iff. left. right. left. reflexivity.
Qed.
(** An operation of the device which is called after a stop is answered at once. *)
Lemma stopped_answers : forall e s, d_stopped (srv s) || d_stopped (cli s) = true -> snd (step (SClose e) s) = [Complete e StoppedEc].
Proof. intros e s H. cbn [step]. rewrite H. reflexivity. Qed.
Lemma done_step : forall e0 h1 o h2 e c, In (Complete e c) (snd (step o (fst (run (init e0) h1)))) -> 1 <= completions e (snd (run (init e0) (h1 ++ o :: h2))).
Proof. intros e0 h1 o h2 e c I. destruct (in_split_run e0 h1 o h2) as (l & J & ->). apply (outs_in e c). unfold outs. apply in_flat_map. eexists. split; [exact J|exact I]. Qed.
Lemma closed_by_server : forall e0 h, lawful e0 h -> d_closed (srv (fst (run (init e0) h))) = true -> has_closed Server (snd (run (init e0) h)).
Proof.
  intros e0. induction h as [|o h IH] using rev_ind; intros L; [discriminate|]. pose proof (lawful_app _ _ _ L) as L1. rewrite run_snoc. cbn [fst snd]. set (s := fst (run (init e0) h)) in *. intros C.
  assert (D : d_closed (srv s) = true \/ (exists e, o = SClose e /\ refused o (snd (step o s)) = false)).
  { destruct o as [a|all a n|a b|a| |all a n|a b|a|]; cbn [step] in C.
    - left. destruct (_ || _); [exact C|]. destruct (d_open (srv s)); exact C.
    - left. destruct (_ || _); [exact C|]. destruct (d_read (srv s)); [exact C|]. destruct (_ && _); [exact C|]. match goal with _ : context [do_write ?x] |- _ => pose proof (do_write_cli x) as (_ & T1 & T2); destruct (do_write x) as [s' l] end. cbn [fst] in *. rewrite T1 in C. exact C.
    - left. destruct (_ || _); [exact C|]. destruct (d_write (srv s)); [exact C|]. destruct (d_closed (srv s)) eqn:CC; [reflexivity|]. match goal with _ : context [do_read ?x] |- _ => pose proof (do_read_srv x) as (_ & T1 & T2) end. rewrite T1 in C. cbn in C. congruence.
    - destruct (refused (SClose a) (snd (step (SClose a) s))) eqn:R; [|right; exists a; auto]. left. pose proof (refused_same (SClose a) s) as X. rewrite <- X; [|intros e E; eapply event_fresh; eauto|exact R]. exact C.
    - left. destruct (d_stopped (srv s)); exact C.
    - left. destruct (d_read (cli s)); [exact C|]. destruct (d_closed (srv s)) eqn:CC; [reflexivity|]. match goal with _ : context [do_read ?x] |- _ => pose proof (do_read_srv x) as (_ & T1 & T2); destruct (do_read x) as [s' l] end. cbn [fst] in *. rewrite T1 in C. cbn in C. congruence.
    - left. destruct (_ || _); [exact C|]. destruct (d_closed (cli s)) eqn:CC; [exact C|]. destruct (d_write (cli s)); [exact C|]. match goal with _ : context [do_write ?x] |- _ => pose proof (do_write_cli x) as (_ & T1 & T2) end. rewrite T1 in C. exact C.
    - left. cbn in C. destruct (d_write (cli s)); exact C.
    - left. destruct (d_stopped (cli s)); exact C. }
  destruct D as [D|(e & -> & R)].
  - destruct (IH L1 D) as (e & l & I & R). exists e, l. split; [apply in_app_iff; auto|exact R].
  - exists e, (snd (step (SClose e) s)). split; [apply in_app_iff; right; left; reflexivity|exact R].
Qed.
(** A close waits for the write of its side, which has closed. *)
Definition cwait1 (d : side) : Prop := d_close d <> None -> d_closed d = true /\ d_write d <> None.
Definition cwait (s : vstream) : Prop := cwait1 (srv s) /\ cwait1 (cli s).
Lemma do_write_cwait : forall s, cwait s -> cwait (fst (do_write s)).
Proof.
  intros s [A B]. unfold do_write. destruct (d_read (srv s)) as [r|]; [|split; auto]. destruct (d_write (cli s)) as [w|] eqn:W; [|split; auto].
  destruct (r_left r <? length (w_rest w)); [split; cbn; [exact A|]; unfold cwait1 in *; cbn; intros X; destruct (B X); split; congruence|].
  destruct (_ && _); unfold resolve_write; cbn; destruct (d_closed (cli s)) eqn:C; cbn; try destruct (r_all r); (split; [exact A|]); unfold cwait1 in *; cbn; rewrite ?C; try congruence; intros X; destruct (B X); congruence.
Qed.
Lemma do_read_cwait : forall s, cwait s -> cwait (fst (do_read s)).
Proof.
  intros s [A B]. unfold do_read. destruct (d_read (cli s)) as [r|]; [|split; auto]. destruct (d_write (srv s)) as [w|] eqn:W; [|split; auto].
  destruct (r_left r <? length (w_rest w)); [split; cbn; [|exact B]; unfold cwait1 in *; cbn; intros X; destruct (A X); split; congruence|].
  destruct (_ && _); cbn; destruct (d_closed (srv s)) eqn:C; cbn; (split; [|exact B]); unfold cwait1 in *; cbn; rewrite ?C; try congruence; intros X; destruct (A X); congruence.
Qed.
Lemma step_cwait : forall o s, cwait s -> o <> SStop -> o <> CStop -> cwait (fst (step o s)).
Proof.
  intros o s H N1 N2. destruct o as [a|all a n|a b|a| |all a n|a b|a|]; cbn [step]; try congruence.
  - destruct (_ || _); [exact H|]. destruct (d_open (srv s)); exact H.
  - destruct (_ || _); [exact H|]. destruct (d_read (srv s)); [exact H|]. destruct (_ && _); [exact H|]. match goal with |- context [do_write ?x] => pose proof (do_write_cwait x) as T; destruct (do_write x) as [s' l] end. apply T. exact H.
  - destruct (_ || _); [exact H|]. destruct (d_write (srv s)) eqn:W; [exact H|]. destruct (d_closed (srv s)) eqn:CC; [exact H|]. apply do_read_cwait. destruct H as [A B]. split; [|exact B]. unfold cwait1 in *. cbn. intros X. destruct (A X). congruence.
  - destruct (_ || _); [exact H|]. destruct (d_close (srv s)) eqn:E; [exact H|]. destruct H as [A B]. cbn. destruct (d_write (srv s)) eqn:W; (split; [|exact B]); unfold cwait1; cbn; [split; congruence|congruence].
  - destruct (d_read (cli s)); [exact H|]. destruct (d_closed (srv s)) eqn:CC; [exact H|]. match goal with |- context [do_read ?x] => pose proof (do_read_cwait x) as T; destruct (do_read x) as [s' l] end. apply T. exact H.
  - destruct (_ || _); [exact H|]. destruct (d_closed (cli s)) eqn:CC; [exact H|]. destruct (d_write (cli s)) eqn:W; [exact H|]. apply do_write_cwait. destruct H as [A B]. split; [exact A|]. unfold cwait1 in *. cbn. intros X. destruct (B X). congruence.
  - destruct H as [A B]. cbn. destruct (d_write (cli s)) eqn:W; (split; [exact A|]); unfold cwait1 in *; cbn; [split; congruence|intros X; destruct (B X); congruence].
Qed.
Lemma reach_cwait : forall e0 h, live h -> cwait (fst (run (init e0) h)).
Proof.
  intros e0. induction h as [|o h IH] using rev_ind; intros [A B]; [split; cbn; unfold cwait1; cbn; congruence|]. rewrite run_snoc. cbn [fst]. apply step_cwait; [apply IH; split; intros X; [apply A|apply B]; apply in_app_iff; auto|intros ->; apply A; apply in_app_iff; right; left; reflexivity|intros ->; apply B; apply in_app_iff; right; left; reflexivity].
Qed.
Lemma closes_need_write : forall e0 h, live h -> d_close (srv (fst (run (init e0) h))) = None \/ d_write (srv (fst (run (init e0) h))) <> None.
Proof. intros e0 h LV. destruct (reach_cwait e0 h LV) as [A _]. destruct (d_close (srv (fst (run (init e0) h)))) eqn:E; [right; apply A; congruence|auto]. Qed.
Lemma close_closed : forall e0 h e, live h -> d_close (cli (fst (run (init e0) h))) = Some e -> d_closed (cli (fst (run (init e0) h))) = true.
Proof. intros e0 h e LV E. destruct (reach_cwait e0 h LV) as [_ B]. apply B. congruence. Qed.
Lemma step_unstopped : forall o s, d_stopped (cli s) = false -> o <> CStop -> d_stopped (cli (fst (step o s))) = false.
Proof.
  intros o s A N.
  assert (DW : forall x, d_stopped (cli (fst (do_write x))) = d_stopped (cli x)) by (intros x; unfold do_write, resolve_write; destruct (d_read (srv x)); [|reflexivity]; destruct (d_write (cli x)); [|reflexivity]; destruct (_ <? _); [reflexivity|]; destruct (_ && _); cbn; destruct (d_closed (cli x)); cbn; try destruct (r_all r); reflexivity).
  assert (DR : forall x, d_stopped (cli (fst (do_read x))) = d_stopped (cli x)) by (intros x; unfold do_read; destruct (d_read (cli x)); [|reflexivity]; destruct (d_write (srv x)); [|reflexivity]; destruct (_ <? _) eqn:?; [|destruct (_ && _)]; cbn; try destruct (d_closed (srv x)); reflexivity).
  destruct o as [a|all a n|a b|a| |all a n|a b|a|]; cbn [step]; try congruence.
  - destruct (_ || _); [exact A|]. destruct (d_open (srv s)); exact A.
  - destruct (_ || _); [exact A|]. destruct (d_read (srv s)); [exact A|]. destruct (_ && _); [exact A|]. match goal with |- context [do_write ?x] => pose proof (DW x) as T; destruct (do_write x) as [s' l] end. cbn [fst] in *. rewrite T. exact A.
  - destruct (_ || _); [exact A|]. destruct (d_write (srv s)); [exact A|]. destruct (d_closed (srv s)); [exact A|]. rewrite DR. exact A.
  - destruct (_ || _); [exact A|]. destruct (d_close (srv s)); [exact A|]. cbn. destruct (d_write (srv s)); exact A.
  - destruct (d_stopped (srv s)); exact A.
  - destruct (d_read (cli s)); [exact A|]. destruct (d_closed (srv s)); [exact A|]. match goal with |- context [do_read ?x] => pose proof (DR x) as T; destruct (do_read x) as [s' l] end. cbn [fst] in *. rewrite T. exact A.
  - destruct (_ || _); [exact A|]. destruct (d_closed (cli s)); [exact A|]. destruct (d_write (cli s)); [exact A|]. rewrite DW. exact A.
  - cbn. destruct (d_write (cli s)); exact A.
Qed.
Lemma never_stopped : forall e0 h, ~ In CStop h -> d_stopped (cli (fst (run (init e0) h))) = false.
Proof.
  intros e0. induction h as [|o h IH] using rev_ind; intros N; [reflexivity|]. rewrite run_snoc. cbn [fst]. apply step_unstopped; [apply IH; intros X; apply N; apply in_app_iff; auto|intros ->; apply N; apply in_app_iff; right; left; reflexivity].
Qed.
