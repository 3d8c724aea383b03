From Coq Require Import List Bool Arith Lia.
From Verif Require Import SrvModel SrvSpec SrvProofs.
Import ListNotations.

(** Orderly ends. *)
Record tidy (s : state) (t : trace) : Prop := {
  j_outs : ~ In Crash (outs t) /\ ~ In Stale (outs t);
  j_gone : match s with Some c => d_destroyed c = true -> d_phase c = Closing /\ d_buf c = true | None => True end }.
Lemma orderly_before : forall t x, orderly (t ++ [x]) -> orderly t.
Proof. intros t x O t1 y t2 -> E. apply (O t1 y (t2 ++ [x])); [|exact E]. rewrite <- app_assoc. reflexivity. Qed.
Lemma no_cancel : forall q x, In x (cancel q) -> exists t, x = Completed t ConnectionClosing.
Proof. intros q x H. apply in_map_iff in H. destruct H as (t & <- & _). eauto. Qed.
Lemma step_tidy : forall (m : move) s t, inv s t -> tidy s t -> orderly (t ++ [(m, snd (step (snd m) (fst m) s))]) -> tidy (fst (step (snd m) (fst m) s)) (t ++ [(m, snd (step (snd m) (fst m) s))]).
Proof.
  intros [o e] s t I [J1 J2] O. pose proof (step_inv (o, e) s t I) as I'. specialize (O t _ [] eq_refl). cbn [fst snd] in *. destruct s as [c|].
  2: { constructor; [cbn [step snd]; rewrite outs_snoc, app_nil_r; exact J1|exact Logic.I]. }
  destruct I as [I1 I2 I3 I4 I5 I6 I7 I8 I9 I10 I11]. pose proof (i_fly _ _ I') as F. clear I'. destruct c as [ph bu q po re de cl]. cbn in *. subst re.
  destruct de; [destruct (J2 eq_refl) as [-> ->]|].
  - constructor; [|destruct o; cbn in *; auto; [destruct po; cbn; auto]].
    rewrite outs_snoc. destruct o; cbn; rewrite ?app_nil_r; auto.
    + destruct po; cbn; rewrite app_nil_r; auto.
    + fold (cancel q). rewrite !in_app_iff. cbn. split; intros [H|[H|[H|[]]]]; try tauto; try discriminate; apply no_cancel in H; destruct H as [? H]; discriminate.
  - clear J2.
    assert (K : ends (o, e, snd (step e o (Some {| d_phase := ph; d_buf := bu; d_queue := q; d_posted := po; d_receiving := false; d_destroyed := false; d_close := cl |}))) = true ->
       is_sent (o, e) = false /\ (flying (t ++ [(o, e, snd (step e o (Some {| d_phase := ph; d_buf := bu; d_queue := q; d_posted := po; d_receiving := false; d_destroyed := false; d_close := cl |})))]) = false \/ ph = Closing)).
    { intros X. destruct (O X) as [Y [Z|Z]]; [auto|]. split; [exact Y|]. right. destruct ph; auto; specialize (I10 ltac:(discriminate) Z); discriminate. }
    clear O. destruct o; cbn [step fst snd] in *; unfold handle_packet, send_callback, async_close, async_send, start_send_deferred, is_closed, do_one, ended, destroy, free, told, push1 in *; cbn in *.
    all: revert K F; cases; intros K F; try discriminate; subst; rewrite ?andb_false_r in *; try discriminate.
    all: constructor; [|try solve [exact Logic.I | cbn; try discriminate; intros _; cbn in *; try (split; [|exact eq_refl]); try (destruct (K eq_refl) as [K1 [K2|K2]]; auto; congruence); auto]].
    all: try rewrite outs_snoc, !in_app_iff; cbn; repeat match goal with |- context [map (fun t : nat => Completed t ConnectionClosing) ?q] => change (map (fun t : nat => Completed t ConnectionClosing) q) with (cancel q) end;
      rewrite ?in_app_iff; cbn; rewrite ?in_app_iff; cbn; try solve [intuition discriminate];
      try solve [split; intros X; repeat (destruct X as [X|X]; try tauto; try discriminate); apply no_cancel in X; destruct X as [? X]; discriminate].
    all: intros _; rewrite ?andb_true_r in *; repeat match goal with H : negb _ = false |- _ => apply negb_false_iff in H end; destruct (K eq_refl) as [K0 KZ];
      first [discriminate K0 | destruct KZ as [Z|Z]; [pose proof (eq_trans (eq_sym F) Z) as Y; first [discriminate Y | congruence] | first [discriminate Z | split; [exact Z | congruence]]]].
Qed.
Theorem reach_tidy : forall h, orderly (snd (run init h)) -> tidy (fst (run init h)) (snd (run init h)).
Proof.
  intros h. induction h as [|m h IH] using rev_ind; intros O.
  - constructor; cbn; [tauto|discriminate].
  - rewrite run_snoc in *. cbn [fst snd] in *. apply step_tidy; [apply reach_inv| |exact O]. apply IH. eapply orderly_before. exact O.
Qed.
(** The next completion frees a closed connection. *)
Lemma sent_frees : forall e c, d_destroyed c = true -> d_phase c = Closing -> d_buf c = true -> In Freed (snd (step e Sent (Some c))).
Proof.
  intros e [ph bu q po re de cl]. cbn. intros -> -> ->. cbn. apply in_app_iff. right. left. reflexivity.
Qed.

(** A connection which is destroyed in any other way while a packet is on its way is never freed. *)
Definition lost (s : state) : Prop := exists c, s = Some c /\ d_destroyed c = true /\ d_receiving c = false /\ d_phase c <> Closing.
Lemma step_lost : forall e o s, lost s -> lost (fst (step e o s)) /\ ~ In Freed (snd (step e o s)).
Proof.
  intros e o s ([ph bu q po re de cl] & -> & D & R & P). cbn in D, R, P. subst.
  destruct o; cbn [step fst snd]; unfold handle_packet, send_callback, async_close, async_send, start_send_deferred, is_closed, do_one, ended, destroy, free, told, push1; cbn in *; cases; try discriminate; try congruence; subst.
  all: split; [eexists; split; [reflexivity|]; cbn; repeat split; auto; discriminate|rewrite ?in_app_iff; cbn; rewrite ?in_app_iff; cbn; intuition discriminate].
Qed.
Lemma run_lost : forall h s, lost s -> lost (fst (run s h)) /\ ~ In Freed (outs (snd (run s h))).
Proof.
  induction h as [|m h IH]; intros s L; cbn [run]; [auto|]. destruct (step_lost (snd m) (fst m) s L) as [L1 F1]. destruct (step (snd m) (fst m) s) as [s1 l]. cbn [fst snd] in *. specialize (IH s1 L1).
  destruct (run s1 h) as [s2 t]. cbn [fst snd] in *. split; [apply IH|]. unfold outs in *. cbn [flat_map snd]. rewrite in_app_iff. tauto.
Qed.

(** Draining. *)
Definition fine : env := {| x_out := []; x_record := Some Taken; x_hs := HsAgain; x_rd := RdAgain; x_wr := WrOk |}.
Definition round : list move := [(Sent, fine); (Wake, fine)].
Fixpoint rounds (n : nat) : list move := match n with O => [] | S n => round ++ rounds n end.
Definition moving (s : state) : Prop := match s with Some c => d_queue c <> [] -> d_buf c = true \/ d_posted c = true | None => True end.
Definition waits (s : state) : nat := match s with Some c => length (d_queue c) | None => 0 end.
Lemma one_round : forall s, moving s -> match s with Some c => d_receiving c = false | None => True end -> moving (fst (run s round)) /\ waits (fst (run s round)) <= pred (waits s) /\ match fst (run s round) with Some c => d_receiving c = false | None => True end.
Proof.
  intros [[ph bu q po re de cl]|] M R; [|cbn; auto]. cbn in R. subst re. unfold moving in *. cbn in M. destruct q as [|x q].
  - destruct bu, ph, de, po; cbn; auto; repeat split; auto; try congruence; destruct cl; cbn; auto; congruence.
  - destruct bu, po; try (destruct (M ltac:(discriminate)); discriminate); destruct ph, de; cbn; auto; repeat split; auto; lia.
Qed.
Lemma drain : forall n s, moving s -> match s with Some c => d_receiving c = false | None => True end -> waits s <= n -> waits (fst (run s (rounds n))) = 0.
Proof.
  induction n as [|n IH]; intros s M R W; cbn [rounds]; [cbn; lia|]. rewrite run_app. cbn [fst]. destruct (one_round s M R) as (M1 & W1 & R1). apply IH; auto. lia.
Qed.
Lemma accepted_rounds : forall n s, accepted (snd (run s (rounds n))) = [].
Proof.
  induction n as [|n IH]; intros s; cbn [rounds]; [reflexivity|]. rewrite run_app. cbn [snd]. unfold accepted in *. rewrite flat_map_app, IH, app_nil_r. unfold round. cbn [run]. destruct (step _ _ s) as [s1 l1]. destruct (step _ _ s1) as [s2 l2]. reflexivity.
Qed.


Lemma closing_closes : forall h, match fst (run init h) with Some c => d_phase c = Closing -> existsb closes (snd (run init h)) = true | None => True end.
Proof.
  intros h. induction h as [|m h IH] using rev_ind; [cbn; discriminate|]. rewrite run_snoc. cbn [fst snd]. rewrite existsb_snoc. destruct (fst (run init h)) as [[ph bu q po re de cl]|]; [|exact Logic.I]. destruct m as [o e]. cbn in IH.
  destruct o; cbn [step fst snd]; unfold handle_packet, send_callback, async_close, async_send, start_send_deferred, is_closed, do_one, ended, destroy, free, told, push1; cbn; cases; subst; try discriminate; rewrite ?orb_true_r; auto; intros X; try discriminate; rewrite IH by auto; reflexivity.
Qed.
