From Coq Require Import List Bool Arith Lia.
From Verif Require Import CliModel CliSpec CliProofs.
Import ListNotations.

Lemma no_cancel : forall q x, In x (cancel q) -> exists t, x = Completed t ConnectionClosing.
Proof. intros q x H. apply in_map_iff in H. destruct H as (t & <- & _). eauto. Qed.
Ltac uncancel := repeat match goal with H : context [map (fun t : nat => Completed t ConnectionClosing) ?q] |- _ => change (map (fun t : nat => Completed t ConnectionClosing) q) with (cancel q) in H end.
(** An event of a connection which the owner has destroyed comes only when a packet completes which was on its way. *)
Lemma stale_sent : forall h e o, In Stale (snd (step e o (fst (run init h)))) -> o = Sent /\ existsb ends (snd (run init h)) = true /\ flying (snd (run init h)) = true.
Proof.
  intros h e o H. pose proof (reach_inv h) as I. destruct (fst (run init h)) as [c|]; [|destruct H]. pose proof (i_gone _ _ I) as G. pose proof (i_ends _ _ I) as E. pose proof (i_fly _ _ I) as F. clear I.
  destruct c as [ph bu q po re de]. cbn [d_destroyed d_phase d_buf] in *. destruct de.
  - destruct (G eq_refl) as [-> ->]. destruct o; cbn in H; try (destruct H; fail); auto. destruct po; destruct H.
  - exfalso. clear G E F. revert H. destruct o; cbn [step fst snd]; unfold handle_packet, send_callback, async_close, async_send, start_send_deferred, do_one, ended, destroy, free, told, push1; cbn; cases; intros H; uncancel.
    all: repeat (cbn in H; rewrite ?in_app_iff in H; match type of H with _ \/ _ => destruct H as [H|H] | In _ (cancel _) => apply no_cancel in H; destruct H; discriminate | False => destruct H | _ = _ => discriminate H end).
Qed.

(** The next completion reports the end of a connection which is being closed, and frees one which is destroyed. *)
Lemma sent_frees : forall e c, d_phase c = Closing -> d_buf c = true -> In Freed (snd (step e Sent (Some c))) /\ (d_destroyed c = false -> In (Ended Closed) (snd (step e Sent (Some c)))).
Proof.
  intros e [ph bu q po re de]. cbn. intros -> ->. destruct de; cbn.
  - split; [|discriminate]. right. apply in_app_iff. right. left. reflexivity.
  - split; [right; apply in_app_iff; right; left; reflexivity|left; reflexivity].
Qed.
Lemma closing_flies : forall h, no_eof h -> match fst (run init h) with Some c => d_phase c = Closing -> d_buf c = true | None => True end.
Proof.
  intros h. induction h as [|[o e] h IH] using rev_ind; intros N; [cbn; discriminate|]. apply Forall_app in N. destruct N as [N1 N2]. inversion N2 as [|? ? N3 _]; subst. specialize (IH N1). cbn [snd] in N3. rewrite run_snoc. cbn [fst snd].
  pose proof (reach_inv h) as I. destruct (fst (run init h)) as [c|]; [|exact Logic.I]. pose proof (i_gone _ _ I) as G. pose proof (i_recv _ _ I) as R. clear I. destruct c as [ph bu q po re de]. cbn [d_destroyed d_phase d_buf d_receiving] in *. subst re.
  destruct o; cbn [step fst snd]; unfold handle_packet, send_callback, async_close, async_send, start_send_deferred, do_one, ended, destroy, free, told, push1; cbn; cases; subst; rewrite ?andb_false_r, ?andb_true_r in *; try congruence; auto; try discriminate; intros X; try discriminate; repeat match goal with H : negb _ = false |- _ => apply negb_false_iff in H end; auto; try congruence; try solve [destruct (G eq_refl); congruence].
Qed.

(** Draining. *)
Definition fine : env := {| x_out := []; x_record := Some Taken; x_hs := HsAgain; x_rd := RdAgain; x_wr := WrOk |}.
Definition round : list move := [(Sent, fine); (Wake, fine)].
Fixpoint rounds (n : nat) : list move := match n with O => [] | S n => round ++ rounds n end.
Definition moving (s : state) : Prop := exists c, s = Some c /\ d_phase c = Established /\ d_destroyed c = false /\ (d_queue c <> [] -> d_buf c = true \/ d_posted c = true).
Definition waits (s : state) : nat := match s with Some c => length (d_queue c) | None => 0 end.
Lemma one_round : forall s, moving s -> moving (fst (run s round)) /\ waits (fst (run s round)) = pred (waits s).
Proof.
  intros s ([ph bu q po re de] & -> & P & D & M). cbn in P, D, M. subst. destruct q as [|x q].
  - destruct bu, po; (split; [eexists; split; [reflexivity|]; cbn; repeat split; auto; congruence|reflexivity]).
  - destruct bu, po; try (destruct (M ltac:(discriminate)); discriminate); (split; [eexists; split; [reflexivity|]; cbn; repeat split; auto|reflexivity]).
Qed.
Lemma drain : forall n s, moving s -> waits s <= n -> waits (fst (run s (rounds n))) = 0.
Proof.
  induction n as [|n IH]; intros s M W; cbn [rounds]; [cbn; lia|]. rewrite run_app. cbn [fst]. destruct (one_round s M) as (M1 & W1). apply IH; auto. lia.
Qed.
Lemma accepted_rounds : forall n s, accepted (snd (run s (rounds n))) = [].
Proof.
  induction n as [|n IH]; intros s; cbn [rounds]; [reflexivity|]. rewrite run_app. cbn [snd]. unfold accepted in *. rewrite flat_map_app, IH, app_nil_r. unfold round. cbn [run]. destruct (step _ _ s) as [s1 l1]. destruct (step _ _ s1) as [s2 l2]. reflexivity.
Qed.
(** Without an end of file a connection which is being closed has ended or was closed by its owner. *)
Lemma open_closing : forall h, no_eof h -> match fst (run init h) with Some c => d_phase c = Closing -> existsb ends (snd (run init h)) = true \/ existsb closes (snd (run init h)) = true | None => True end.
Proof.
  intros h. induction h as [|[o e] h IH] using rev_ind; intros N; [cbn; discriminate|]. pose proof (reach_inv (h ++ [(o, e)])) as J. apply Forall_app in N. destruct N as [N1 N2]. inversion N2 as [|? ? N3 _]; subst. specialize (IH N1). cbn [snd] in N3. rewrite run_snoc in *. cbn [fst snd] in *.
  pose proof (i_ends _ _ J) as D. pose proof (reach_inv h) as I. pose proof (i_recv _ _ I) as R. clear I J. destruct (fst (run init h)) as [c|]; [|exact Logic.I].
  destruct (fst (step e o (Some c))) as [c1|] eqn:S; [|exact Logic.I]. intros P. rewrite !existsb_snoc in *. destruct (d_destroyed c1) eqn:DE; [left; congruence|].
  assert (X : d_phase c = Closing \/ o = Close).
  { clear D IH. destruct c as [ph bu q po re de]. cbn in R. subst re. destruct o; [| | | | | |auto|]; left; revert S; cbn [step fst snd]; unfold handle_packet, send_callback, async_close, async_send, start_send_deferred, do_one, ended, destroy, free, told, push1; cbn; cases; intros S; try discriminate S; try (injection S as <-; cbn in *; try congruence; auto); try congruence. }
  destruct X as [X| ->]; [destruct (IH X) as [->| ->]; auto|]. right. cbn. apply orb_true_r.
Qed.
(** Nothing is on its way when the connection is freed. *)
Lemma freed_idle : forall h, fst (run init h) = None -> flying (snd (run init h)) = false.
Proof.
  induction h as [|[o e] h IH] using rev_ind; [discriminate|]. rewrite run_snoc. cbn [fst snd]. rewrite flying_snoc. pose proof (reach_inv h) as I. pose proof (i_recv _ _ I) as R. pose proof (i_fly _ _ I) as F. pose proof (i_gone _ _ I) as G. clear I. destruct (fst (run init h)) as [c|]; [|cbn; rewrite (IH eq_refl); auto].
  rewrite F. clear F IH. destruct c as [ph bu q po re de]. cbn in R, G. subst re. cbn [d_buf].
  assert (CW : forall l, existsb is_wire (map (fun t : nat => Completed t ConnectionClosing) l) = false) by (induction l; cbn; auto).
  destruct o; cbn [step fst snd is_sent]; unfold handle_packet, send_callback, async_close, async_send, start_send_deferred, do_one, ended, destroy, free, told, push1; cbn; cases; intros S; try discriminate S; try congruence; rewrite ?existsb_app, ?CW, ?andb_false_r; cbn; rewrite ?existsb_app, ?CW; cbn; auto; try solve [destruct bu; cbn in *; congruence]; try solve [destruct (G eq_refl); congruence].
Qed.
