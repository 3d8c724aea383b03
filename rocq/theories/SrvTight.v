From Coq Require Import List Bool Arith Lia.
From Verif Require Import SrvModel SrvSpec SrvProofs SrvMore.
Import ListNotations.

Ltac open_all := unfold handle_packet, send_callback, async_close, async_send, start_send_deferred, is_closed, do_one, ended, destroy, free, told, push1 in *; cbn in *.
(** Only the end of a connection cancels sends. *)
Lemma step_cancel : forall e o c tok, In (Completed tok ConnectionClosing) (snd (step e o (Some c))) -> match o with Close _ | Wake | SendData _ => False | _ => True end.
Proof.
  intros e o [ph bu q po re de cl] tok. destruct o; try (intros; exact I); cbn [step]; open_all.
  - cases; cbn; intuition discriminate.
  - cases; cbn; rewrite ?in_app_iff; cbn; intuition (try discriminate); destruct (x_wr e); discriminate.
  - cases; subst; cbn in *; rewrite ?in_app_iff; cbn; intuition discriminate.
Qed.
(** What completes with OK is on its way. *)
Lemma cancel_ok : forall tok q, ~ In (Completed tok Ok) (cancel q).
Proof. intros tok q H. apply no_cancel in H as [? H]. discriminate. Qed.
Lemma step_sent : forall e o s tok, In (Completed tok Ok) (snd (step e o s)) -> (x_wr e = WrOk -> x_out e = [] /\ x_record e = Some Taken) -> In (Wire (Some tok)) (snd (step e o s)).
Proof.
  intros e o s tok. destruct s as [[ph bu q po re de cl]|]; [|intros []]. destruct o; cbn [step]; open_all.
  all: repeat match goal with |- context [map (fun t : nat => Completed t ConnectionClosing) ?q] => change (map (fun t : nat => Completed t ConnectionClosing) q) with (cancel q) end.
  4: { destruct po; [|intros []]. cbn. destruct bu; [intros []|]. destruct q as [|x q].
    - cases; cbn; try tauto; repeat match goal with |- context [map (fun t : nat => Completed t ConnectionClosing) ?q] => change (map (fun t : nat => Completed t ConnectionClosing) q) with (cancel q) end; rewrite ?in_app_iff; cbn; intuition (try discriminate); exfalso; eapply cancel_ok; eauto.
    - destruct (x_wr e) eqn:W.
      + intros C H. destruct (H eq_refl) as [X Y]. rewrite X, Y in *. cbn in *. destruct C as [C|[C|[]]]; [discriminate|]. injection C as ->. auto.
      + cases; cbn; rewrite ?in_app_iff; cbn; intuition discriminate.
      + cases; cbn; rewrite ?in_app_iff; cbn; intuition discriminate. }
  all: cases; cbn; repeat match goal with |- context [map (fun t : nat => Completed t ConnectionClosing) ?q] => change (map (fun t : nat => Completed t ConnectionClosing) q) with (cancel q) end; rewrite ?in_app_iff; cbn; rewrite ?in_app_iff; cbn; intros C _; repeat (destruct C as [C|C]; try discriminate); first [destruct C | exfalso; eapply cancel_ok; exact C].
Qed.
(** Nothing is freed while a packet is on its way. *)
Lemma free_idle : forall h, fst (run init h) = None -> flying (snd (run init h)) = false.
Proof.
  induction h as [|m h IH] using rev_ind; [discriminate|]. rewrite run_snoc. cbn [fst snd]. rewrite flying_snoc. pose proof (reach_inv h) as J. pose proof (i_fly _ _ J) as F. pose proof (i_recv _ _ J) as R. destruct m as [o e]. cbn [fst snd].
  destruct (fst (run init h)) as [[ph bu q po re de cl]|]; [|intros _; rewrite IH by reflexivity; reflexivity]. cbn in F, R. subst re. rewrite F. clear. unfold is_sent. destruct o; cbn [step fst]; open_all.
  all: cases; intros X; try discriminate; cbn in *; subst; rewrite ?andb_false_r, ?andb_true_r, ?orb_false_r in *; try discriminate; cbn; repeat match goal with |- context [map (fun t : nat => Completed t ConnectionClosing) ?q] => change (map (fun t : nat => Completed t ConnectionClosing) q) with (cancel q) end; rewrite ?existsb_app, ?cancel_exists by (intros; reflexivity); cbn; auto; apply negb_true_iff; auto.
Qed.
Lemma reach_down : forall h, In Freed (outs (snd (run init h))) -> existsb ends (snd (run init h)) = true /\ flying (snd (run init h)) = false.
Proof.
  intros h F. pose proof (reach_inv h) as J. pose proof (i_ends _ _ J) as D. pose proof (i_freed _ _ J) as C. pose proof (free_idle h) as L. destruct (fst (run init h)) as [c|]; [|auto]. exfalso. unfold count in C. destruct (filter is_freed _) eqn:E; [|discriminate]. assert (X : In Freed []) by (rewrite <- E; apply filter_In; auto). destruct X.
Qed.
