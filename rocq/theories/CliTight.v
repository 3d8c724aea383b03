From Coq Require Import List Bool Arith Lia.
From Verif Require Import CliModel CliSpec CliProofs CliMore.
Import ListNotations.

Ltac open_all := unfold handle_packet, send_callback, async_close, async_send, start_send_deferred, do_one, ended, destroy, free, told, push1 in *; cbn in *.
Lemma cancel_ok : forall tok q, ~ In (Completed tok Ok) (map (fun t => Completed t ConnectionClosing) q).
Proof. intros tok q H. apply in_map_iff in H as (? & H & _). discriminate. Qed.
(** What completes with OK is on its way. *)
Lemma step_sent : forall e o s tok, In (Completed tok Ok) (snd (step e o s)) -> (x_wr e = WrOk -> x_out e = [] /\ x_record e = Some Taken) -> In (Wire (Some tok)) (snd (step e o s)).
Proof.
  intros e o s tok. destruct s as [[ph bu q po re de]|]; [|intros []]. destruct o; cbn [step]; open_all.
  5: { destruct po; [|intros []]. cbn. destruct bu; [destruct ph; intros []|]. destruct q as [|x q].
    - cases; cbn; tauto.
    - destruct (x_wr e) eqn:W.
      + intros C H. destruct (H eq_refl) as [X Y]. rewrite X, Y in *. cbn in *. destruct ph; cbn in *; repeat (destruct C as [C|C]; try discriminate); try tauto; injection C as ->; auto.
      + cases; cbn; rewrite ?in_app_iff; cbn; intuition discriminate.
      + cases; cbn; rewrite ?in_app_iff; cbn; intuition discriminate. }
  all: cases; cbn; rewrite ?in_app_iff; cbn; rewrite ?in_app_iff; cbn; intros C _; repeat (destruct C as [C|C]; try discriminate); first [destruct C | exfalso; eapply cancel_ok; exact C].
Qed.
