(** The attacher: closing, retries and tokens over histories. *)
From Coq Require Import List Arith Lia Bool.
From Verif Require Import AttachModel AttachSpec AttachProofs AttachMore AttachTurns AttachClose AttachLive AttachRank AttachTokens AttachFinal.
Import ListNotations.

Definition resolves (l : list out) : nat := length (filter (fun y => match y with Resolve _ => true | _ => false end) l).
Lemma step_busy : forall e o s, p_dns (fst (step e o s)) = match o with Resolved _ => pred (p_dns s) | _ => p_dns s end + resolves (snd (step e o s)).
Proof.
  intros e o s. unfold resolves. destruct o; open_step; split_step; cbn; try lia.
Qed.
Lemma is_busy : forall h, p_dns (fst (run init h)) = busy (snd (run init h)).
Proof.
  intros h. induction h as [|[o e] h IH] using rev_ind; [reflexivity|].
  rewrite run_app. destruct (run init h) as [s t]. cbn [fst snd run] in *. pose proof (step_busy e o s) as S. destruct (step e o s) as [s1 l].
  cbn [fst snd] in *. unfold busy. rewrite fold_left_app. rewrite IH in S. exact S.
Qed.

Lemma step_queue_close : forall e o s, closes (o, e) = false -> p_mod s <> Stopped -> p_state s <> Closed -> ~ In QClose (p_queue s) ->
  p_mod (fst (step e o s)) <> Stopped /\ p_state (fst (step e o s)) <> Closed /\ ~ In QClose (p_queue (fst (step e o s))).
Proof.
  intros e o s C M S Q. destruct o; try discriminate; open_step; split_step; cbn; try solve [repeat split; try assumption; try discriminate; congruence].
  all: try match goal with H : p_queue _ = _ |- _ => rewrite H in * end.
  all: repeat split; try assumption; try discriminate; try congruence; rewrite ?in_app_iff; cbn; intuition (try discriminate; auto).
  all: try solve [apply Q; cbn; auto].
Qed.

Definition close_ok (s : st) : Prop := In QClose (p_queue s) -> p_mod s = Setup \/ p_state s = Closed.
Lemma step_close_ok : forall e o s w, inv s w -> known s w o -> begins (o, e) = false -> close_ok s -> close_ok (fst (step e o s)).
Proof.
  intros e o s w I K B Q. unfold close_ok in *.
  assert (N : p_mod s = Running -> In QClose (p_queue s) -> False).
  { intros M X. destruct (Q X) as [Y|Y]; [congruence|]. destruct I as (_ & P & _). unfold phase_ok in P. rewrite M, Y in P. intuition discriminate. }
  destruct o; try discriminate; open_step; split_step; try assumption; rewrite ?in_app_iff; cbn; auto.
  all: try match goal with H : p_queue _ = _ |- _ => rewrite H in * end.
  all: try solve [auto; intuition discriminate].
  all: try solve [cbn in *; intuition (try congruence; try discriminate)].
  all: intros X; exfalso; apply N; auto; cbn in X |- *; intuition discriminate.
Qed.
Lemma cb_step : forall e o s k, In (ClosedCb k) (snd (step e o s)) -> o = Run /\ (exists q, p_queue s = QClose :: q) /\
  p_state (fst (step e o s)) = p_state s /\ p_mod (fst (step e o s)) = p_mod s.
Proof.
  intros e o s k. destruct o; open_step; split_step; cbn; intuition (try discriminate; eauto).
Qed.
