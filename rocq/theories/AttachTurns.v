(** Proofs for the property C38. *)
From Coq Require Import List Bool Arith Lia.
From Verif Require Import AttachModel AttachSpec AttachProofs AttachMore.
Import ListNotations.

(** ** Attached and detached *)
Lemma turns_app : forall a b x, turns x (a ++ b) <-> turns x a /\ turns (is_attached x a) b.
Proof.
  induction a as [|y a IH]; intros b x; [cbn; tauto|]. destruct y as [| | | | | | | |[| | |]| | |]; cbn; try apply IH; rewrite IH; tauto.
Qed.
Lemma is_attached_app : forall a b x, is_attached x (a ++ b) = is_attached (is_attached x a) b.
Proof. induction a as [|y a IH]; intros b x; [reflexivity|]. destruct y as [| | | | | | | |[| | |]| | |]; cbn; apply IH. Qed.
Definition attached (s : st) : bool := match p_state s with Attached => true | _ => false end.
Lemma step_turns : forall e o s w, known s w o ->
  turns (attached s) (own (snd (step e o s))) /\ attached (fst (step e o s)) = is_attached (attached s) (own (snd (step e o s))).
Proof.
  intros e o s w K. unfold attached.
  destruct o; open_step; split_step; cbn [own turns is_attached fst snd]; red_step; try solve [auto].
  all: cbn in K.
  all: try match goal with H : p_queue ?s0 = _ |- _ => rewrite H in K end.
  all: try solve [intuition congruence].
  all: try solve [destruct (K eq_refl) as (c & K1 & K2 & K3 & K4); congruence].
  all: try solve [destruct (K ltac:(discriminate)) as (c & K1 & K2 & K3 & K4); congruence].
Qed.
Lemma step_believes : forall e o s w b, known s w o -> (b = true -> attached s = true) ->
  is_attached b (snd (step e o s)) = true -> attached (fst (step e o s)) = true.
Proof.
  intros e o s w b K B H. destruct (step_turns e o s w K) as [T1 T2]. rewrite T2. clear T1 T2.
  assert (G : forall l x y, (y = true -> x = true) -> is_attached y l = true -> is_attached x (own l) = true).
  { assert (G' : forall n l x y, length l <= n -> (y = true -> x = true) -> is_attached y l = true -> is_attached x (own l) = true).
    { induction n as [|n IH]; intros l x y L XY A; [destruct l; [cbn in *; auto|cbn in L; lia]|].
      destruct l as [|o1 l]; [cbn in *; auto|]. cbn in L.
      destruct o1 as [t|c|c|c|c|c|c l1|n1|n1|k|c|]; try (cbn in *; eapply IH; [|exact XY|exact A]; lia).
      - destruct n1; cbn in *; try (eapply IH; [|exact XY|exact A]; lia); (eapply IH; [| |exact A]; [lia|auto]).
      - destruct k; [cbn in *; eapply IH; [|exact XY|exact A]; lia|].
        destruct l as [|o2 l]; [cbn in *; auto|]. cbn in L.
        destruct o2 as [t|c|c|c|c|c|c l1|n2|n2|k2|c|]; try (cbn in *; eapply IH; [|exact XY|exact A]; lia).
        + destruct n2; (cbn in *; eapply IH; [| |exact A]; [lia|first [exact XY|intros Z; discriminate Z|auto]]).
        + cbn in A. change (is_attached x (ClosedCb Disable :: own (ClosedCb k2 :: l)) = true). cbn [is_attached].
          eapply IH; [|exact XY|]; [cbn; lia|exact A]. }
    intros l x y. apply (G' (length l)). lia. }
  eapply G; eauto.
Qed.
Lemma step_cb : forall e o s, p_cb s <> Some Disable -> disables (o, e) = false ->
  p_cb (fst (step e o s)) <> Some Disable /\ own (snd (step e o s)) = snd (step e o s).
Proof.
  intros e o s N D. destruct o; try solve [open_step; split_step; split; auto; congruence].
  destruct k; [|discriminate]. open_step; split_step; split; auto; discriminate.
Qed.
