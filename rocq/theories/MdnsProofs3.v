(** * Proofs for the mDNS server (C96), end *)
From Coq Require Import List Arith NArith Bool Lia.
From Verif Require Import MdnsModel MdnsSpec MdnsProofs MdnsProofs2.
Import ListNotations.

Lemma byes_step : forall s o x, Byes s x -> Closing s -> (state s = New -> s = init) ->
  (state s = Running -> closing s = None) ->
  Byes (fst (step s o)) (x ++ snd (step s o)).
Proof.
  intros s o x H HC HN HR.
  assert (Hc : state s = New \/ state s <> New) by (destruct (state s); auto; right; discriminate).
  destruct Hc as [Hc|Hc].
  { rewrite (HN Hc) in *. revert H. unfold Byes. destruct o; try destruct f; cbn; rewrite ?app_nil_r; try tauto;
    rewrite ?count_app; cbn; try lia; intros; repeat split; intros; lia. }
  clear HN. destruct s as [y pp nn [a1 a2 a3 a4] [b1 b2 b3 b4] c ph q].
  unfold Byes, Closing, byeing in *. cbn in *.
  destruct y; [congruence| | |].
  - specialize (HR eq_refl). subst c. destruct HC as (-> & HC). clear Hc HC.
    destruct o; try destruct f; open_step; cases; cbn in *; rewrite ?app_nil_r, ?count_app; cbn; try tauto; try lia;
    repeat split; intros; try lia; try congruence.
  - clear HR Hc. destruct c as [d|]; [destruct q as [z|]|destruct HC as (-> & _)]; destruct ph;
    destruct o; try destruct f; open_step; cases; cbn in *; rewrite ?app_nil_r, ?count_app; cbn; try tauto; try lia;
    try (destruct HC; discriminate);
    destruct H as (Ha & Hb & Hd); try (assert (Hd' := Hd ltac:(discriminate) eq_refl)); repeat split; intros; try lia; try congruence.
  - clear HR Hc. destruct c as [d|]; [destruct q as [z|]|destruct HC as (-> & _)]; destruct ph;
    destruct o; try destruct f; open_step; cases; cbn in *; rewrite ?app_nil_r, ?count_app; cbn; try tauto; try lia;
    try (destruct HC; discriminate);
    destruct H as (Ha & Hb & Hd); try (assert (Hd' := Hd ltac:(discriminate) eq_refl)); repeat split; intros; try lia; try congruence.
Qed.

Definition owed (s : st) (c : nat) : nat :=
  match closing s with Some d => if d =? c then 1 else 0 | None => 0 end.
Definition asks (o : op) (c : nat) : nat :=
  match o with Close d _ => if d =? c then 1 else 0 | _ => 0 end.

Lemma ans_step : forall s o c, 
  owed s c + asks o c = answered c (snd (step s o)) + owed (fst (step s o)) c.
Proof.
  intros [y pp nn i j d ph q] o c. unfold owed, answered, asks. cbn [closing].
  destruct o; try destruct f; open_step; cases; cbn in *; unfold count; cbn;
  repeat (match goal with |- context [if ?x then _ else _] => destruct x; cbn end); try reflexivity; try lia; try congruence.
Qed.

Lemma inv_step : forall l s x o, Inv l s x -> Inv (l ++ [o]) (fst (step s o)) (x ++ snd (step s o)).
Proof.
  intros l s x o [Hw Hc H4 H6 Hb Hu Ha].
  assert (HN : state s = New -> s = init).
  { intros HN. destruct (wish_of l) as [|p n|p n|[[p n]|]]; cbn in Hw; try tauto; destruct Hw as (Hw & _); congruence. }
  assert (HR : state s = Running -> closing s = None).
  { intros HR. destruct (wish_of l) as [|p n|p n|[[p n]|]]; cbn in Hw; try (destruct Hw as (Hw & _); congruence); try tauto.
    subst s. reflexivity. }
  assert (HY : state s = Running -> inst_closed s = None /\ byeing (i4 s) = false /\ byeing (i6 s) = false).
  { intros H. unfold Closing in Hc. rewrite (HR H) in Hc. exact Hc. }
  assert (HL := lone_step s o H4 H6 HN).
  assert (HO : state s = Running -> outstanding s V4 <= 1 /\ outstanding s V6 <= 1).
  { intros H. split; [destruct (Hu H V4) as [E|[E _]]|destruct (Hu H V6) as [E|[E _]]]; rewrite E; auto. }
  destruct (HL HO) as (HL4 & HL6).
  constructor; auto.
  - rewrite wish_snoc. apply follows_step; auto.
  - apply closing_step; auto.
  - apply byes_step; auto.
  - apply busy_step; auto.
  - intros c. rewrite asked_snoc. unfold answered. rewrite count_app. fold (answered c x).
    assert (E := ans_step s o c). assert (E2 := Ha c). unfold owed, asks, answered in *. lia.
Qed.

Theorem inv_run : forall l, Inv l (fst (run l)) (snd (run l)).
Proof.
  induction l as [|o l IH] using rev_ind; [exact inv_init|].
  rewrite run_snoc. destruct (run l) as [s x]. cbn [fst snd] in IH.
  assert (H := inv_step l s x o IH). destruct (step s o) as [s1 y]. exact H.
Qed.
