(** * Proofs for the mDNS server (C96), continued *)
From Coq Require Import List Arith NArith Bool Lia.
From Verif Require Import MdnsModel MdnsSpec MdnsProofs.
Import ListNotations.

Lemma lone_step : forall s o, Lone (i4 s) -> Lone (i6 s) ->
  (state s = New -> s = init) ->
  (state s = Running -> outstanding s V4 <= 1 /\ outstanding s V6 <= 1) ->
  Lone (i4 (fst (step s o))) /\ Lone (i6 (fst (step s o))).
Proof.
  intros s o H4 H6 HN HR.
  assert (Hc : state s = New \/ state s <> New) by (destruct (state s); auto; right; discriminate).
  destruct Hc as [Hc|Hc].
  { rewrite (HN Hc). unfold Lone. destruct o; try destruct f; cbn; repeat split; intros; auto; discriminate. }
  destruct s as [x pp nn [a1 a2 a3 a4] [b1 b2 b3 b4] c ph q].
  unfold Lone, outstanding in *. cbn in *.
  destruct x; [congruence| | |].
  - specialize (HR eq_refl). clear Hc HN H4 H6. destruct HR as (H4 & H6).
    destruct a1, a2 as [[]|], a3; cbn in H4; try lia;
    destruct b1, b2 as [[]|], b3; cbn in H6; try lia; clear;
    destruct o; try destruct f; open_step; cases; cbn in *; repeat split; intros; auto; discriminate.
  - clear HR HN Hc. destruct o; try destruct f; open_step; cases; cbn in *; intuition (try congruence).
  - clear HR HN Hc. destruct o; try destruct f; open_step; cases; cbn in *; intuition (try congruence).
Qed.

Lemma busy_step : forall s o l, Busy s l -> (state s = New -> s = init) ->
  (state s = Running -> inst_closed s = None /\ byeing (i4 s) = false /\ byeing (i6 s) = false) -> Busy (fst (step s o)) (l ++ [o]).
Proof.
  intros s o l H HN HY Hs f. rewrite broken_snoc.
  assert (Hc : state s = New \/ state s = Running).
  { revert Hs. destruct s as [x pp nn a b c ph q]. cbn. destruct x; auto;
    destruct o; try destruct f0; open_step; cases; cbn in *; auto; discriminate. }
  destruct Hc as [Hc|Hc].
  { rewrite (HN Hc) in *. left. revert Hs. destruct o; try destruct f0; cbn; try discriminate.
    intros _. destruct f; reflexivity. }
  assert (HB := H Hc f). destruct (HY Hc) as (HY0 & HY4 & HY6). clear H HN HY. revert Hs HB HY4 HY6.
  destruct s as [x pp nn [a1 a2 a3 a4] [b1 b2 b3 b4] c ph q]. cbn in Hc, HY0. subst x q.
  unfold outstanding, byeing. generalize (broken f l) as br. clear l. intros br.
  destruct o as [p n| |g e v|g e mem r v|g e|d v|v|]; try destruct g; destruct f; cbn;
    try discriminate.
  all: try (intros Hs HB _ _; rewrite orb_false_r; exact HB).
  all: open_step.
  all: destruct br.
  all: try (cases; cbn in *; intros Hs HB HY4 HY6; try discriminate; try lia; destruct HB as [HB|[HB HX]]; try lia; try discriminate; auto).
Qed.
