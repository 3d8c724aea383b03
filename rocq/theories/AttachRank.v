(** Proofs for the property C40: what the attacher waits for leads to the next try. *)
From Coq Require Import List Bool Arith Lia.
From Verif Require Import AttachModel AttachSpec AttachProofs AttachMore AttachLive.
Import ListNotations.

Definition of_state (p : phase) : nat := match p with Dns => 2 | RetryWait | DeniedWait => 1 | _ => 4 end.
Definition of_hand (d : option nat) (h : bool) : nat := match d, h with Some _, false => 8 | _, _ => 0 end.
Definition of_req {A} (n : nat) (r : option A) : nat := match r with Some _ => n | None => 0 end.
Definition rank (s : st) (w : world) : nat :=
  2 * p_dns s + length (p_queue s) + of_state (p_state s) + of_hand (p_dtls s) (w_hand w) +
  of_req 3 (p_start s) + of_req 2 (p_sct s) + of_req 1 (p_end s).
Definition trying (s : st) : Prop := p_mod s = Running /\ p_state s <> Attached.
Lemma step_rank : forall e o s w, inv s w -> known s w o -> e_dns e = true -> e_create e = true -> queue_ok s -> trying s ->
  environment (o, e) = true -> reacts o s = true ->
  existsb tries (snd (step e o s)) = true \/
  trying (fst (step e o s)) /\ rank (fst (step e o s)) (see w ((o, e), snd (step e o s))) < rank s w.
Proof.
  intros e o s w I K E1 E2 Q [M A] EN R. unfold trying, rank, see. cbn [fst snd].
  destruct o; try discriminate; cbn [reacts] in R; open_step; rewrite ?E1, ?E2, ?M in *; split_step; try (left; reflexivity); try congruence.
  all: right; cbn [fold_left look hear w_hand w_live p_dtls]; rewrite ?app_length; cbn [length].
  all: cbn in K.
  all: try solve [split; [split; [assumption || reflexivity|assumption || discriminate]|]; lia].
  all: try solve [split; [split; [assumption || reflexivity|assumption || discriminate]|];
     repeat match goal with H : ?f ?x = _ |- _ => lazymatch f with
       | p_dtls => rewrite H in * | p_start => rewrite H in * | p_sct => rewrite H in * | p_end => rewrite H in * end; clear H end;
     cbn [of_state of_hand of_req] in *; try lia; destruct (w_hand w); cbn [of_state of_hand of_req] in *; lia].
  (* what is known of the state *)
  all: try solve [rewrite Heql in K; destruct K as (K1 & _); rewrite K1; split; [split; [reflexivity|discriminate]|cbn [of_state]; lia]].
  all: try solve [exfalso; unfold queue_ok in Q; rewrite M, Heql in Q; destruct (p_state s); ands; try discriminate; congruence].
  all: try solve [exfalso; destruct K as (K1 & K2 & K3 & K4 & K5); intuition congruence].
  all: try solve [destruct K as (K1 & K2 & K3 & K4 & K5); destruct (K5 eq_refl) as [K6 K7]; rewrite K1, K7 in *; split; [split; [assumption || reflexivity|assumption || discriminate]|];
    cbn [of_hand of_req] in *; try lia; match goal with |- context [of_req 3 (p_start ?x)] => destruct (p_start x); cbn [of_req]; try discriminate; lia end].
  all: try solve [destruct (K ltac:(discriminate)) as (c & K1 & K2 & K3 & K4); rewrite K3; split; [split; [reflexivity|discriminate]|cbn [of_state of_req]; lia]].
  all: try solve [exfalso; destruct (K eq_refl) as (c & b0 & l0 & K1 & K2 & K3 & K4 & K5); destruct b0; congruence].
  all: exfalso; apply A; apply K; first [reflexivity|assumption].
Qed.

(** In a bounded number of reactions there is a try, unless the application interferes. *)
Lemma idle_step : forall e o s w, environment (o, e) = true -> known s w o -> reacts o s = false ->
  step e o s = (s, []) /\ see w ((o, e), []) = hear w o.
Proof.
  intros e o s w E K R. split; [|reflexivity].
  destruct o; try discriminate; cbn in *; try (destruct (p_dns s); [reflexivity|discriminate]); try (destruct (p_queue s); [reflexivity|discriminate]);
    try (destruct (p_start s); [discriminate|reflexivity]); try (destruct (p_sct s); [discriminate|reflexivity]); try (destruct (p_end s); [discriminate|reflexivity]);
    rewrite R; reflexivity.
Qed.
Lemma idle_rank : forall o s w, reacts o s = false -> rank s (hear w o) = rank s w.
Proof. intros o s w R. unfold rank. destruct o; try reflexivity. destruct e; try reflexivity; discriminate. Qed.
Lemma bounded_reactions : forall h s w, inv s w -> obeys s w h -> queue_ok s -> trying s ->
  forallb environment h = true -> forallb memory h = true -> rank s w < reactions s h ->
  existsb tries (outs (snd (run s h))) = true.
Proof.
  induction h as [|[o e] h IH]; intros s w I O Q T E M R; [cbn in R; lia|].
  cbn in E, M. apply andb_prop in E. apply andb_prop in M. destruct E as [E1 E2], M as [M1 M2].
  unfold memory in M1. apply andb_prop in M1. destruct M1 as [M1 M3]. cbn in M1, M3.
  destruct O as [O1 O2]. pose proof (what_is_known s w o I O1) as K.
  pose proof (step_inv e o s w I O1) as I1. pose proof (step_queue e o s w I K M1 M3 Q) as Q1.
  cbn [reactions] in R. destruct (reacts o s) eqn:RE.
  - destruct (step_rank e o s w I K M1 M3 Q T E1 RE) as [X|[T1 L]].
    + cbn [run]. destruct (step e o s) as [s1 l]. destruct (run s1 h) as [s2 t]. unfold outs. cbn in *. rewrite existsb_app, X. reflexivity.
    + cbn [run]. destruct (step e o s) as [s1 l]. cbn [fst snd] in *. specialize (IH s1 _ I1 O2 Q1 T1 E2 M2 ltac:(lia)).
      destruct (run s1 h) as [s2 t]. unfold outs in *. cbn in *. rewrite existsb_app, IH. apply orb_true_r.
  - destruct (idle_step e o s w E1 K RE) as [X Y]. cbn [run]. rewrite X in *. cbn [fst snd] in *. rewrite Y in *.
    specialize (IH s _ I1 O2 Q1 T E2 M2). rewrite idle_rank in IH by auto. specialize (IH ltac:(lia)).
    destruct (run s h) as [s2 t]. unfold outs in *. cbn in *. exact IH.
Qed.

(** ** Something is always outstanding *)
Lemma trying_outstanding : forall s w, inv s w -> queue_ok s -> trying s -> outstanding s w.
Proof.
  intros s w (B & P & S) Q [M A]. unfold outstanding. unfold phase_ok in P. unfold queue_ok in Q. rewrite M in *.
  assert (L : w_live w = p_dtls s) by apply B.
  destruct (p_state s) eqn:PS; try congruence; ands.
  - destruct (p_dns s); [|left; lia]. right. left. intros X. rewrite X in *. unfold dns_events in *. cbn in *. lia.
  - destruct (p_dtls s) as [c|] eqn:D; [|congruence]. right. right. right. exists c. split; auto.
    destruct (S c eq_refl) as (_ & _ & _ & _ & _ & X). destruct (X eq_refl) as [X1|[X1|[X1|[X1|X1]]]]; auto.
    right. right. right. right. pose proof (v_sct _ _ _ _ _ _ B) as V. rewrite X1 in V. destruct (w_up w) as [[x l]|]; [|discriminate].
    injection V as <-. eauto.
  - right. right. left. assumption.
  - right. right. left. assumption.
  - destruct (p_dtls s) as [c|] eqn:D; [|congruence]. right. right. right. exists c. split; auto.
  - congruence.
Qed.
Lemma can_react : forall s w, inv s w -> outstanding s w -> exists o, allowed w o /\ environment (o, good) = true /\ reacts o s = true.
Proof.
  intros s w I [H|[H|[H|(c & H1 & H2)]]].
  - exists (Resolved true). cbn. destruct (p_dns s); [lia|auto].
  - exists Run. cbn. destruct (p_queue s); [congruence|auto].
  - exists Timer. cbn. auto.
  - exists (Dtls c DtlsClosed). cbn. repeat split; auto. discriminate.
Qed.
Lemma next_try : forall n s w, rank s w <= n -> inv s w -> queue_ok s -> trying s ->
  exists h, forallb environment h = true /\ obeys s w h /\ existsb tries (outs (snd (run s h))) = true.
Proof.
  induction n as [|n IH]; intros s w R I Q T;
    destruct (can_react s w I (trying_outstanding s w I Q T)) as (o & O1 & E1 & RE);
    pose proof (what_is_known s w o I O1) as K;
    destruct (step_rank good o s w I K eq_refl eq_refl Q T E1 RE) as [X|[T1 L]]; try lia.
  1, 2: exists [(o, good)]; cbn [forallb obeys run]; rewrite E1; destruct (step good o s) as [s1 l]; cbn in *; rewrite app_nil_r; auto.
  destruct (IH _ _ ltac:(apply Nat.lt_succ_r; eapply Nat.lt_le_trans; [exact L|exact R]) (step_inv good o s w I O1) (step_queue good o s w I K eq_refl eq_refl Q) T1) as (h & H1 & H2 & H3).
  exists ((o, good) :: h). cbn [forallb obeys run]. rewrite E1. destruct (step good o s) as [s1 l]. cbn [fst snd] in *. destruct (run s1 h) as [s2 t].
  repeat split; auto. unfold outs in *. cbn in *. rewrite existsb_app, H3. apply orb_true_r.
Qed.
