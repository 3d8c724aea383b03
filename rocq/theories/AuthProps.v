(** Property C34: authorization requests. *)
From Coq Require Import List Bool Arith Lia.
From Verif Require Import ListenerModel AuthModel AuthSpec AuthProofs.
Import ListNotations.

(** No memory which has been released is used, and no callback which was not set is called, as long as the listener
    is not used after it is freed. *)
Theorem C34_safe : forall h, obeys init [] h -> run init h <> None.
Proof. intros h O. destruct (run_inv h _ _ tinv_init O) as (s & t & R & _). rewrite R. discriminate. Qed.
Print Assumptions C34_safe.

(** The platform is told the first decision, in the event loop, about a request it checked, and never again. *)
Theorem C34_one_verdict : forall h s t p o l q r v, obeys init [] h -> run init h = Some (s, t) -> t = p ++ (o, l) :: q ->
  In (Told r v) l ->
  o = RunVerdict r /\ decision (view_of r p) = Some v /\ checked (view_of r p) = true /\
  (forall o' l' v', In (o', l') (p ++ q) -> ~ In (Told r v') l') /\
  (forall v', In (Told r v') l -> v' = v).
Proof.
  intros h s t p o l q r v O R E T. destruct (at_step _ _ _ _ _ _ _ O R E) as (s1 & s2 & I & A & S & _).
  destruct (told_by _ _ _ _ _ _ _ I A S T) as (T1 & T2 & T3 & T4). repeat split; auto.
  - intros o' l' v' X T'. apply in_app_iff in X. destruct X as [X|X].
    + apply in_split in X. destruct X as (a & b & ->). rewrite (told_over r v' a b l' o' T') in T3. discriminate.
    + apply in_split in X. destruct X as (a & b & ->).
      assert (E' : t = (p ++ (o, l) :: a) ++ (o', l') :: b) by (rewrite E, <- app_assoc; reflexivity).
      destruct (at_step _ _ _ _ _ _ _ O R E') as (s3 & s4 & I' & A' & S' & _).
      destruct (told_by _ _ _ _ _ _ _ I' A' S' T') as (_ & _ & U & _). rewrite (told_over r v p a l o T) in U. discriminate.
  - intros v' T'. destruct (told_by _ _ _ _ _ _ _ I A S T') as (_ & U & _). congruence.
Qed.
Print Assumptions C34_one_verdict.

(** Access is allowed only if the application, which had been given the request and had neither freed it nor given
    any verdict about it before, said so. *)
Theorem C34_allow_only : forall h s t p o l q r, obeys init [] h -> run init h = Some (s, t) -> t = p ++ (o, l) :: q ->
  In (Told r true) l ->
  exists p1 l1 p2, p = p1 ++ (Verdict r true, l1) :: p2 /\
    (forall v l', ~ In (Verdict r v, l') p1) /\ (forall l', ~ In (FreeReq r, l') p1) /\
    (exists o' l' pl, In (o', l') p1 /\ In (L (Write pl r)) l').
Proof.
  intros h s t p o l q r O R E T. destruct (C34_one_verdict _ _ _ _ _ _ _ _ _ O R E T) as (_ & D & _).
  destruct (dec_from _ _ _ D) as (p1 & [o1 l1] & p2 & P & N & X). cbn [fst snd] in X.
  assert (K : o1 = Verdict r true).
  { destruct o1; cbn in X; unfold is in X;
      try (destruct (given_up r l1); discriminate).
    - destruct (Nat.eqb r0 r); [destruct (taken r l1); discriminate|discriminate].
    - destruct (Nat.eqb r0 r) eqn:Q; [|discriminate]. apply Nat.eqb_eq in Q. subst. injection X as ->. reflexivity.
    - destruct (Nat.eqb r0 r); discriminate. }
  subst o1. exists p1, l1, p2. split; [exact P|]. split; [|split].
  - intros v l' Y. apply in_split in Y. destruct Y as (a & b & ->). apply no_dec in N. destruct N as [_ N]. cbn in N.
    unfold is in N. rewrite Nat.eqb_refl in N. discriminate.
  - intros l' Y. apply in_split in Y. destruct Y as (a & b & ->). apply no_dec in N. destruct N as [_ N]. cbn in N.
    unfold is in N. rewrite Nat.eqb_refl in N. discriminate.
  - assert (E' : t = p1 ++ (Verdict r true, l1) :: (p2 ++ (o, l) :: q)) by (rewrite E, P, <- app_assoc; reflexivity).
    destruct (at_step _ _ _ _ _ _ _ O R E') as (s3 & s4 & I' & A' & S' & _). apply held_from. exact A'.
Qed.
Print Assumptions C34_allow_only.

(** What becomes of a request which was checked and has not been answered: either it is decided and the event loop
    tells it when it runs the event, or the application has it, or it waits in a listener which is not stopped; stopping
    the listener denies it. *)
Theorem C34_everyone_told : forall h s t r, obeys init [] h -> run init h = Some (s, t) ->
  checked (view_of r t) = true -> over (view_of r t) = false ->
  (exists d s' l, decision (view_of r t) = Some d /\ step s (RunVerdict r) = Some (s', Told r d :: l)) \/
  (decision (view_of r t) = None /\ held (view_of r t) = true) \/
  (decision (view_of r t) = None /\ exists ls, a_listener s = Some ls /\ l_ec ls = ok /\ In r (l_events ls) /\
    (listener_freed t = false ->
     exists s' l, step s StopListener = Some (s', l) /\ decision (view_of r (t ++ [(StopListener, l)])) = Some false)).
Proof.
  intros h s t r O R C V. pose proof (at_end _ _ _ O R) as I. pose proof (i_reqs _ _ _ I r) as Q.
  destruct (a_reqs s r) as [v|] eqn:E; [|destruct Q as [Q _]; rewrite Q in C; discriminate].
  destruct Q as [M1 C1 D1 V1 P1 R1 F1 X1 X2 X3 X4]. destruct (decision (view_of r t)) as [d|] eqn:D.
  - left. exists d. cbn [step]. unfold run_verdict, handle_verdict. rewrite E, P1, V. cbn [some negb andb].
    unfold get. rewrite req_same. cbn [q_freed]. rewrite F1, R1, V. cbn [negb b2n Nat.add Nat.eqb]. cbn [q_checked]. rewrite C1, C.
    unfold ref_dec, get. rewrite req_same. cbn [q_freed]. cbn [q_ref q_verdict]. rewrite ?(V1 d eq_refl), ?F1, ?R1, ?V.
    cbn [negb b2n Nat.add Nat.eqb]. eexists _, _. split; reflexivity.
  - right. destruct (X3 C eq_refl) as [_ [H|H]]; [left; auto|right]. split; [reflexivity|].
    unfold inq, queue in H. pose proof (i_lis _ _ _ I) as LI. destruct (a_listener s) as [ls|] eqn:LS; [|discriminate].
    exists ls. split; [reflexivity|]. apply existsb_exists in H. destruct H as (y & Y & Z). apply Nat.eqb_eq in Z. subst y.
    destruct LI as (L1 & L2 & L3).
    assert (EC : l_ec ls = ok). { destruct (Nat.eq_dec (l_ec ls) ok) as [e|n]; auto. destruct (L3 n) as [L4 _]. rewrite L4 in Y. destruct Y. }
    split; [exact EC|]. split; [exact Y|]. intros LF.
    destruct (tstep s t StopListener I LF) as (s' & l & S & I'). exists s', l. split; [exact S|].
    rewrite view_snoc. cbn [look decision]. rewrite D. cbn [decide].
    cbn [step] in S. destruct (a_gone s); [discriminate|]. rewrite LS in S.
    unfold stop, set_error_code in S. rewrite L1 in S. cbn [negb] in S. rewrite EC in S. cbn [Nat.eqb ok] in S.
    unfold listen, resolve_error_state in S. cbn in S. rewrite (proj1 (L2 EC)) in S.
    match type of S with match ?c with _ => _ end = _ => destruct c end; [|discriminate]. injection S as _ <-.
    replace (given_up r _) with true; [reflexivity|]. symmetry. apply existsb_exists. exists (L (Released r stopped)).
    split; [|apply Nat.eqb_refl]. apply in_map. apply in_app_iff. left. apply in_map_iff. exists r. auto.
Qed.
Print Assumptions C34_everyone_told.

(** The memory of a request is released when the platform has discarded it or been told and the application does not
    have it, and once. *)
Theorem C34_memory : forall h s t r, obeys init [] h -> run init h = Some (s, t) ->
  freed r (flat_map snd t) = if made (view_of r t) && over (view_of r t) && negb (held (view_of r t)) then 1 else 0.
Proof.
  intros h s t r O R. pose proof (at_end _ _ _ O R) as I. pose proof (run_freed _ _ _ _ r R) as F.
  cbn [isfreed init a_reqs b2n] in F. rewrite Nat.add_0_r in F. rewrite F. unfold isfreed.
  pose proof (i_reqs _ _ _ I r) as Q. destruct (a_reqs s r) as [v|].
  - destruct Q as [M1 C1 D1 V1 P1 R1 F1 X1 X2 X3 X4]. rewrite F1, R1, M1.
    destruct (over (view_of r t)), (held (view_of r t)); reflexivity.
  - destruct Q as [Q _]. rewrite Q. reflexivity.
Qed.
Print Assumptions C34_memory.

(** An application which stops its listener, frees it and then has a client which needs access: the platform uses the
    listener which is not there any more. There is no way to give the device another listener either. *)
Theorem C34_stale_listener_refuted : exists h s t,
  run init h = Some (s, t) /\ obeys init [] h /\ step s (Check 1) = None /\
  (exists s' , step s InitListener = Some (s', [InUse])).
Proof.
  eexists [InitListener; StopListener; FreeListener; Create 1], _, _.
  split; [vm_compute; reflexivity|]. split; [vm_compute; intuition discriminate|]. split; [vm_compute; reflexivity|].
  eexists. vm_compute. reflexivity.
Qed.
Print Assumptions C34_stale_listener_refuted.

Definition ex_history : list op :=
  [Create 0; Check 0; RunVerdict 0; InitListener; Create 1; Create 2; Create 3; Create 4; Check 1; Check 2; Ask 10 100; Discard 4;
   Verdict 1 true; Verdict 1 false; Ask 11 101; FreeReq 1; RunVerdict 1; FreeReq 2; RunVerdict 2; Check 3; StopListener; RunVerdict 3].
Example C34_ex : obeys init [] ex_history /\ exists s t, run init ex_history = Some (s, t) /\
  flat_map (fun x => filter (fun o => match o with L _ => false | _ => true end) (snd x)) t =
  [Told 0 false; Freed 0; Freed 4; Told 1 true; Freed 1; Told 2 false; Freed 2; Told 3 false; Freed 3].
Proof.
  split; [vm_compute; intuition discriminate|]. eexists _, _. split; vm_compute; reflexivity.
Qed.
