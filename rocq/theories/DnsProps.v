(** Properties of resolving hostnames (C55). *)
From Coq Require Import List Bool Arith Lia.
From Verif Require Import DnsModel DnsSpec DnsProofs.
Import ListNotations.

Lemma alive P l s o : run P init l = (s, o) -> ~ In Crash o -> dead s = false.
Proof. intros R N. destruct (dead s) eqn:D; [|reflexivity]. destruct N. now apply (crash_dead _ _ _ _ R). Qed.
(** Each request is completed at most once, and exactly once when nothing is left to happen. *)
Theorem C55_once : forall P l s o id, run P init l = (s, o) -> ~ In Crash o -> completed id o <= requested id l /\ (Quiet s -> completed id o = requested id l).
Proof.
  intros P l s o id R N. pose proof (inv_run _ _ _ _ R (alive _ _ _ _ R N)) as I. pose proof (I_count _ _ _ I id) as C. split; [lia|]. intros (Q4 & Q6 & QP).
  assert (CN : cur s = None).
  { destruct (cur s) as [c|] eqn:E; [|reflexivity]. pose proof (I_4 _ _ _ I) as K4. pose proof (I_6 _ _ _ I) as K6. unfold SideI in *. rewrite Q4 in K4. rewrite Q6 in K6. destruct (I_cur _ _ _ I c E) as [_ [X|X]]; tauto. }
  unfold waits in C. rewrite QP, CN in C. cbn in C. lia.
Qed.
Print Assumptions C55_once.
(** What a request which is not refused completes with: the first addresses of the alternation of what its two lookups have found, or, only if both failed, an error. *)
Theorem C55_result : forall P l s o id e a, run P init l = (s, o) -> ~ In Crash o -> In (Completed id e a) o -> e <> InProgress ->
  exists o1 o2 n e4 a4 e6 a6, o = o1 ++ o2 /\ view o1 = (Some (id, n), Some (e4, a4), Some (e6, a6)) /\ outcome n e4 a4 e6 a6 e a.
Proof.
  intros P l s o id e a R N X NE. pose proof (inv_run _ _ _ _ R (alive _ _ _ _ R N)) as I. destruct (I_done _ _ _ I _ _ _ X) as [Y|Y]; [congruence|exact Y].
Qed.
Print Assumptions C55_result.
(** A request is refused only while another one is under way. *)
Lemma refused P l s o : run P init l = (s, o) -> dead s = false -> forall id a, In (id, InProgress, a) (posted s) \/ In (Completed id InProgress a) o ->
  exists l1 h n b4 b6 l2 j, l = l1 ++ Resolve id h n b4 b6 :: l2 /\ completed j (snd (run P init l1)) < requested j l1.
Proof.
  revert s o. induction l as [|v l IH] using rev_ind; intros s o R D id a H.
  - injection R as <- <-. destruct H as [[]|[]].
  - rewrite run_snoc in R. destruct (run P init l) as [s1 o1] eqn:R1. assert (D1 : dead s1 = false).
    { destruct (dead s1) eqn:E; [|reflexivity]. rewrite (dead_stays P s1 v E) in R. injection R as <- <-. congruence. }
    pose proof (inv_run _ _ _ _ R1 D1) as I.
    assert (OLD : In (id, InProgress, a) (posted s1) \/ In (Completed id InProgress a) o1 -> exists l1 h n b4 b6 l2 j, l ++ [v] = l1 ++ Resolve id h n b4 b6 :: l2 /\ completed j (snd (run P init l1)) < requested j l1).
    { intros Y. destruct (IH _ _ eq_refl D1 id a Y) as (l1 & h & n & b4 & b6 & l2 & j & -> & Z). exists l1, h, n, b4, b6, (l2 ++ [v]), j. rewrite <- app_assoc. auto. }
    destruct (step P s1 v) as [s2 o2] eqn:S. injection R as <- <-. unfold step in S. rewrite D1 in S. destruct v as [i h n al4 al6|f r|f| |w4 w6].
    + unfold resolve in S. destruct (busy (code (s4 s1)) || busy (code (s6 s1))) eqn:B.
      * injection S as <- <-. rewrite app_nil_r in H. cbn [post posted] in H. rewrite in_app_iff in H. destruct H as [[H|[H|[]]]|H]; [now apply OLD; left| |now apply OLD; right].
        injection H as -> <-. destruct (cur s1) as [[j m]|] eqn:CJ.
        -- exists l, h, n, al4, al6, [], j. split; [reflexivity|]. rewrite R1. cbn [snd]. rewrite <- (I_count _ _ _ I j). unfold waits. rewrite CJ, Nat.eqb_refl. lia.
        -- destruct (I_none _ _ _ I CJ) as [X4 X6]. apply busy_f in X4, X6. rewrite X4, X6 in B. discriminate.
      * apply OLD. set (s0 := {| s4 := _; s6 := _; cur := Some (i, n); posted := posted s1; stopped := stopped s1; dead := dead s1 |}) in S.
        assert (PS : forall f hh al t, posted (fst (start P f hh al t)) = posted t /\ forall j e b, ~ In (Completed j e b) (snd (start P f hh al t))).
        { intros f hh al t. unfold start, ended. destruct P, (stopped t), f, hh, al; cbn; split; try reflexivity; intros j e b; try (intros [X|X]; [discriminate|exact X]); tauto. }
        pose proof (PS F4 h al4 s0) as [X1 X2]. destruct (start P F4 h al4 s0) as [s3 o3]. pose proof (PS F6 h al6 s3) as [X3 X4]. destruct (start P F6 h al6 s3) as [s4' o4]. injection S as <- <-. cbn [fst snd] in *.
        rewrite X3, X1 in H. destruct H as [H|H]; [now left|]. apply in_app_or in H. destruct H as [H|[H|H]]; [now right|discriminate|]. apply in_app_or in H. destruct H as [H|H]; [destruct (X2 _ _ _ H)|destruct (X4 _ _ _ H)].
    + apply OLD. unfold answer, ended, die in S. destruct (lk (side_of f s1)); [injection S as <- <-; now rewrite app_nil_r in H| |injection S as <- <-; now rewrite app_nil_r in H].
      destruct P, r as [x|]; try destruct (Nat.ltb cap (List.length x)); injection S as <- <-; try discriminate D; (destruct H as [H|H]; [left; destruct f; exact H|right; apply in_app_or in H; (destruct H as [H|[H|[]]]; [exact H|discriminate])]).
    + unfold fire in S. destruct (lk (side_of f s1)) as [| |e] eqn:LK; try (injection S as <- <-; rewrite app_nil_r in H; now apply OLD).
      set (s3 := set_side f _ s1) in S. assert (P3 : posted s3 = posted s1 /\ cur s3 = cur s1) by (destruct f; split; reflexivity). destruct P3 as [P3 C3].
      destruct (busy (code (s4 s3)) || busy (code (s6 s3))) eqn:B; [injection S as <- <-; rewrite app_nil_r, P3 in H; now apply OLD|].
      destruct (cur s3) as [[j m]|]; [|injection S as <- <-; rewrite app_nil_r, P3 in H; now apply OLD]. destruct (resolved_ec m (s4 s3) (s6 s3)) as [e1 a1] eqn:RE. injection S as <- <-. rewrite app_nil_r in H. cbn [post posted] in H. rewrite P3, in_app_iff in H.
      destruct H as [[H|[H|[]]]|H]; [now apply OLD; left| |now apply OLD; right]. injection H as -> -> ->. exfalso. apply orb_false_elim in B. destruct B as [B _]. apply busy_f in B. unfold resolved_ec in RE. destruct (negb (is_ok (code (s4 s3))) && negb (is_ok (code (s6 s3)))); injection RE as RE _; congruence.
    + apply OLD. unfold deliver in S. destruct (posted s1) as [|[[i e] b] q] eqn:EP; injection S as <- <-; [rewrite EP, app_nil_r in H; exact H|]. cbn [posted] in H. destruct H as [H|H]; [left; now right|]. apply in_app_or in H. destruct H as [H|[H|[]]]; [now right|]. injection H as -> -> ->. left. now left.
    + apply OLD. unfold stop in S. destruct (stopped s1); [injection S as <- <-; now rewrite app_nil_r in H|]. destruct P; [|injection S as <- <-; rewrite app_nil_r in H; exact H].
      unfold ended in S. cbn [s4 s6] in S. destruct (lk (s4 s1)), w4; cbn [set_side s4 s6 fst snd side_of] in S; destruct (lk (s6 s1)), w6; cbn [set_side s4 s6 fst snd side_of] in S; injection S as <- <-; cbn [posted] in H; rewrite ?app_nil_r in H; try exact H; (destruct H as [H|H]; [left; exact H|right]; apply in_app_or in H; destruct H as [H|H]; [exact H|]; cbn in H; repeat (destruct H as [H|H]; [discriminate|]); destruct H).
Qed.
Theorem C55_refused : forall P l s o id a, run P init l = (s, o) -> ~ In Crash o -> In (Completed id InProgress a) o ->
  exists l1 h n b4 b6 l2 j, l = l1 ++ Resolve id h n b4 b6 :: l2 /\ completed j (snd (run P init l1)) < requested j l1.
Proof. intros P l s o id a R N X. apply (refused _ _ _ _ R (alive _ _ _ _ R N) id a). now right. Qed.
Print Assumptions C55_refused.
(** A lookup which succeeds has the first addresses the system has for the name, or the literal address. *)
Definition Source (P : plat) (f : fam) (a : list addr) (v : op) : Prop :=
  (exists r, v = Answer f (Some r) /\ a = firstn cap r) \/ (exists id n b4 b6 k, P = Libevent /\ ((f = F4 /\ a = [A4 k] /\ v = Resolve id (Lit4 k) n b4 b6) \/ (f = F6 /\ a = [A6 k] /\ v = Resolve id (Lit6 k) n b4 b6))).
Lemma step_looked P s v f a : In (Looked f Ok a) (snd (step P s v)) -> Source P f a v.
Proof.
  unfold step. destruct (dead s); [intros []|]. destruct v as [i h n al4 al6|g r|g| |w4 w6].
  - unfold resolve. destruct (busy (code (s4 s)) || busy (code (s6 s))); [intros []|]. set (s0 := {| s4 := _; s6 := _; cur := Some (i, n); posted := _; stopped := _; dead := _ |}).
    assert (PS : forall g t al, In (Looked f Ok a) (snd (start P g h al t)) -> Source P f a (Resolve i h n al4 al6)).
    { intros g t al. unfold start, ended. destruct P, (stopped t), g, h, al; cbn [snd In]; intros H; solve [destruct H | destruct H as [H|[]]; discriminate | destruct H as [H|[]]; injection H as <- <-; right; do 5 eexists; split; [reflexivity|]; eauto]. }
    destruct (start P F4 h al4 s0) as [s1 o4] eqn:E4. destruct (start P F6 h al6 s1) as [s2 o6] eqn:E6. cbn [snd]. intros [H|H]; [discriminate|]. apply in_app_or in H. destruct H as [H|H]; [apply (PS F4 s0 al4); now rewrite E4|apply (PS F6 s1 al6); now rewrite E6].
  - unfold answer, ended, die. destruct (lk (side_of g s)); try (intros []). destruct P, r as [x|]; cbn [snd].
    + destruct (Nat.ltb_spec cap (List.length x)) as [L|L]; cbn [snd]; intros [H|[]]; [discriminate|]. injection H as -> ->. left. exists a. split; [reflexivity|]. symmetry. now apply firstn_all2.
    + intros [H|[]]. discriminate.
    + intros [H|[]]. injection H as -> H <-. left. exists x. auto.
    + intros [H|[]]. discriminate.
  - unfold fire. destruct (lk (side_of g s)); try (intros []). set (s1 := set_side g _ s). destruct (busy (code (s4 s1)) || busy (code (s6 s1))); [intros []|]. destruct (cur s1) as [[id n]|]; [|intros []]. destruct (resolved_ec n (s4 s1) (s6 s1)). intros [].
  - unfold deliver. destruct (posted s) as [|[[i e] b] q]; [intros []|]. intros [H|[]]. discriminate.
  - unfold stop. destruct (stopped s); [intros []|]. destruct P; [|intros []]. unfold ended. cbn [s4 s6]. destruct (lk (s4 s)), w4; cbn [set_side s4 s6 fst snd]; destruct (lk (s6 s)), w6; cbn; intros H; repeat (destruct H as [H|H]; [discriminate|]); destruct H.
Qed.
Theorem C55_found : forall P l s o f a, run P init l = (s, o) -> In (Looked f Ok a) o -> exists v, In v l /\ Source P f a v.
Proof.
  intros P l. induction l as [|v l IH] using rev_ind; intros s o f a R H.
  - injection R as <- <-. destruct H.
  - rewrite run_snoc in R. destruct (run P init l) as [s1 o1]. pose proof (step_looked P s1 v f a) as K. destruct (step P s1 v) as [s2 o2]. injection R as <- <-. cbn [snd] in K. apply in_app_or in H. destruct H as [H|H].
    + destruct (IH _ _ _ _ eq_refl H) as (x & X & Y). exists x. split; [apply in_or_app; now left|exact Y].
    + exists v. split; [apply in_or_app; right; now left|exact (K H)].
Qed.
Print Assumptions C55_found.
(** Nothing is written outside the arrays with libevent, nor with the thread if the system never has more than four addresses. Missing: names with more, which is false. *)
Theorem C55_safe_partial : forall P l, P = Libevent \/ Short l -> ~ In Crash (snd (run P init l)).
Proof.
  intros P l H X. destruct (run P init l) as [s o] eqn:R. destruct (crash_dead _ _ _ _ R) as [C1 C2]. cbn [snd] in X. apply C1 in X. destruct (C2 X) as (-> & f & a & Y & Z). destruct H as [H|H]; [discriminate|]. pose proof (H _ _ Y). lia.
Qed.
Print Assumptions C55_safe_partial.
(** With the thread, whoever runs the name server can write behind the array: five addresses for a name, whatever number the caller asked for. *)
Theorem C55_overflow_refuted : forall n a, cap < List.length a -> In Crash (snd (run Unix init [Resolve 0 (Name 0) n true true; Answer F4 (Some a)])).
Proof. intros n a L. destruct a as [|a0 [|a1 [|a2 [|a3 [|a4 a]]]]]; try (cbn in L; unfold cap in L; lia). cbn. auto. Qed.
Print Assumptions C55_overflow_refuted.
(** Two requests, the second while the first is under way. *)
Example C55_ex : snd (run Unix init [Resolve 0 (Name 0) 3 true true; Answer F6 (Some [A6 1]); Fire F6; Resolve 1 (Name 1) 5 true true; Deliver; Answer F4 (Some [A4 7; A4 8; A4 9]); Fire F4; Deliver])
  = [Started 0 3; Looked F6 Ok [A6 1]; Completed 1 InProgress []; Looked F4 Ok [A4 7; A4 8; A4 9]; Completed 0 Ok [A4 7; A6 1; A4 8]].
Proof. vm_compute. reflexivity. Qed.
Example C55_ex_quiet : Quiet (fst (run Libevent init [Resolve 0 (Lit4 5) 3 true true; Fire F6; Fire F4; Deliver])) /\ completed 0 (snd (run Libevent init [Resolve 0 (Lit4 5) 3 true true; Fire F6; Fire F4; Deliver])) = 1.
Proof. vm_compute. repeat split. Qed.
Example C55_ex_short : Short [Resolve 0 (Name 0) 3 true true; Answer F6 (Some [A6 1; A6 2])].
Proof. intros f a [H|[H|[]]]; [discriminate|]. injection H as <- <-. vm_compute. repeat constructor. Qed.
