(** Proofs about the password authentication model. *)
From Coq Require Import String Ascii List Bool Arith NArith Lia.
From Verif Require Import PwAuthModel PwAuthSpec.
Import ListNotations.
Open Scope list_scope.

Lemma count_app : forall f a b, count f (a ++ b) = count f a + count f b.
Proof. intros. unfold count. rewrite filter_app, app_length. reflexivity. Qed.

Lemma run_app : forall C a b s s2 o,
  run C s (a ++ b) = Some (s2, o) <->
  exists s1 o1 o2, run C s a = Some (s1, o1) /\ run C s1 b = Some (s2, o2) /\ o = o1 ++ o2.
Proof.
  intros C a. induction a as [|x a IH]; intros b s s2 o; simpl.
  - split.
    + intros H. exists s, [], o. auto.
    + intros (s1 & o1 & o2 & H1 & H2 & ->). inversion H1; subst. auto.
  - destruct (step C s x) as [[s' o']|].
    + destruct (run C s' (a ++ b)) as [[s'' o'']|] eqn:E.
      * apply IH in E. destruct E as (s1 & o1 & o2 & H1 & H2 & ->). split.
        -- intros H. inversion H; subst. exists s1, (o' ++ o1), o2. rewrite H1, app_assoc. auto.
        -- rewrite H1. intros (t1 & p1 & p2 & H3 & H4 & ->). inversion H3; subst.
           rewrite H2 in H4. inversion H4; subst. rewrite app_assoc. auto.
      * split; [discriminate|].
        intros (t1 & p1 & p2 & H3 & H4 & ->).
        destruct (run C s' a) as [[s1 o1]|] eqn:E1; [|discriminate].
        inversion H3; subst.
        assert (run C s' (a ++ b) = Some (s2, o1 ++ p2)) by (apply IH; exists t1, o1, p2; auto).
        congruence.
    + split; [discriminate|]. intros (? & ? & ? & H & _). discriminate.
Qed.

(** Induction over the history with the observations accumulated so far. *)
Lemma run_ind : forall C (P : state -> list out -> Prop),
  P init [] ->
  (forall s o x s' o', P s o -> step C s x = Some (s', o') -> P s' (o ++ o')) ->
  forall l s o, run C init l = Some (s, o) -> P s o.
Proof.
  intros C P P0 PS.
  assert (G : forall l s0 o0 s o, P s0 o0 -> run C s0 l = Some (s, o) -> P s (o0 ++ o)).
  { induction l as [|x l IH]; simpl; intros s0 o0 s o H0 H.
    - inversion H; subst. rewrite app_nil_r. auto.
    - destruct (step C s0 x) as [[s1 o1]|] eqn:E; [|discriminate].
      destruct (run C s1 l) as [[s2 o2]|] eqn:E2; [|discriminate].
      inversion H; subst. rewrite app_assoc. eapply IH; eauto. }
  intros l s o H. apply (G l init [] s o P0 H).
Qed.

(** ** What password_ready and free_all touch *)

Definition same_bucket (s s' : state) : Prop :=
  st_now s' = st_now s /\ st_tokens s' = st_tokens s /\ st_timer s' = st_timer s.
Definition same_lists (s s' : state) : Prop :=
  st_listening s' = st_listening s /\ st_waiting s' = st_waiting s /\
  st_queue s' = st_queue s /\ st_app s' = st_app s /\ st_next s' = st_next s /\ st_refs s' = st_refs s.

Lemma ready_frame : forall C s r pw rnd s' o,
  password_ready C s r pw rnd = (s', o) ->
  same_bucket s s' /\ same_lists s s' /\ count is_rejected_proof o = 0
  /\ count (answers_request (rq_id r)) o = 1
  /\ (forall i, i <> rq_id r -> count (answers_request i) o = 0).
Proof.
  intros C s r pw rnd s' o H. unfold password_ready in H.
  destruct (st_conns s (rq_conn r)) as [p|].
  - destruct (calculate_key C _) as [k ok]. inversion H; subst; clear H.
    repeat split; try reflexivity.
    + unfold count. simpl. rewrite Nat.eqb_refl. reflexivity.
    + intros i Hi. unfold count. simpl. apply Nat.eqb_neq in Hi. rewrite Hi. reflexivity.
  - inversion H; subst; clear H. repeat split; try reflexivity.
    + unfold count. simpl. rewrite Nat.eqb_refl. reflexivity.
    + intros i Hi. unfold count. simpl. apply Nat.eqb_neq in Hi. rewrite Hi. reflexivity.
Qed.

Lemma free_all_frame : forall C rnd l s s' o,
  free_all C s l rnd = (s', o) ->
  same_bucket s s' /\ same_lists s s' /\ count is_rejected_proof o = 0
  /\ (forall i, count (answers_request i) o = count_occ Nat.eq_dec (map rq_id l) i).
Proof.
  intros C rnd. induction l as [|r l IH]; simpl; intros s s' o H.
  - inversion H; subst. repeat split; reflexivity.
  - destruct (password_ready C s r None (rnd (rq_id r))) as [s1 o1] eqn:E1.
    destruct (free_all C s1 l rnd) as [s2 o2] eqn:E2. inversion H; subst; clear H.
    apply ready_frame in E1. apply IH in E2.
    unfold same_bucket, same_lists in *.
    destruct E1 as ((A1 & A2 & A3) & (B1 & B2 & B3 & B4 & B5 & B6) & D1 & E1 & F1).
    destruct E2 as ((A1' & A2' & A3') & (B1' & B2' & B3' & B4' & B5' & B6') & D1' & E1').
    repeat split; try congruence.
    + rewrite count_app. lia.
    + intros i. rewrite count_app, E1'. destruct (Nat.eq_dec (rq_id r) i) as [e|n].
      * subst i. lia.
      * rewrite (F1 i) by auto. lia.
Qed.

Ltac frame H :=
  match type of H with
  | context [password_ready ?C ?s ?r ?pw ?rnd] =>
      let s1 := fresh "s1" in let o1 := fresh "o1" in let E := fresh "Er" in
      destruct (password_ready C s r pw rnd) as [s1 o1] eqn:E
  | context [free_all ?C ?s ?l ?rnd] =>
      let s1 := fresh "s1" in let o1 := fresh "o1" in let E := fresh "Er" in
      destruct (free_all C s l rnd) as [s1 o1] eqn:E
  end.

(** ** C19: the token bucket *)

Open Scope N_scope.
(** 1000 per token plus the part of the running refill interval that passed. *)
Definition potential (s : state) : N :=
  1000 * st_tokens s +
  match st_timer s with Some d => 1000 - (d - st_now s) | None => 0 end.

Definition bucket_ok (s : state) : Prop :=
  (st_tokens s = 10 /\ st_timer s = None) \/
  (st_tokens s <= 9 /\ exists d, st_timer s = Some d /\ d <= st_now s + 1000).

Lemma bucket_same : forall s s', same_bucket s s' ->
  (bucket_ok s <-> bucket_ok s') /\ potential s = potential s'.
Proof. intros s s' (A & B & D). unfold bucket_ok, potential. rewrite A, B, D. tauto. Qed.

Ltac nsimpl := cbn -[N.add N.mul N.sub].
Lemma step_bucket : forall C s x s' o, bucket_ok s -> step C s x = Some (s', o) ->
  bucket_ok s' /\
  potential s' + 1000 * N.of_nat (count is_rejected_proof o) <= potential s + elapsed [x].
Proof.
  intros C s x s' o B H.
  assert (Same : forall s1, same_bucket s s1 -> count is_rejected_proof o = 0%nat -> 
            bucket_ok s1 /\ potential s1 + 1000 * N.of_nat (count is_rejected_proof o) <= potential s + elapsed [x]).
  { intros s1 Hs Hc. destruct (bucket_same s s1 Hs) as [[b1 b2] p]. rewrite Hc, <- p. split; [auto|lia]. }
  destruct x; simpl in H.
  - inversion H; subst; clear H. unfold bucket_ok, potential in *; nsimpl.
    destruct B as [[E T]|(E & d & T & L)]; rewrite T; nsimpl.
    + split; [left; auto|]. unfold count; nsimpl; lia.
    + split; [right; split; [auto|exists d; split; [auto|lia]]|]. unfold count; nsimpl. lia.
  - destruct (st_timer s) as [d|] eqn:T; [|discriminate].
    destruct (N.leb_spec d (st_now s)); [|discriminate]. inversion H; subst; clear H.
    unfold bucket_ok, potential in *. rewrite T in *. unfold new_token, max_tokens, token_interval; nsimpl.
    destruct B as [[E T']|(E & d' & T' & L)]; [discriminate|]. inversion T'; subst d'.
    destruct (N.ltb_spec (st_tokens s + 1) 10); nsimpl.
    + split.
      * right. split; [lia|]. eexists. split; [reflexivity|]. lia.
      * unfold count; nsimpl. replace (st_now s + 1000 - st_now s) with 1000 by lia. lia.
    + split; [left; split; [lia|auto]|]. unfold count; nsimpl. lia.
  - destruct (negb _); [discriminate|]. inversion H; subst. apply Same; [repeat split|reflexivity].
  - destruct (st_conns s c); [|discriminate]. inversion H; subst. apply Same; [repeat split|reflexivity].
  - destruct (st_conns s c); [|discriminate]. inversion H as [H1]; clear H. revert H1. unfold handle_1.
    destruct (N.eqb _ _); [intros H1; inversion H1; subst; apply Same; [repeat split|reflexivity]|].
    destruct (negb _); [intros H1; inversion H1; subst; apply Same; [repeat split|reflexivity]|].
    destruct b; intros H1; inversion H1; subst; try (apply Same; [now repeat split|reflexivity]).
    apply Same; [unfold add_event; destruct (st_waiting _); repeat split|reflexivity].
  - destruct (st_conns s c) as [p|]; [|discriminate]. inversion H as [H1]; clear H. revert H1. unfold handle_2.
    destruct (N.eqb_spec (st_tokens (bump s)) 0) as [E0|E0];
      [intros H1; inversion H1; subst; apply Same; [repeat split|reflexivity]|].
    destruct (negb _); [intros H1; inversion H1; subst; apply Same; [repeat split|reflexivity]|].
    destruct payload as [d|]; [|intros H1; inversion H1; subst; apply Same; [repeat split|reflexivity]].
    destruct (negb _); [intros H1; inversion H1; subst; apply Same; [repeat split|reflexivity]|].
    destruct (negb _); [intros H1; inversion H1; subst; apply Same; [repeat split|reflexivity]|].
    destruct (String.eqb _ _); [intros H1; inversion H1; subst; apply Same; [repeat split|reflexivity]|].
    intros H1; inversion H1; subst; clear H1 Same. unfold spend_token, max_tokens, token_interval.
    simpl in E0. unfold bucket_ok, potential in *; nsimpl.
    destruct B as [[E T]|(E & d' & T & L)].
    + rewrite E, T; nsimpl. split.
      * right. split; [lia|]. eexists. split; [reflexivity|lia].
      * unfold count; nsimpl. replace (st_now s + 1000 - st_now s) with 1000 by lia. lia.
    + destruct (N.eqb_spec (st_tokens s) 10) as [E'|E']; [lia|]. rewrite T. split.
      * right. split; [lia|]. eauto.
      * unfold count; nsimpl. lia.
  - destruct (st_listening s); inversion H; subst; apply Same; try (repeat split); reflexivity.
  - destruct (st_listening s); [|inversion H; subst; apply Same; [repeat split|reflexivity]].
    frame H. inversion H; subst; clear H. apply free_all_frame in Er. destruct Er as (A & _ & D & _).
    apply Same; [exact A|]. rewrite count_app, D. reflexivity.
  - destruct (negb _); [inversion H; subst; apply Same; [repeat split|reflexivity]|].
    destruct (st_waiting s); [inversion H; subst; apply Same; [repeat split|reflexivity]|].
    destruct (st_queue s); inversion H; subst; apply Same; try (repeat split); reflexivity.
  - destruct (find_app s r) as [q|]; [|discriminate].
    destruct (rq_handled q); [inversion H; subst; apply Same; [repeat split|reflexivity]|].
    frame H. inversion H; subst; clear H. apply ready_frame in Er. destruct Er as (A & _ & D & _).
    apply Same; [exact A|]. rewrite count_app, D. reflexivity.
  - destruct (find_app s r) as [q|]; [|discriminate].
    destruct (rq_handled q); [inversion H; subst; apply Same; [repeat split|reflexivity]|].
    frame H. inversion H; subst; clear H. apply ready_frame in Er. destruct Er as (A & _ & D & _).
    apply Same; [exact A|]. exact D.
Qed.

Lemma elapsed_cons : forall x l, elapsed (x :: l) = elapsed [x] + elapsed l.
Proof. intros. simpl. destruct x; simpl; lia. Qed.

Lemma run_bucket : forall C l s s' o, bucket_ok s -> run C s l = Some (s', o) ->
  bucket_ok s' /\
  potential s' + 1000 * N.of_nat (count is_rejected_proof o) <= potential s + elapsed l.
Proof.
  intros C. induction l as [|x l IH]; intros s s' o B H.
  - simpl in H. inversion H; subst. split; [auto|]. unfold count; simpl. lia.
  - simpl in H. destruct (step C s x) as [[s1 o1]|] eqn:E; [|discriminate].
    destruct (run C s1 l) as [[s2 o2]|] eqn:E2; [|discriminate]. inversion H; subst; clear H.
    apply step_bucket in E; [|auto]. destruct E as [B1 P1]. apply IH in E2; [|auto].
    destruct E2 as [B2 P2]. split; [auto|]. rewrite count_app, elapsed_cons. lia.
Qed.

Lemma init_bucket : bucket_ok init.
Proof. left. split; reflexivity. Qed.

Lemma bucket_potential : forall s, bucket_ok s -> potential s <= 10000.
Proof. intros s [[A B]|(A & d & B & D)]; unfold potential; rewrite B; lia. Qed.

Lemma guesses_bounded : forall C pre seg s0 o0 s1 o1,
  run C init pre = Some (s0, o0) -> run C s0 seg = Some (s1, o1) ->
  N.of_nat (count is_rejected_proof o1) <= 10 + elapsed seg / 1000.
Proof.
  intros C pre seg s0 o0 s1 o1 H0 H1.
  destruct (run_bucket _ _ _ _ _ init_bucket H0) as [B0 _].
  destruct (run_bucket _ _ _ _ _ B0 H1) as [_ P].
  pose proof (bucket_potential s0 B0).
  assert (L : 1000 * N.of_nat (count is_rejected_proof o1) <= 10000 + elapsed seg) by lia.
  replace (10 + elapsed seg / 1000) with ((elapsed seg + 10 * 1000) / 1000)
    by (rewrite N.div_add by lia; lia).
  apply N.div_le_lower_bound; lia.
Qed.
Close Scope N_scope.

(** Rejected proofs and answers 401 are the same thing. *)
Lemma step_401 : forall C s x s' o, step C s x = Some (s', o) ->
  count (has_code 401) o = count is_rejected_proof o.
Proof.
  intros C s x s' o H.
  assert (R : forall s r pw rnd s' o, password_ready C s r pw rnd = (s', o) ->
            count (has_code 401) o = 0).
  { intros t r pw rnd t' p E. unfold password_ready in E.
    destruct (st_conns t _); [destruct (calculate_key C _) as [k [|]]|]; inversion E; reflexivity. }
  assert (F : forall rnd l s s' o, free_all C s l rnd = (s', o) -> count (has_code 401) o = 0).
  { intros rnd l. induction l as [|r l IH]; simpl; intros t t' p E.
    - inversion E; reflexivity.
    - destruct (password_ready C t r None (rnd (rq_id r))) as [s1 o1] eqn:E1.
      destruct (free_all C s1 l rnd) as [s2 o2] eqn:E2. inversion E; subst.
      rewrite count_app, (R _ _ _ _ _ _ E1), (IH _ _ _ E2). reflexivity. }
  destruct x; simpl in H.
  - inversion H; reflexivity.
  - destruct (st_timer s); [|discriminate]. destruct (N.leb _ _); [|discriminate]. inversion H; reflexivity.
  - destruct (negb _); [discriminate|]. inversion H; reflexivity.
  - destruct (st_conns s c); [|discriminate]. inversion H; reflexivity.
  - destruct (st_conns s c); [|discriminate]. inversion H as [H1]; clear H. revert H1. unfold handle_1.
    destruct (N.eqb _ _); [intros H1; inversion H1; reflexivity|].
    destruct (negb _); [intros H1; inversion H1; reflexivity|].
    destruct b; intros H1; inversion H1; reflexivity.
  - destruct (st_conns s c) as [p|]; [|discriminate]. inversion H as [H1]; clear H. revert H1. unfold handle_2.
    destruct (N.eqb _ _); [intros H1; inversion H1; reflexivity|].
    destruct (negb _); [intros H1; inversion H1; reflexivity|].
    destruct payload as [d|]; [|intros H1; inversion H1; reflexivity].
    destruct (negb _); [intros H1; inversion H1; reflexivity|].
    destruct (negb _); [intros H1; inversion H1; reflexivity|].
    destruct (String.eqb _ _); intros H1; inversion H1; reflexivity.
  - destruct (st_listening s); inversion H; reflexivity.
  - destruct (st_listening s); [|inversion H; reflexivity]. frame H. inversion H; subst.
    pose proof (F _ _ _ _ _ Er). apply free_all_frame in Er. destruct Er as (_ & _ & E & _).
    rewrite !count_app, H0, E. reflexivity.
  - destruct (negb _); [inversion H; reflexivity|]. destruct (st_waiting s); [inversion H; reflexivity|].
    destruct (st_queue s); inversion H; reflexivity.
  - destruct (find_app s r) as [q|]; [|discriminate]. destruct (rq_handled q); [inversion H; reflexivity|].
    frame H. inversion H; subst. pose proof (R _ _ _ _ _ _ Er). apply ready_frame in Er.
    destruct Er as (_ & _ & E & _). rewrite !count_app, H0, E. reflexivity.
  - destruct (find_app s r) as [q|]; [|discriminate]. destruct (rq_handled q); [inversion H; reflexivity|].
    frame H. inversion H; subst. pose proof (R _ _ _ _ _ _ Er). apply ready_frame in Er.
    destruct Er as (_ & _ & E & _). rewrite H0, E. reflexivity.
Qed.

Lemma run_401 : forall C l s s' o, run C s l = Some (s', o) ->
  count (has_code 401) o = count is_rejected_proof o.
Proof.
  intros C. induction l as [|x l IH]; simpl; intros s s' o H.
  - inversion H; reflexivity.
  - destruct (step C s x) as [[s1 o1]|] eqn:E; [|discriminate].
    destruct (run C s1 l) as [[s2 o2]|] eqn:E2; [|discriminate]. inversion H; subst.
    rewrite !count_app, (step_401 _ _ _ _ _ E), (IH _ _ _ E2). reflexivity.
Qed.

(** A refused proof is not looked at. *)
Lemma refused_unseen : forall C s c d s' o r,
  step C s (Step2 c d) = Some (s', o) -> In (Answer r 429) o ->
  o = [Answer r 429] /\ st_conns s' = st_conns s /\ st_tokens s' = st_tokens s /\
  forall d', exists s'', step C s (Step2 c d') = Some (s'', [Answer r 429]).
Proof.
  intros C s c d s' o r H I. simpl in H. destruct (st_conns s c) as [p|] eqn:P; [|discriminate].
  inversion H as [H1]; clear H. revert H1. unfold handle_2.
  destruct (N.eqb (st_tokens (bump s)) 0) eqn:T.
  - intros H1. inversion H1; subst. destruct I as [I|[]]. inversion I; subst. repeat split.
    intros d'. simpl. rewrite P. unfold handle_2. rewrite T. eauto.
  - assert (NF : forall q n, In (Answer r 429) [Answer q n] -> n = 429)
      by (intros q n [E|[]]; inversion E; auto).
    assert (NC : forall q n e y b, In (Answer r 429) [Checked e y b; Answer q n] -> n = 429)
      by (intros q n e y b [E|[E|[]]]; inversion E; auto).
    destruct (negb _); [intros H1; inversion H1; subst; apply NF in I; discriminate|].
    destruct d as [d|]; [|intros H1; inversion H1; subst; apply NF in I; discriminate].
    destruct (negb _); [intros H1; inversion H1; subst; apply NF in I; discriminate|].
    destruct (negb _); [intros H1; inversion H1; subst; apply NF in I; discriminate|].
    destruct (String.eqb _ _); intros H1; inversion H1; subst; apply NC in I; discriminate.
Qed.

(** A client is never locked out for good: when no timer is due after a
    second has passed, proofs are evaluated. *)
Lemma not_locked_out : forall C l s o c d s' o' r,
  run C init l = Some (s, o) ->
  let s1 := with_now s (st_now s + 1000)%N in
  let s2 := match step C s1 TokenTimer with Some (t, _) => t | None => s1 end in
  step C s2 (Step2 c d) = Some (s', o') -> ~ In (Answer r 429) o'.
Proof.
  intros C l s o c d s' o' r H s1 s2 E I.
  destruct (run_bucket _ _ _ _ _ init_bucket H) as [B _].
  assert (T : st_tokens s2 <> 0%N).
  { subst s2 s1. simpl. destruct B as [[A T]|(A & x & T & L)]; rewrite T; simpl.
    - rewrite A. discriminate.
    - destruct (N.leb_spec x (st_now s + 1000)); [|lia]. simpl. lia. }
  simpl in E. destruct (st_conns s2 c) as [p|]; [|discriminate]. inversion E as [H1]; clear E.
  revert H1. unfold handle_2. destruct (N.eqb_spec (st_tokens (bump s2)) 0) as [Z|Z]; [simpl in Z; lia|].
  assert (NF : forall q n, In (Answer r 429) [Answer q n] -> n = 429)
    by (intros q n [X|[]]; inversion X; auto).
  assert (NC : forall q n e y b, In (Answer r 429) [Checked e y b; Answer q n] -> n = 429)
    by (intros q n e y b [X|[X|[]]]; inversion X; auto).
  destruct (negb _); [intros H1; inversion H1; subst; apply NF in I; discriminate|].
  destruct d as [d|]; [|intros H1; inversion H1; subst; apply NF in I; discriminate].
  destruct (negb _); [intros H1; inversion H1; subst; apply NF in I; discriminate|].
  destruct (negb _); [intros H1; inversion H1; subst; apply NF in I; discriminate|].
  destruct (String.eqb _ _); intros H1; inversion H1; subst; apply NC in I; discriminate.
Qed.

(** ** C21, C20: who is authenticated *)

(** How the observations of a history determine a connection. *)
Definition exchanged_in (c : nat) (l : list out) (x : exchange) (k : string) (ok : bool) : Prop :=
  exists l1 l2, l = l1 ++ Exchanged c x k ok :: l2 /\ no_exchange c l2.

Lemma no_exchange_app : forall c a b, no_exchange c (a ++ b) <-> no_exchange c a /\ no_exchange c b.
Proof.
  intros c a b. unfold no_exchange. split.
  - intros H. split; intros x k ok I; apply (H x k ok); apply in_or_app; auto.
  - intros [A B] x k ok I. apply in_app_or in I. destruct I; [eapply A|eapply B]; eauto.
Qed.

(** Everything known about a connection. *)
Definition conn_ok (C : crypto) (c : nat) (p : pconn) (l : list out) : Prop :=
  (pc_has_key p = true -> exists x k ok, exchanged_in c l x k ok /\ pc_key p = k) /\
  (pc_auth p = true -> exists x k ok, proved_key C c x k ok l) /\
  (forall u, pc_user p = Some u -> exists l1 x k l2, l = l1 ++ Exchanged c x k true :: l2 /\ x_user x = u
      /\ (forall x' k', ~ In (Exchanged c x' k' true) l2)).

Lemma proved_key_app : forall C c x k ok l o, proved_key C c x k ok l -> proved_key C c x k ok (l ++ o).
Proof.
  intros C c x k ok l o (l1 & l2 & l3 & -> & N). exists l1, l2, (l3 ++ o). split; [|auto].
  repeat (rewrite <- app_assoc; simpl). reflexivity.
Qed.

Lemma conn_ok_app : forall C c p l o, no_exchange c o -> conn_ok C c p l -> conn_ok C c p (l ++ o).
Proof.
  intros C c p l o N (A & B & D). split; [|split].
  - intros E. destruct (A E) as (x & k & ok & (l1 & l2 & -> & N2) & <-).
    exists x, (pc_key p), ok. split; [|auto]. exists l1, (l2 ++ o). split.
    + rewrite <- app_assoc. reflexivity.
    + apply no_exchange_app. auto.
  - intros E. destruct (B E) as (x & k & ok & Q). exists x, k, ok. apply proved_key_app; auto.
  - intros u E. destruct (D u E) as (l1 & x & k & l2 & -> & U & F).
    exists l1, x, k, (l2 ++ o). split; [rewrite <- app_assoc; reflexivity|]. split; [auto|].
    intros x' k' I. apply in_app_or in I. destruct I as [I|I]; [eapply F; eauto|eapply N; eauto].
Qed.

Definition conns_ok (C : crypto) (s : state) (l : list out) : Prop :=
  (forall c p, st_conns s c = Some p -> conn_ok C c p l) /\
  (forall c, st_refs s <= c -> no_exchange c l) /\
  (forall c, st_refs s <= c -> st_conns s c = None).

(** Steps that leave connections alone and compute no key. *)
Lemma conns_ok_frame : forall C s s' l o,
  conns_ok C s l -> st_conns s' = st_conns s -> st_refs s' = st_refs s ->
  (forall c, no_exchange c o) -> conns_ok C s' (l ++ o).
Proof.
  intros C s s' l o (A & B & D) E F N. unfold conns_ok. rewrite E, F. split; [|split]; [| |auto].
  - intros c p P. apply conn_ok_app; auto.
  - intros c L. apply no_exchange_app. auto.
Qed.

Lemma ready_conns : forall C s r pw rnd s' o l,
  password_ready C s r pw rnd = (s', o) -> conns_ok C s l -> conns_ok C s' (l ++ o).
Proof.
  intros C s r pw rnd s' o l H I. unfold password_ready in H.
  destruct (st_conns s (rq_conn r)) as [p|] eqn:P.
  2:{ inversion H; subst. apply (conns_ok_frame C s' s'); auto. intros c x k ok [E|[]]; discriminate. }
  destruct I as (A & B & D).
  destruct (calculate_key C _) as [k ok] eqn:K. inversion H; subst; clear H.
  split; [|split]; simpl.
  - intros c q. unfold set_conn. destruct (Nat.eqb_spec c (rq_conn r)) as [->|n].
    + intros E. inversion E; subst; clear E. destruct (A _ _ P) as (A1 & A2 & A3).
      split; [|split]; simpl.
      * intros _. eexists _, k, ok. split; [|reflexivity]. eexists l, [_]. split; [reflexivity|].
        intros x k' ok' [I|[]]; discriminate.
      * intros E. destruct (A2 E) as (x & k' & ok' & Q). exists x, k', ok'. apply proved_key_app; auto.
      * intros u E. destruct ok.
        -- inversion E; subst; clear E. eexists l, _, k, [_]. split; [reflexivity|]. split; [reflexivity|].
           intros x' k' [I|[]]; discriminate.
        -- destruct (A3 u E) as (l1 & x & k0 & l2 & -> & U & F).
           eexists l1, x, k0, _. split; [rewrite <- app_assoc; simpl; reflexivity|]. split; [auto|].
           intros x' k' I. apply in_app_or in I. destruct I as [I|[I|[I|[]]]]; try discriminate.
           eapply F; eauto.
    + intros E. apply conn_ok_app; [|auto].
      intros x k' ok' [I|[I|[]]]; inversion I; congruence.
  - intros c L. apply no_exchange_app. split; [auto|].
    intros x k' ok' [I|[I|[]]]; [|discriminate]. inversion I; subst.
    rewrite (D (rq_conn r)) in P by auto. discriminate.
  - intros c L. unfold set_conn. destruct (Nat.eqb_spec c (rq_conn r)) as [->|n]; [|auto].
    rewrite (D (rq_conn r)) in P by auto. discriminate.
Qed.

Lemma free_all_conns : forall C rnd q s s' o l,
  free_all C s q rnd = (s', o) -> conns_ok C s l -> conns_ok C s' (l ++ o).
Proof.
  intros C rnd. induction q as [|r q IH]; simpl; intros s s' o l H I.
  - inversion H; subst. rewrite app_nil_r. auto.
  - destruct (password_ready C s r None (rnd (rq_id r))) as [s1 o1] eqn:E1.
    destruct (free_all C s1 q rnd) as [s2 o2] eqn:E2. inversion H; subst; clear H.
    rewrite app_assoc. eapply IH; [eauto|]. eapply ready_conns; eauto.
Qed.

Ltac noex := let c := fresh "c" in let x := fresh "x" in let k := fresh "k" in let ok := fresh "ok" in
  let I := fresh "I" in
  intros c x k ok I; simpl in I; repeat (destruct I as [I|I]; [discriminate|]); try contradiction.
Ltac nochange := (eapply conns_ok_frame; [eassumption|reflexivity|reflexivity|noex]).

Lemma step_conns : forall C s l x s' o,
  conns_ok C s l -> step C s x = Some (s', o) -> conns_ok C s' (l ++ o).
Proof.
  intros C s l x s' o I H. destruct x; simpl in H.
  - inversion H; subst. nochange.
  - destruct (st_timer s) as [d|]; [|discriminate]. destruct (N.leb _ _); [|discriminate].
    inversion H; subst. nochange.
  - destruct (Nat.eqb_spec c (st_refs s)) as [->|]; simpl in H; [|discriminate]. inversion H; subst; clear H.
    rewrite app_nil_r. destruct I as (A & B & D). split; [|split]; simpl.
    + intros c p. unfold set_conn. destruct (Nat.eqb_spec c (st_refs s)) as [->|n]; [|auto].
      intros E. inversion E; subst; clear E. split; [|split]; simpl; intros; discriminate.
    + intros c L. apply B. lia.
    + intros c L. unfold set_conn. destruct (Nat.eqb_spec c (st_refs s)); [lia|]. apply D. lia.
  - destruct (st_conns s c) eqn:P; [|discriminate]. inversion H; subst; clear H. rewrite app_nil_r.
    destruct I as (A & B & D). split; [|split]; simpl; [|auto|].
    + intros e p0. unfold set_conn. destruct (Nat.eqb e c); [discriminate|auto].
    + intros e L. unfold set_conn. destruct (Nat.eqb e c); auto.
  - destruct (st_conns s c); [|discriminate]. inversion H as [H1]; clear H. revert H1. unfold handle_1.
    destruct (N.eqb _ _); [intros H1; inversion H1; subst; nochange|].
    destruct (negb _); [intros H1; inversion H1; subst; nochange|].
    destruct b; intros H1; inversion H1; subst; try nochange.
    unfold add_event. destruct (st_waiting _); nochange.
  - destruct (st_conns s c) as [p|] eqn:P; [|discriminate].
    inversion H as [H1]; clear H. revert H1. unfold handle_2.
    destruct (N.eqb _ _); [intros H1; inversion H1; subst; nochange|].
    destruct (negb _); [intros H1; inversion H1; subst; nochange|].
    destruct payload as [d|]; [|intros H1; inversion H1; subst; nochange].
    destruct (negb _); [intros H1; inversion H1; subst; nochange|].
    destruct (pc_has_key p) eqn:HK; simpl; [|intros H1; inversion H1; subst; nochange].
    destruct (String.eqb_spec d (confirmation C (pc_key p))) as [->|].
    2:{ intros H1; inversion H1; subst. unfold spend_token. nochange. }
    intros H1; inversion H1; subst; clear H1. destruct I as (A & B & D). split; [|split]; simpl.
    + intros e q. unfold set_conn. destruct (Nat.eqb_spec e c) as [->|n].
      * intros E; inversion E; subst; clear E. destruct (A _ _ P) as (A1 & A2 & A3).
        assert (N : no_exchange c [Checked c (confirmation C (pc_key p)) true; Answer (st_next s) 201])
          by (intros x k ok [I|[I|[]]]; discriminate).
        destruct (conn_ok_app C c p l _ N (conj A1 (conj A2 A3))) as (E1 & E2 & E3).
        split; [|split]; simpl; [auto| |auto].
        intros _. destruct (A1 HK) as (x & k & ok & (l1 & l2 & -> & N2) & <-).
        exists x, (pc_key p), ok. eexists l1, l2, [_]. split; [|auto].
        rewrite <- app_assoc. reflexivity.
      * intros E. apply conn_ok_app; [|auto]. intros x k ok [I|[I|[]]]; discriminate.
    + intros e L. apply no_exchange_app. split; [auto|]. intros x k ok [I|[I|[]]]; discriminate.
    + intros e L. unfold set_conn. destruct (Nat.eqb_spec e c) as [->|n]; [|auto].
      rewrite (D c) in P by auto. discriminate.
  - destruct (st_listening s); inversion H; subst; nochange.
  - destruct (st_listening s); [|inversion H; subst; nochange].
    frame H. inversion H; subst; clear H. pose proof (free_all_conns _ _ _ _ _ _ _ Er I) as I1.
    rewrite app_assoc. eapply conns_ok_frame; [exact I1|reflexivity|reflexivity|noex].
  - destruct (negb _); [inversion H; subst; nochange|].
    destruct (st_waiting s); [inversion H; subst; nochange|].
    destruct (st_queue s); inversion H; subst; nochange.
  - destruct (find_app s r) as [q|]; [|discriminate].
    destruct (rq_handled q); [inversion H; subst; nochange|].
    frame H. inversion H; subst; clear H. pose proof (ready_conns _ _ _ _ _ _ _ _ Er I) as I1.
    rewrite app_assoc. eapply conns_ok_frame; [exact I1|reflexivity|reflexivity|noex].
  - destruct (find_app s r) as [q|]; [|discriminate].
    destruct (rq_handled q); [inversion H; subst; nochange|].
    frame H. inversion H; subst; clear H. pose proof (ready_conns _ _ _ _ _ _ _ _ Er I) as I1.
    rewrite <- (app_nil_r (l ++ o)).
    eapply conns_ok_frame; [exact I1|reflexivity|reflexivity|noex].
Qed.

Lemma run_conns : forall C h s l, run C init h = Some (s, l) -> conns_ok C s l.
Proof.
  intros C. apply (run_ind C (conns_ok C)).
  - split; [|split]; simpl; [discriminate|intros c _ x k ok []|auto].
  - intros. eapply step_conns; eauto.
Qed.

(** ** Where keys come from *)

Lemma run_snoc : forall C h x s l, run C init (h ++ [x]) = Some (s, l) ->
  exists s1 l1 l2, run C init h = Some (s1, l1) /\ step C s1 x = Some (s, l2) /\ l = l1 ++ l2.
Proof.
  intros C h x s l H. apply run_app in H. destruct H as (s1 & o1 & o2 & A & B & ->).
  exists s1, o1, o2. split; [auto|]. split; [|auto]. simpl in B.
  destruct (step C s1 x) as [[s' o']|]; [|discriminate]. inversion B; subst. rewrite app_nil_r. auto.
Qed.

(** Induction over histories. *)
Lemma run_ind_h : forall C (P : list op -> state -> list out -> Prop),
  P [] init [] ->
  (forall h s o x s' o', run C init h = Some (s, o) -> P h s o -> step C s x = Some (s', o') ->
     P (h ++ [x]) s' (o ++ o')) ->
  forall h s o, run C init h = Some (s, o) -> P h s o.
Proof.
  intros C P P0 PS h. induction h as [|x h IH] using rev_ind; intros s o H.
  - simpl in H. inversion H; subst. auto.
  - apply run_snoc in H. destruct H as (s1 & l1 & l2 & A & B & ->). eauto.
Qed.

Lemma requests_app : forall a b, requests_in (a ++ b) = requests_in a + requests_in b.
Proof. intros. unfold requests_in. rewrite filter_app, app_length. auto. Qed.

Lemma asked_app : forall h h' r c u T, asked h r c u T -> asked (h ++ h') r c u T.
Proof.
  intros h h' r c u T (h1 & h2 & -> & E). exists h1, (h2 ++ h'). split; [|auto].
  rewrite <- app_assoc. reflexivity.
Qed.

Lemma origin_app : forall h h' c x, exchange_origin h c x -> exchange_origin (h ++ h') c x.
Proof.
  intros h h' c x (A & r & B & D). split; [apply in_or_app; auto|]. exists r.
  split; [apply asked_app; auto|]. destruct D as [D|(rnd & D)]; [auto|].
  right. exists rnd. apply in_or_app; auto.
Qed.

Definition req_ok (h : list op) (q : request) : Prop := asked h (rq_id q) (rq_conn q) (rq_user q) (rq_T q).

Record hist_ok (C : crypto) (h : list op) (s : state) (l : list out) : Prop := {
  ho_next : st_next s = requests_in h;
  ho_fp : forall c p, st_conns s c = Some p -> In (Connect c (pc_cfp p) (pc_dfp p)) h;
  ho_req : forall q, In q (st_queue s ++ st_app s) -> req_ok h q;
  ho_key : forall c x k ok, In (Exchanged c x k ok) l ->
     calculate_key C x = (k, ok) /\ exchange_origin h c x }.

Definition fps_same (s s' : state) : Prop :=
  forall c p, st_conns s' c = Some p ->
    exists p0, st_conns s c = Some p0 /\ pc_cfp p = pc_cfp p0 /\ pc_dfp p = pc_dfp p0.

Lemma ready_fps : forall C s r pw rnd s' o, password_ready C s r pw rnd = (s', o) -> fps_same s s'.
Proof.
  intros C s r pw rnd s' o H. unfold password_ready in H.
  destruct (st_conns s (rq_conn r)) as [p|] eqn:P.
  - destruct (calculate_key C _) as [k ok]. inversion H; subst; clear H.
    intros c q. simpl. unfold set_conn. destruct (Nat.eqb_spec c (rq_conn r)) as [->|n]; [|eauto].
    intros E; inversion E; subst. exists p. auto.
  - inversion H; subst. intros c p E. eauto.
Qed.

Lemma fps_trans : forall a b c, fps_same a b -> fps_same b c -> fps_same a c.
Proof.
  intros a b c H1 H2 i p E. destruct (H2 _ _ E) as (p1 & E1 & A & B).
  destruct (H1 _ _ E1) as (p0 & E0 & A' & B'). exists p0. rewrite A, B. auto.
Qed.

Lemma fps_refl : forall s, fps_same s s.
Proof. intros s c p E. eauto. Qed.

Lemma fps_eq : forall s s', st_conns s' = st_conns s -> fps_same s s'.
Proof. intros s s' E c p P. rewrite E in P. eauto. Qed.

Lemma free_all_fps : forall C rnd q s s' o, free_all C s q rnd = (s', o) -> fps_same s s'.
Proof.
  intros C rnd. induction q as [|r q IH]; simpl; intros s s' o H.
  - inversion H; subst. apply fps_refl.
  - destruct (password_ready C s r None (rnd (rq_id r))) as [s1 o1] eqn:E1.
    destruct (free_all C s1 q rnd) as [s2 o2] eqn:E2. inversion H; subst.
    eapply fps_trans; [eapply ready_fps; eauto|eauto].
Qed.

(** The keys computed by one password_ready. *)
Lemma ready_keys : forall C h s r pw rnd s' o c x k ok,
  password_ready C s r pw rnd = (s', o) ->
  (forall c p, st_conns s c = Some p -> In (Connect c (pc_cfp p) (pc_dfp p)) h) ->
  req_ok h r ->
  (pw = None \/ In (SetPassword (rq_id r) pw rnd) h) ->
  In (Exchanged c x k ok) o -> calculate_key C x = (k, ok) /\ exchange_origin h c x.
Proof.
  intros C h s r pw rnd s' o c x k ok H F R W I. unfold password_ready in H.
  destruct (st_conns s (rq_conn r)) as [p|] eqn:P.
  - destruct (calculate_key C _) as [k0 ok0] eqn:K. inversion H; subst; clear H.
    destruct I as [I|[I|[]]]; [|discriminate]. inversion I; subst; clear I.
    split; [exact K|]. split; simpl; [auto|].
    exists (rq_id r). split; [exact R|]. destruct W; [auto|]. right; eauto.
  - inversion H; subst. destruct I as [I|[]]; discriminate.
Qed.

Lemma free_all_keys : forall C h rnd q s s' o c x k ok,
  free_all C s q rnd = (s', o) ->
  (forall c p, st_conns s c = Some p -> In (Connect c (pc_cfp p) (pc_dfp p)) h) ->
  (forall r, In r q -> req_ok h r) ->
  In (Exchanged c x k ok) o -> calculate_key C x = (k, ok) /\ exchange_origin h c x.
Proof.
  intros C h rnd. induction q as [|r q IH]; simpl; intros s s' o c x k ok H F R I.
  - inversion H; subst. destruct I.
  - destruct (password_ready C s r None (rnd (rq_id r))) as [s1 o1] eqn:E1.
    destruct (free_all C s1 q rnd) as [s2 o2] eqn:E2. inversion H; subst; clear H.
    apply in_app_or in I. destruct I as [I|I].
    + eapply ready_keys; eauto.
    + eapply IH; eauto. intros e p P. destruct (ready_fps _ _ _ _ _ _ _ E1 _ _ P) as (p0 & P0 & -> & ->). auto.
Qed.

Lemma in_remove : forall l r q, In q (remove_request l r) <-> In q l /\ rq_id q <> r.
Proof.
  intros. unfold remove_request. rewrite filter_In. rewrite negb_true_iff, Nat.eqb_neq. tauto.
Qed.

Lemma in_mark : forall l r q, In q (mark_handled l r) ->
  exists q0, In q0 l /\ rq_id q = rq_id q0 /\ rq_conn q = rq_conn q0 /\ rq_user q = rq_user q0 /\ rq_T q = rq_T q0
    /\ (rq_handled q = if Nat.eqb (rq_id q0) r then true else rq_handled q0).
Proof.
  intros l r q H. unfold mark_handled in H. apply in_map_iff in H. destruct H as (q0 & E & I).
  exists q0. destruct (Nat.eqb (rq_id q0) r); subst q; simpl; repeat split; auto.
Qed.

Lemma find_app_in : forall s r q, find_app s r = Some q -> In q (st_app s) /\ rq_id q = r.
Proof.
  intros s r q H. unfold find_app in H. apply find_some in H. destruct H as [A B].
  apply Nat.eqb_eq in B. auto.
Qed.

(** Steps without new requests or keys. *)
Lemma hist_frame : forall C h s l x s' o,
  hist_ok C h s l -> is_request x = false -> st_next s' = st_next s ->
  fps_same s s' ->
  (forall q, In q (st_queue s' ++ st_app s') -> req_ok (h ++ [x]) q) ->
  (forall c e k ok, In (Exchanged c e k ok) o -> calculate_key C e = (k, ok) /\ exchange_origin (h ++ [x]) c e) ->
  hist_ok C (h ++ [x]) s' (l ++ o).
Proof.
  intros C h s l x s' o [A B D E] R N F Q K. constructor.
  - rewrite requests_app, N, A. unfold requests_in; simpl. rewrite R. simpl. lia.
  - intros c p P. destruct (F _ _ P) as (p0 & P0 & -> & ->). apply in_or_app. left. auto.
  - exact Q.
  - intros c e k ok I. apply in_app_or in I. destruct I as [I|I]; [|auto].
    destruct (E _ _ _ _ I) as [E1 E2]. split; [auto|]. apply origin_app; auto.
Qed.

Lemma hist_request : forall C h s l x s' o,
  hist_ok C h s l -> is_request x = true -> st_next s' = S (st_next s) ->
  fps_same s s' ->
  (forall q, In q (st_queue s' ++ st_app s') -> req_ok (h ++ [x]) q) ->
  (forall c e k ok, ~ In (Exchanged c e k ok) o) ->
  hist_ok C (h ++ [x]) s' (l ++ o).
Proof.
  intros C h s l x s' o [A B D E] R N F Q K. constructor.
  - rewrite requests_app, N, A. unfold requests_in; simpl. rewrite R. simpl. lia.
  - intros c p P. destruct (F _ _ P) as (p0 & P0 & -> & ->). apply in_or_app. left. auto.
  - exact Q.
  - intros c e k ok I. apply in_app_or in I. destruct I as [I|I]; [|exfalso; eapply K; eauto].
    destruct (E _ _ _ _ I) as [E1 E2]. split; [auto|]. apply origin_app; auto.
Qed.

Lemma req_ok_app : forall h x q, req_ok h q -> req_ok (h ++ [x]) q.
Proof. intros. apply asked_app; auto. Qed.

Ltac hf := eapply hist_frame; [eassumption|reflexivity|reflexivity|apply fps_eq; reflexivity|first [assumption|idtac]|first [match goal with NK : _ |- _ => apply NK; noex end|idtac]].
Ltac hr := eapply hist_request; [eassumption|reflexivity|reflexivity|first [apply fps_eq; reflexivity|idtac]|first [assumption|idtac]|noex].

Lemma step_hist : forall C h s l x s' o,
  hist_ok C h s l -> step C s x = Some (s', o) -> hist_ok C (h ++ [x]) s' (l ++ o).
Proof.
  intros C h s l x s' o I H.
  assert (Q0 : forall q, In q (st_queue s ++ st_app s) -> req_ok (h ++ [x]) q)
    by (intros q J; apply req_ok_app, (ho_req _ _ _ _ I); auto).
  assert (FP : forall c p, st_conns s c = Some p -> In (Connect c (pc_cfp p) (pc_dfp p)) (h ++ [x]))
    by (intros c p P; apply in_or_app; left; eapply ho_fp; eauto).
  assert (NK : forall (o : list out), (forall c e k ok, ~ In (Exchanged c e k ok) o) ->
     forall c e k ok, In (Exchanged c e k ok) o -> calculate_key C e = (k, ok) /\ exchange_origin (h ++ [x]) c e)
    by (intros o' N c e k ok J; exfalso; eapply N; eauto).
  destruct x; simpl in H.
  - inversion H; subst. hf.
  - destruct (st_timer s) as [d|]; [|discriminate]. destruct (N.leb _ _); [|discriminate].
    inversion H; subst. hf.
  - destruct (negb _) eqn:E; [discriminate|]. inversion H; subst; clear H.
    apply negb_false_iff, Nat.eqb_eq in E. subst c.
    destruct I as [A B D E]. constructor; simpl.
    + rewrite requests_app, A. unfold requests_in; simpl. lia.
    + intros c p. unfold set_conn. destruct (Nat.eqb_spec c (st_refs s)) as [->|n].
      * intros P; inversion P; subst. simpl. apply in_or_app. right. left. auto.
      * intros P. auto.
    + auto.
    + rewrite app_nil_r. intros c e k ok J. destruct (E _ _ _ _ J). split; [auto|apply origin_app; auto].
  - destruct (st_conns s c) eqn:P; [|discriminate]. inversion H; subst; clear H.
    eapply hist_frame; [eassumption|reflexivity|reflexivity| |assumption|apply NK; noex].
    intros e q. simpl. unfold set_conn. destruct (Nat.eqb e c); [discriminate|eauto].
  - destruct (st_conns s c); [|discriminate]. inversion H as [H1]; clear H. revert H1. unfold handle_1.
    destruct (N.eqb _ _); [intros H1; inversion H1; subst; hr|].
    destruct (negb _); [intros H1; inversion H1; subst; hr|].
    destruct b; intros H1; inversion H1; subst; clear H1;
      try (hr).
    assert (NEW : req_ok (h ++ [Step1 c (BRequest user T)])
       {| rq_id := st_next s; rq_conn := c; rq_user := user; rq_T := T; rq_handled := false |}).
    { exists h, []. split; [reflexivity|]. simpl. symmetry. eapply ho_next; eauto. }
    eapply hist_request; [exact I|reflexivity| | | |noex].
    + unfold add_event. destruct (st_waiting _); reflexivity.
    + unfold add_event. destruct (st_waiting _); apply fps_eq; reflexivity.
    + intros q J. unfold add_event in J.
      destruct (st_waiting _); simpl in J; repeat (apply in_app_or in J; destruct J as [J|J]);
        try (destruct J as [<-|[]]; exact NEW); apply Q0; apply in_or_app; auto.
  - destruct (st_conns s c) as [p|] eqn:P; [|discriminate].
    inversion H as [H1]; clear H. revert H1. unfold handle_2.
    destruct (N.eqb _ _); [intros H1; inversion H1; subst; hr|].
    destruct (negb _); [intros H1; inversion H1; subst; hr|].
    destruct payload as [d|]; [|intros H1; inversion H1; subst; hr].
    destruct (negb _); [intros H1; inversion H1; subst; hr|].
    destruct (negb _); [intros H1; inversion H1; subst; hr|].
    destruct (String.eqb _ _); intros H1; inversion H1; subst;
      hr.
    intros e q. simpl. unfold set_conn. destruct (Nat.eqb_spec e c) as [->|]; [|eauto].
    intros J; inversion J; subst. exists p. auto.
  - destruct (st_listening s); inversion H; subst; hf.
    intros q J. simpl in J. apply Q0. apply in_or_app. auto.
  - destruct (st_listening s).
    2:{ inversion H; subst; hf. }
    frame H. inversion H; subst; clear H. pose proof (free_all_frame _ _ _ _ _ _ Er) as (_ & L & _).
    destruct L as (L1 & L2 & L3 & L4 & L5 & L6).
    eapply hist_frame; eauto.
    + intros c p J. simpl in J. eapply free_all_fps; eauto.
    + simpl. rewrite L4. intros q J. apply Q0. apply in_or_app. auto.
    + intros c e k ok J. apply in_app_or in J. destruct J as [J|[J|[]]]; [|discriminate].
      eapply free_all_keys; eauto. intros r J'. apply Q0, in_or_app. auto.
  - destruct (negb _); [inversion H; subst; hf|].
    destruct (st_waiting s); [inversion H; subst; hf|].
    destruct (st_queue s) as [|r q] eqn:QQ; inversion H; subst; hf.
    simpl. intros r0 J. apply Q0. simpl. repeat (apply in_app_or in J; destruct J as [J|J]).
    + right. apply in_or_app; auto.
    + right. apply in_or_app; auto.
    + destruct J as [J|[]]; auto.
  - destruct (find_app s r) as [q|] eqn:FA; [|discriminate]. apply find_app_in in FA. destruct FA as [FA <-].
    destruct (rq_handled q); [inversion H; subst; hf|].
    frame H. inversion H; subst; clear H. pose proof (ready_frame _ _ _ _ _ _ _ Er) as (_ & L & _).
    destruct L as (L1 & L2 & L3 & L4 & L5 & L6).
    eapply hist_frame; eauto.
    + intros c p J. simpl in J. eapply ready_fps; eauto.
    + simpl. rewrite L3, L4. intros q0 J. apply in_app_or in J. destruct J as [J|J].
      * apply Q0, in_or_app; auto.
      * apply in_mark in J. destruct J as (q1 & J & A1 & A2 & A3 & A4 & _).
        assert (R : req_ok (h ++ [SetPassword (rq_id q) pw rnd]) q1) by (apply Q0, in_or_app; auto).
        unfold req_ok. rewrite A1, A2, A3, A4. exact R.
    + intros c e k ok J. apply in_app_or in J. destruct J as [J|[J|[]]]; [|discriminate].
      eapply ready_keys; eauto.
      * apply Q0, in_or_app; auto.
      * right. apply in_or_app. right. left. reflexivity.
  - destruct (find_app s r) as [q|] eqn:FA; [|discriminate]. apply find_app_in in FA. destruct FA as [FA <-].
    destruct (rq_handled q).
    { inversion H; subst; hf.
      simpl. intros q0 J. apply in_app_or in J. destruct J as [J|J]; [apply Q0, in_or_app; auto|].
      apply in_remove in J. apply Q0, in_or_app. tauto. }
    frame H. inversion H; subst; clear H. pose proof (ready_frame _ _ _ _ _ _ _ Er) as (_ & L & _).
    destruct L as (L1 & L2 & L3 & L4 & L5 & L6).
    eapply hist_frame; eauto.
    + intros c p J. simpl in J. eapply ready_fps; eauto.
    + simpl. rewrite L3, L4. intros q0 J. apply in_app_or in J. destruct J as [J|J]; [apply Q0, in_or_app; auto|].
      apply in_remove in J. apply Q0, in_or_app. tauto.
    + intros c e k ok J. eapply ready_keys; eauto. apply Q0, in_or_app; auto.
Qed.

Lemma run_hist : forall C h s l, run C init h = Some (s, l) -> hist_ok C h s l.
Proof.
  intros C. apply (run_ind_h C (hist_ok C)).
  - constructor; simpl; try discriminate; try reflexivity; try (intros; contradiction).
  - intros. eapply step_hist; eauto.
Qed.

Lemma authenticated_proved : forall C h s l c,
  run C init h = Some (s, l) -> is_password_authenticated s c = true ->
  exists x k ok, proved_key C c x k ok l /\ calculate_key C x = (k, ok) /\ exchange_origin h c x.
Proof.
  intros C h s l c H A. unfold is_password_authenticated in A.
  destruct (st_conns s c) as [p|] eqn:P; [|discriminate].
  pose proof (run_conns _ _ _ _ H) as (K & _). destruct (K _ _ P) as (_ & K2 & _).
  destruct (K2 A) as (x & k & ok & Q). exists x, k, ok. split; [auto|].
  apply (ho_key _ _ _ _ (run_hist _ _ _ _ H)). destruct Q as (l1 & l2 & l3 & -> & _).
  apply in_or_app. right. left. reflexivity.
Qed.

Lemma authenticated_identity : forall C h s l c u,
  run C init h = Some (s, l) -> is_password_authenticated s c = true -> get_username s c = UOk u ->
  (forall l1 d l2, l = l1 ++ Checked c d true :: l2 -> no_exchange c l2) ->
  (forall x k, ~ In (Exchanged c x k false) l) ->
  proved_as C c u l.
Proof.
  intros C h s l c u H A G N F. unfold is_password_authenticated in A. unfold get_username in G.
  destruct (st_conns s c) as [p|] eqn:P; [|discriminate].
  pose proof (run_conns _ _ _ _ H) as (K & _). destruct (K _ _ P) as (_ & K2 & K3).
  destruct (K2 A) as (x & k & ok & Q). pose proof Q as Q'. destruct Q as (l1 & l2 & l3 & E & N2).
  assert (N3 : no_exchange c l3).
  { eapply (N (l1 ++ Exchanged c x k ok :: l2)). rewrite E, <- app_assoc. reflexivity. }
  destruct ok.
  2:{ exfalso. apply (F x k). rewrite E. apply in_or_app. right. left. reflexivity. }
  exists x, k. split; [auto|].
  destruct (pc_user p) as [u'|] eqn:U; [|discriminate].
  assert (u' = u) by (destruct u'; inversion G; auto). subst u'.
  destruct (K3 u eq_refl) as (m1 & x' & k' & m2 & E' & <- & N').
  (* the last exchange is unique *)
  set (rest := l2 ++ Checked c (confirmation C k) true :: l3) in *.
  assert (NR : no_exchange c rest).
  { apply no_exchange_app. split; [auto|]. intros x0 k0 ok0 [J|J]; [discriminate|eapply N3; eauto]. }
  rewrite E in E'. clear - E' N' NR.
  assert (G : forall a b, b ++ Exchanged c x k true :: rest = a ++ Exchanged c x' k' true :: m2 -> x = x').
  { clearbody rest. clear E'. intros a. induction a as [|y a IH]; intros [|z b] J; simpl in J.
    - inversion J; auto.
    - inversion J; subst. exfalso. eapply N'. apply in_or_app. right. left. reflexivity.
    - inversion J; subst. exfalso. eapply NR. apply in_or_app. right. left. reflexivity.
    - inversion J. eauto. }
  f_equal. eapply G; eauto.
Qed.

(** ** C22: one answer per request *)

Definition live (s : state) : list nat :=
  map rq_id (filter (fun q => negb (rq_handled q)) (st_queue s ++ st_app s)).

Record ans_ok (s : state) (l : list out) : Prop := {
  an_queue : forall q, In q (st_queue s) -> rq_handled q = false;
  an_nodup : NoDup (map rq_id (st_queue s ++ st_app s));
  an_lt : forall q, In q (st_queue s ++ st_app s) -> rq_id q < st_next s;
  an_wait : st_listening s = false -> st_queue s = [];
  an_wait2 : st_waiting s = true -> st_queue s = [];
  an_count : forall r, count (answers_request r) l + count_occ Nat.eq_dec (live s) r =
      if Nat.ltb r (st_next s) then 1 else 0 }.

Lemma live_app : forall a b,
  map rq_id (filter (fun q => negb (rq_handled q)) (a ++ b)) =
  map rq_id (filter (fun q => negb (rq_handled q)) a) ++ map rq_id (filter (fun q => negb (rq_handled q)) b).
Proof. intros. rewrite filter_app, map_app. reflexivity. Qed.

Lemma all_live : forall q, (forall x, In x q -> rq_handled x = false) ->
  filter (fun q => negb (rq_handled q)) q = q.
Proof.
  induction q as [|x q IH]; simpl; intros H; [auto|]. rewrite (H x) by auto. simpl. rewrite IH; auto.
Qed.

Lemma occ_app : forall a b r, count_occ Nat.eq_dec (a ++ b) r = count_occ Nat.eq_dec a r + count_occ Nat.eq_dec b r.
Proof. induction a as [|x a IH]; simpl; intros; [auto|]. destruct (Nat.eq_dec x r); rewrite IH; auto. Qed.

Lemma live_occ_not_in : forall l r, (forall q, In q l -> rq_id q <> r) ->
  count_occ Nat.eq_dec (map rq_id (filter (fun q => negb (rq_handled q)) l)) r = 0.
Proof.
  intros l r H. apply count_occ_not_In. intros I. apply in_map_iff in I. destruct I as (q & E & I).
  apply filter_In in I. eapply H; [apply I|auto].
Qed.

(** Removing or marking the only unhandled object with id r. *)
Lemma occ_settle : forall l q r, NoDup (map rq_id l) -> In q l -> rq_id q = r -> rq_handled q = false ->
  forall i, count_occ Nat.eq_dec (map rq_id (filter (fun q => negb (rq_handled q)) l)) i =
     (if Nat.eq_dec r i then 1 else 0) +
     count_occ Nat.eq_dec (map rq_id (filter (fun q => negb (rq_handled q)) (mark_handled l r))) i
  /\ count_occ Nat.eq_dec (map rq_id (filter (fun q => negb (rq_handled q)) (mark_handled l r))) i =
     count_occ Nat.eq_dec (map rq_id (filter (fun q => negb (rq_handled q)) (remove_request l r))) i.
Proof.
  induction l as [|x l IH]; intros q r ND I E Hh i; [destruct I|].
  simpl in ND. inversion ND as [|? ? N1 N2]; subst.
  destruct I as [->|I].
  - simpl. rewrite Nat.eqb_refl. simpl. rewrite Hh. simpl.
    assert (M : mark_handled l (rq_id q) = l /\ remove_request l (rq_id q) = l).
    { clear - N1. induction l as [|y l IH]; [auto|]. simpl in N1.
      assert (rq_id y <> rq_id q) by (intros e; apply N1; left; auto).
      destruct IH as [A B]; [intros J; apply N1; right; auto|]. simpl.
      apply Nat.eqb_neq in H. rewrite H. simpl.
      split; f_equal; [exact A|exact B]. }
    destruct M as [M1 M2]. unfold mark_handled, remove_request in *. rewrite M1, M2. destruct (Nat.eq_dec (rq_id q) i); split; auto.
  - assert (rq_id x <> rq_id q) by (intros e; apply N1; rewrite e; apply in_map; auto).
    pose proof H as H'. apply Nat.eqb_neq in H'. simpl. rewrite H'. simpl.
    destruct (IH q (rq_id q) N2 I eq_refl Hh i) as [A B].
    unfold mark_handled, remove_request in *.
    destruct (rq_handled x); simpl; [auto|].
    destruct (Nat.eq_dec (rq_id x) i) as [e|e]; [|auto].
    rewrite A, B. split; auto; lia.
Qed.

Lemma mark_ids : forall l r, map rq_id (mark_handled l r) = map rq_id l.
Proof.
  intros. unfold mark_handled. rewrite map_map. apply map_ext. intros q.
  destruct (Nat.eqb (rq_id q) r); auto.
Qed.

Lemma NoDup_app_remove : forall (a b : list nat), NoDup (a ++ b) -> NoDup b.
Proof. induction a; simpl; intros b H; [auto|]. inversion H; auto. Qed.

Lemma remove_nodup : forall q l r, NoDup (map rq_id (q ++ l)) -> NoDup (map rq_id (q ++ remove_request l r)).
Proof.
  assert (G : forall l r, NoDup (map rq_id l) -> NoDup (map rq_id (remove_request l r))).
  { induction l as [|y l IH]; simpl; intros r H; [auto|]. inversion H; subst.
    destruct (negb _); simpl; [|apply IH; auto].
    constructor; [|apply IH; auto].
    intros J. apply in_map_iff in J. destruct J as (z & E & J). apply in_remove in J.
    apply H2. rewrite <- E. apply in_map. tauto. }
  induction q as [|x q IH]; simpl; intros l r H; [apply G; auto|].
  inversion H; subst. constructor; [|apply IH; auto].
  intros J. apply H2. apply in_map_iff in J. destruct J as (y & E & J). rewrite <- E.
  apply in_map. apply in_app_or in J. apply in_or_app. destruct J as [J|J]; [auto|].
  apply in_remove in J. tauto.
Qed.

Lemma ans_frame : forall s s' l o, ans_ok s l ->
  st_queue s' = st_queue s -> st_app s' = st_app s -> st_next s' = st_next s ->
  (st_listening s' = false -> st_listening s = false) ->
  (st_waiting s' = true -> st_queue s = []) ->
  (forall r, count (answers_request r) o = 0) -> ans_ok s' (l ++ o).
Proof.
  intros s s' l o [A B D E E2 F] Q P N L W O. constructor; rewrite ?Q, ?P, ?N; auto.
  intros r. rewrite count_app, O. unfold live. rewrite Q, P. specialize (F r). unfold live in F. lia.
Qed.

Lemma ans_now : forall s s' l o, ans_ok s l ->
  st_queue s' = st_queue s -> st_app s' = st_app s -> st_next s' = S (st_next s) ->
  st_listening s' = st_listening s -> st_waiting s' = st_waiting s ->
  (forall r, count (answers_request r) o = if Nat.eqb r (st_next s) then 1 else 0) -> ans_ok s' (l ++ o).
Proof.
  intros s s' l o [A B D E E2 F] Q P N L W O. constructor; rewrite ?Q, ?P, ?N, ?L, ?W; auto.
  - intros q I. specialize (D q I). lia.
  - intros r. rewrite count_app, O. unfold live. rewrite Q, P. specialize (F r). unfold live in F.
    destruct (Nat.eqb_spec r (st_next s)) as [->|n].
    + rewrite Nat.ltb_irrefl in F. destruct (Nat.ltb_spec (st_next s) (S (st_next s))); lia.
    + destruct (Nat.ltb_spec r (S (st_next s))); destruct (Nat.ltb_spec r (st_next s)); lia.
Qed.

Lemma one_answer : forall i n r, count (answers_request r) [Answer i n] = if Nat.eqb r i then 1 else 0.
Proof. intros. unfold count. simpl. destruct (Nat.eqb r i); auto. Qed.
Lemma one_answer2 : forall i n r c d b, count (answers_request r) [Checked c d b; Answer i n] = if Nat.eqb r i then 1 else 0.
Proof. intros. unfold count. simpl. destruct (Nat.eqb r i); auto. Qed.

Ltac anow := eapply ans_now; [eassumption|reflexivity|reflexivity|reflexivity|reflexivity|reflexivity|
   intros; first [apply one_answer|apply one_answer2]].
Ltac aframe := eapply ans_frame; [eassumption|reflexivity|reflexivity|reflexivity|auto|auto|intros; reflexivity].

Lemma step_ans : forall C s l x s' o, ans_ok s l -> step C s x = Some (s', o) -> ans_ok s' (l ++ o).
Proof.
  intros C s l x s' o I H. pose proof (an_wait _ _ I) as W0. pose proof (an_wait2 _ _ I) as W1.
  destruct x; simpl in H.
  - inversion H; subst. aframe.
  - destruct (st_timer s) as [d|]; [|discriminate]. destruct (N.leb _ _); [|discriminate].
    inversion H; subst. aframe.
  - destruct (negb _); [discriminate|]. inversion H; subst. aframe.
  - destruct (st_conns s c); [|discriminate]. inversion H; subst. aframe.
  - destruct (st_conns s c); [|discriminate]. inversion H as [H1]; clear H. revert H1. unfold handle_1.
    destruct (N.eqb _ _); [intros H1; inversion H1; subst; anow|].
    destruct (st_listening (bump s)) eqn:L; simpl; [|intros H1; inversion H1; subst; anow].
    destruct b; intros H1; inversion H1; subst; clear H1; try anow.
    simpl in L.
    set (q := {| rq_id := st_next s; rq_conn := c; rq_user := user; rq_T := T; rq_handled := false |}).
    destruct I as [A B D E E2 F].
    assert (NI : ~ In (st_next s) (map rq_id (st_queue s ++ st_app s))).
    { intros J. apply in_map_iff in J. destruct J as (q0 & J1 & J2). specialize (D q0 J2). lia. }
    assert (FR : forall r, (count (answers_request r) l + (count_occ Nat.eq_dec (live s) r
        + (if Nat.eq_dec (st_next s) r then 1 else 0)) = if Nat.ltb r (S (st_next s)) then 1 else 0)).
    { intros r. specialize (F r). destruct (Nat.eq_dec (st_next s) r) as [<-|n].
      - rewrite Nat.ltb_irrefl in F. destruct (Nat.ltb_spec (st_next s) (S (st_next s))); lia.
      - destruct (Nat.ltb_spec r (S (st_next s))); destruct (Nat.ltb_spec r (st_next s)); lia. }
    unfold add_event. change (st_waiting (bump s)) with (st_waiting s).
    destruct (st_waiting s) eqn:W; constructor; simpl.
    + auto.
    + rewrite app_assoc, map_app. simpl. apply NoDup_Add with (a := st_next s) (l := map rq_id (st_queue s ++ st_app s)).
      * rewrite <- (app_nil_r (map rq_id (st_queue s ++ st_app s))) at 1. apply Add_app.
      * auto.
    + intros q0 J. rewrite app_assoc in J. apply in_app_or in J. destruct J as [J|[<-|[]]]; [|simpl; lia].
      specialize (D q0 J). lia.
    + auto.
    + discriminate.
    + intros r. rewrite app_nil_r. unfold live. simpl. rewrite app_assoc, live_app, occ_app. simpl. apply FR.
    + intros q0 J. apply in_app_or in J. destruct J as [J|[<-|[]]]; auto.
    + rewrite <- app_assoc. simpl. rewrite map_app. simpl.
      apply NoDup_Add with (a := st_next s) (l := map rq_id (st_queue s ++ st_app s)).
      * rewrite map_app. apply Add_app.
      * auto.
    + intros q0 J. rewrite <- app_assoc in J. simpl in J. apply in_app_or in J.
      destruct J as [J|[<-|J]]; [|simpl; lia|].
      * assert (In q0 (st_queue s ++ st_app s)) by (apply in_or_app; auto). specialize (D q0 H). lia.
      * assert (In q0 (st_queue s ++ st_app s)) by (apply in_or_app; auto). specialize (D q0 H). lia.
    + congruence.
    + discriminate.
    + intros r. rewrite app_nil_r. unfold live. simpl. rewrite <- app_assoc. simpl.
      rewrite live_app, occ_app. simpl. specialize (FR r). unfold live in FR. rewrite live_app, occ_app in FR.
      destruct (Nat.eq_dec (st_next s) r); lia.
  - destruct (st_conns s c) as [p|]; [|discriminate]. inversion H as [H1]; clear H. revert H1. unfold handle_2.
    destruct (N.eqb _ _); [intros H1; inversion H1; subst; anow|].
    destruct (negb _); [intros H1; inversion H1; subst; anow|].
    destruct payload as [d|]; [|intros H1; inversion H1; subst; anow].
    destruct (negb _); [intros H1; inversion H1; subst; anow|].
    destruct (negb _); [intros H1; inversion H1; subst; anow|].
    destruct (String.eqb _ _); intros H1; inversion H1; subst; anow.
  - destruct (st_listening s) eqn:L; inversion H; subst; [aframe|].
    destruct I as [A B D E E2 F]. rewrite (E L) in *. simpl in *. constructor; simpl; auto.
    intros r. rewrite count_app. specialize (F r). unfold live in *. simpl. rewrite (E L) in F. simpl in F.
    unfold count at 2. simpl. lia.
  - destruct (st_listening s) eqn:L.
    2:{ inversion H; subst. aframe. }
    frame H. inversion H; subst; clear H. apply free_all_frame in Er.
    destruct Er as (_ & (L1 & L2 & L3 & L4 & L5 & L6) & _ & K).
    destruct I as [A B D E E2 F]. constructor; simpl; rewrite ?L4, ?L5.
    + intros q [].
    + rewrite map_app in B. eapply NoDup_app_remove; eauto.
    + intros q J. apply D. apply in_or_app. auto.
    + auto.
    + auto.
    + intros r. rewrite app_assoc, !count_app, K. unfold live. simpl. rewrite ?L4.
      specialize (F r). unfold live in F. rewrite live_app, occ_app, all_live in F by auto.
      unfold count at 2. simpl. lia.
  - destruct (st_listening s) eqn:L; simpl in H; [|inversion H; subst; aframe].
    destruct (st_waiting s) eqn:W; [inversion H; subst; aframe|].
    destruct (st_queue s) as [|r q] eqn:Q.
    + inversion H; subst; clear H. destruct I as [A B D E E2 F]. constructor; simpl; auto.
      * intros x [].
      * rewrite Q in B. exact B.
      * intros x J. apply D. rewrite Q. exact J.
      * intros r. rewrite app_nil_r. specialize (F r). unfold live in *. simpl. rewrite Q in F. exact F.
    + inversion H; subst; clear H. destruct I as [A B D E E2 F]. rewrite Q in *. constructor; simpl.
      * intros x J. apply A. right; auto.
      * rewrite app_assoc, map_app. simpl. simpl in B. inversion B as [|y z N1 N2]; subst.
        eapply NoDup_Add with (a := rq_id r) (l := map rq_id (q ++ st_app s)); [|split; auto].
        rewrite <- (app_nil_r (map rq_id (q ++ st_app s))) at 1. apply Add_app.
      * intros x J. apply D. rewrite app_assoc in J. apply in_app_or in J. destruct J as [J|[<-|[]]]; simpl; auto.
      * congruence.
      * discriminate.
      * intros x. rewrite count_app. specialize (F x). unfold live in *. simpl. rewrite Q in F.
        simpl in F. rewrite (A r) in F by (left; auto). simpl in F.
        rewrite app_assoc, live_app, occ_app. simpl. rewrite (A r) by (left; auto). simpl.
        unfold count at 2. simpl. destruct (Nat.eq_dec (rq_id r) x); lia.
  - destruct (find_app s r) as [q|] eqn:FA; [|discriminate]. apply find_app_in in FA. destruct FA as [FA <-].
    destruct (rq_handled q) eqn:Hh; [inversion H; subst; aframe|].
    frame H. inversion H; subst; clear H. apply ready_frame in Er.
    destruct Er as (_ & (L1 & L2 & L3 & L4 & L5 & L6) & _ & K1 & K0).
    destruct I as [A B D E E2 F].
    assert (NDa : NoDup (map rq_id (st_app s))) by (rewrite map_app in B; eapply NoDup_app_remove; eauto).
    constructor; simpl; rewrite ?L1, ?L2, ?L3, ?L4, ?L5; auto.
    + rewrite map_app, mark_ids, <- map_app. auto.
    + intros y J. apply in_app_or in J. destruct J as [J|J]; [apply D, in_or_app; auto|].
      apply in_mark in J. destruct J as (y0 & J & -> & _). apply D, in_or_app; auto.
    + intros i. rewrite app_assoc, !count_app. unfold live. simpl. rewrite ?L3, ?L4.
      specialize (F i). unfold live in F. rewrite live_app, occ_app in F. rewrite live_app, occ_app.
      destruct (occ_settle _ q _ NDa FA eq_refl Hh i) as [O _].
      unfold count at 3. simpl. rewrite O in F.
      destruct (Nat.eq_dec (rq_id q) i) as [<-|n]; [rewrite K1|rewrite K0 by auto]; lia.
  - destruct (find_app s r) as [q|] eqn:FA; [|discriminate]. apply find_app_in in FA. destruct FA as [FA <-].
    pose proof (an_nodup _ _ I) as B0.
    assert (NDa : NoDup (map rq_id (st_app s))) by (rewrite map_app in B0; eapply NoDup_app_remove; eauto).
    destruct (rq_handled q) eqn:Hh.
    + inversion H; subst; clear H. destruct I as [A B D E E2 F]. constructor; simpl; auto.
      * apply remove_nodup; auto.
      * intros y J. apply D. apply in_app_or in J. apply in_or_app. destruct J as [J|J]; [auto|].
        apply in_remove in J. tauto.
      * intros i. rewrite app_nil_r. specialize (F i). unfold live in *. simpl.
        rewrite live_app, occ_app in *. rewrite <- F. f_equal. f_equal.
        clear - FA Hh NDa. induction (st_app s) as [|y a IH]; [auto|]. simpl in NDa. inversion NDa; subst.
        simpl. destruct FA as [->|FA].
        -- rewrite Nat.eqb_refl. simpl. rewrite Hh. simpl.
           assert (remove_request a (rq_id q) = a) as R.
           { clear - H1. induction a as [|z a IH]; [auto|]. simpl in H1. simpl.
             destruct (Nat.eqb_spec (rq_id z) (rq_id q)) as [e|n]; [exfalso; apply H1; left; auto|].
             simpl. f_equal. apply IH. intros J. apply H1. right. auto. }
           unfold remove_request in *. rewrite R. auto.
        -- assert (rq_id y <> rq_id q) by (intros e; apply H1; rewrite e; apply in_map; auto).
           apply Nat.eqb_neq in H. rewrite H. simpl. destruct (negb (rq_handled y)); simpl; [|apply IH; auto].
           rewrite IH by auto. auto.
    + frame H. inversion H; subst; clear H. apply ready_frame in Er.
      destruct Er as (_ & (L1 & L2 & L3 & L4 & L5 & L6) & _ & K1 & K0).
      destruct I as [A B D E E2 F].
      constructor; simpl; rewrite ?L1, ?L2, ?L3, ?L4, ?L5; auto.
      * apply remove_nodup; auto.
      * intros y J. apply D. apply in_app_or in J. apply in_or_app. destruct J as [J|J]; [auto|].
        apply in_remove in J. tauto.
      * intros i. rewrite !count_app. unfold live. simpl. rewrite ?L3, ?L4.
        specialize (F i). unfold live in F. rewrite live_app, occ_app in F. rewrite live_app, occ_app.
        destruct (occ_settle _ q _ NDa FA eq_refl Hh i) as [O O2]. rewrite <- O2.
        rewrite O in F.
        destruct (Nat.eq_dec (rq_id q) i) as [<-|n]; [rewrite K1|rewrite K0 by auto]; lia.
Qed.

Lemma run_ans : forall C h s l, run C init h = Some (s, l) -> ans_ok s l.
Proof.
  intros C. apply (run_ind C ans_ok).
  - constructor; simpl; auto; try (intros q []); try constructor.
  - intros. eapply step_ans; eauto.
Qed.

Lemma outstanding_occ : forall s r, outstanding s r <-> In r (live s).
Proof.
  intros s r. unfold outstanding, live. rewrite in_map_iff. split.
  - intros (q & A & B & D). exists q. split; [auto|]. apply filter_In. rewrite D. auto.
  - intros (q & A & B). apply filter_In in B. destruct B as [B D]. apply negb_true_iff in D. eauto.
Qed.

Lemma answered_once : forall C h s l r, run C init h = Some (s, l) ->
  (r < requests_in h /\ ~ outstanding s r -> count (answers_request r) l = 1) /\
  (outstanding s r \/ requests_in h <= r -> count (answers_request r) l = 0).
Proof.
  intros C h s l r H. pose proof (run_ans _ _ _ _ H) as [A B D E E2 F].
  rewrite <- (ho_next _ _ _ _ (run_hist _ _ _ _ H)). specialize (F r).
  rewrite outstanding_occ.
  destruct (Nat.ltb_spec r (st_next s)); split.
  - intros [_ N]. apply (count_occ_not_In Nat.eq_dec) in N. lia.
  - intros [N|N]; [|lia]. apply (count_occ_In Nat.eq_dec) in N. lia.
  - lia.
  - lia.
Qed.

Lemma set_password_answers : forall C h s l r pw rnd,
  run C init (h ++ [SetPassword r pw rnd]) = Some (s, l) ->
  count (answers_request r) l = 1 /\
  forall pw' rnd', step C s (SetPassword r pw' rnd') = Some (s, [Returned EcInvalidState]).
Proof.
  intros C h s l r pw rnd H. pose proof (answered_once _ _ _ _ r H) as [A _].
  apply run_snoc in H. destruct H as (s0 & l1 & l2 & H0 & H1 & ->).
  pose proof (run_ans _ _ _ _ H0) as I. pose proof (ho_next _ _ _ _ (run_hist _ _ _ _ H0)) as N.
  simpl in H1. destruct (find_app s0 r) as [q|] eqn:FA; [|discriminate].
  pose proof (find_app_in _ _ _ FA) as [FI FE].
  assert (LT : r < requests_in h).
  { rewrite <- N, <- FE. apply (an_lt _ _ I). apply in_or_app. auto. }
  destruct (rq_handled q) eqn:Hh.
  - inversion H1; subst. split.
    + apply A. split; [rewrite requests_app; lia|]. intros (q' & J & E & Hq).
      assert (q' = q).
      { pose proof (an_nodup _ _ I) as ND.
        assert (FI' : In q (st_queue s ++ st_app s)) by (apply in_or_app; auto).
        clear - ND J FI' E. revert ND J FI'. induction (st_queue s ++ st_app s) as [|y a IH]; [intros _ []|].
        simpl. intros ND J K. inversion ND; subst. destruct J as [->|J], K as [->|K]; auto.
        - exfalso. apply H1. rewrite E. apply in_map. auto.
        - exfalso. apply H1. rewrite <- E. apply in_map. auto. }
      congruence.
    + intros pw' rnd'. simpl. rewrite FA, Hh. reflexivity.
  - frame H1. inversion H1; subst; clear H1. apply ready_frame in Er.
    destruct Er as (_ & (L1 & L2 & L3 & L4 & L5 & L6) & _).
    split.
    + apply A. split; [rewrite requests_app; lia|]. intros (q' & J & E & Hq). simpl in J.
      apply in_app_or in J. destruct J as [J|J].
      * pose proof (an_nodup _ _ I) as ND. rewrite map_app in ND. rewrite L3 in J.
        assert (K : In (rq_id q) (map rq_id (st_queue s0))) by (rewrite <- E; apply in_map; auto).
        assert (K2 : In (rq_id q) (map rq_id (st_app s0))) by (apply in_map; auto).
        clear - ND K K2. induction (map rq_id (st_queue s0)) as [|y a IH]; [destruct K|].
        simpl in ND. inversion ND; subst. destruct K as [->|K]; [|auto]. apply H1, in_or_app. auto.
      * apply in_mark in J. destruct J as (q0 & J & E1 & _ & _ & _ & Hm).
        rewrite <- E1, E in Hm. rewrite Nat.eqb_refl in Hm. congruence.
    + intros pw' rnd'. cbn [step].
      match goal with |- context [find_app ?t _] =>
        replace (find_app t (rq_id q)) with
        (Some {| rq_id := rq_id q; rq_conn := rq_conn q; rq_user := rq_user q; rq_T := rq_T q; rq_handled := true |})
      end; [reflexivity|].
      unfold find_app. simpl. rewrite L4. unfold find_app in FA. clear - FA.
      induction (st_app s0) as [|y a IH]; [discriminate|]. simpl in *.
      destruct (Nat.eqb_spec (rq_id y) (rq_id q)) as [e|n]; simpl.
      * inversion FA; subst. simpl. rewrite Nat.eqb_refl. reflexivity.
      * apply Nat.eqb_neq in n. rewrite n. auto.
Qed.

Lemma free_request_answers : forall C h s l r rnd,
  run C init (h ++ [FreeRequest r rnd]) = Some (s, l) -> count (answers_request r) l = 1.
Proof.
  intros C h s l r rnd H. pose proof (answered_once _ _ _ _ r H) as [A _].
  apply run_snoc in H. destruct H as (s0 & l1 & l2 & H0 & H1 & ->).
  pose proof (run_ans _ _ _ _ H0) as I. pose proof (ho_next _ _ _ _ (run_hist _ _ _ _ H0)) as N.
  simpl in H1. destruct (find_app s0 r) as [q|] eqn:FA; [|discriminate].
  pose proof (find_app_in _ _ _ FA) as [FI <-].
  assert (LT : rq_id q < requests_in h).
  { rewrite <- N. apply (an_lt _ _ I). apply in_or_app. auto. }
  apply A. split; [rewrite requests_app; lia|]. clear A. intros (q' & J & E & Hq).
  assert (J' : In q' (st_queue s0) \/ In q' (remove_request (st_app s0) (rq_id q))).
  { destruct (rq_handled q).
    - inversion H1; subst. simpl in J. apply in_app_or in J. auto.
    - frame H1. inversion H1; subst; clear H1. apply ready_frame in Er.
      destruct Er as (_ & (L1 & L2 & L3 & L4 & L5 & L6) & _). simpl in J. rewrite L3, L4 in J.
      apply in_app_or in J. auto. }
  destruct J' as [J'|J'].
  - pose proof (an_nodup _ _ I) as ND. rewrite map_app in ND.
    assert (K : In (rq_id q) (map rq_id (st_queue s0))) by (rewrite <- E; apply in_map; auto).
    assert (K2 : In (rq_id q) (map rq_id (st_app s0))) by (apply in_map; auto).
    clear - ND K K2. induction (map rq_id (st_queue s0)) as [|y a IH]; [destruct K|].
    simpl in ND. inversion ND; subst. destruct K as [->|K]; [|auto]. apply H1, in_or_app. auto.
  - apply in_remove in J'. tauto.
Qed.

Lemma stop_answers : forall C h s l r rnd,
  run C init (h ++ [StopListener rnd]) = Some (s, l) -> r < requests_in h ->
  (forall q, In q (st_app s) -> rq_id q <> r) -> count (answers_request r) l = 1.
Proof.
  intros C h s l r rnd H LT NA. pose proof (answered_once _ _ _ _ r H) as [A _].
  apply A. split; [rewrite requests_app; lia|]. intros (q' & J & E & Hq).
  apply run_snoc in H. destruct H as (s0 & l1 & l2 & H0 & H1 & ->).
  pose proof (run_ans _ _ _ _ H0) as I. simpl in H1.
  assert (Q : st_queue s = []).
  { destruct (st_listening s0) eqn:L.
    - frame H1. inversion H1; subst. reflexivity.
    - inversion H1; subst. apply (an_wait _ _ I L). }
  rewrite Q in J. simpl in J. eapply NA; eauto.
Qed.

(** ** The reported username is defined once authenticated *)

Definition named (s : state) : Prop := forall c p, st_conns s c = Some p ->
  (pc_auth p = true -> pc_has_key p = true) /\ (pc_has_key p = true -> pc_user p <> None).

Lemma ready_named : forall C s r pw rnd s' o, password_ready C s r pw rnd = (s', o) -> named s -> named s'.
Proof.
  intros C s r pw rnd s' o H N. unfold password_ready in H.
  destruct (st_conns s (rq_conn r)) as [p|] eqn:P; [|inversion H; subst; auto].
  destruct (calculate_key C _) as [k ok]. inversion H; subst; clear H.
  intros c q. simpl. unfold set_conn. destruct (Nat.eqb_spec c (rq_conn r)) as [->|n]; [|apply N].
  intros J; inversion J; subst; simpl. destruct (N _ _ P). destruct ok; [split; [auto|discriminate]|auto].
Qed.

Lemma free_all_named : forall C rnd l s s' o, free_all C s l rnd = (s', o) -> named s -> named s'.
Proof.
  intros C rnd. induction l as [|r l IH]; simpl; intros s s' o H N; [inversion H; subst; auto|].
  destruct (password_ready C s r None (rnd (rq_id r))) as [s1 o1] eqn:E1.
  destruct (free_all C s1 l rnd) as [s2 o2] eqn:E2. inversion H; subst.
  eapply IH; [eauto|]. eapply ready_named; eauto.
Qed.

Lemma named_eq : forall s s', named s -> st_conns s' = st_conns s -> named s'.
Proof. intros s s' N E c p P. rewrite E in P. eauto. Qed.

Ltac nm := eapply named_eq; [eassumption|reflexivity].

Lemma step_named : forall C s x s' o, named s -> step C s x = Some (s', o) -> named s'.
Proof.
  intros C s x s' o N H. destruct x; simpl in H.
  - inversion H; subst. nm.
  - destruct (st_timer s) as [d|]; [|discriminate]. destruct (N.leb _ _); [|discriminate].
    inversion H; subst. nm.
  - destruct (negb _); [discriminate|]. inversion H; subst; clear H.
    intros e p. simpl. unfold set_conn. destruct (Nat.eqb e c); [|apply N].
    intros J; inversion J; subst; simpl. split; discriminate.
  - destruct (st_conns s c); [|discriminate]. inversion H; subst; clear H.
    intros e q. simpl. unfold set_conn. destruct (Nat.eqb e c); [discriminate|apply N].
  - destruct (st_conns s c); [|discriminate]. inversion H as [H1]; clear H. revert H1. unfold handle_1.
    destruct (N.eqb _ _); [intros H1; inversion H1; subst; nm|].
    destruct (negb _); [intros H1; inversion H1; subst; nm|].
    destruct b; intros H1; inversion H1; subst; try nm.
    unfold add_event. destruct (st_waiting _); nm.
  - destruct (st_conns s c) as [p|] eqn:P; [|discriminate].
    inversion H as [H1]; clear H. revert H1. unfold handle_2.
    destruct (N.eqb _ _); [intros H1; inversion H1; subst; nm|].
    destruct (negb _); [intros H1; inversion H1; subst; nm|].
    destruct payload as [d|]; [|intros H1; inversion H1; subst; nm].
    destruct (negb _); [intros H1; inversion H1; subst; nm|].
    destruct (pc_has_key p) eqn:K; simpl; [|intros H1; inversion H1; subst; nm].
    destruct (String.eqb _ _); intros H1; inversion H1; subst; [|nm].
    intros e q. simpl. unfold set_conn. destruct (Nat.eqb_spec e c) as [->|]; [|apply N].
    intros J; inversion J; subst; simpl. destruct (N _ _ P). auto.
  - destruct (st_listening s); inversion H; subst; nm.
  - destruct (st_listening s); [|inversion H; subst; nm]. frame H. inversion H; subst.
    pose proof (free_all_named _ _ _ _ _ _ Er N). nm.
  - destruct (negb _); [inversion H; subst; nm|]. destruct (st_waiting s); [inversion H; subst; nm|].
    destruct (st_queue s); inversion H; subst; nm.
  - destruct (find_app s r) as [q|]; [|discriminate]. destruct (rq_handled q); [inversion H; subst; nm|].
    frame H. inversion H; subst. pose proof (ready_named _ _ _ _ _ _ _ Er N). nm.
  - destruct (find_app s r) as [q|]; [|discriminate]. destruct (rq_handled q); [inversion H; subst; nm|].
    frame H. inversion H; subst. pose proof (ready_named _ _ _ _ _ _ _ Er N). nm.
Qed.

Lemma username_defined : forall C h s l c,
  run C init h = Some (s, l) -> is_password_authenticated s c = true -> get_username s c <> UUndefined.
Proof.
  intros C h s l c H A. assert (N : named s).
  { revert h s l H A. assert (G : forall h s l, run C init h = Some (s, l) -> named s).
    - intros h s l H. apply (run_ind C (fun s _ => named s)) with (3 := H).
      + intros e p. simpl. discriminate.
      + intros. eapply step_named; eauto.
    - intros. eapply G; eauto. }
  unfold is_password_authenticated, get_username in *. destruct (st_conns s c) as [p|] eqn:P; [|discriminate].
  destruct (N _ _ P) as [N1 N2]. destruct (pc_user p) as [[|a u]|] eqn:U; try discriminate.
  exfalso. apply N2; auto.
Qed.
