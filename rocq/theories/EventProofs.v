(** Proofs about the event queue. *)
From Coq Require Import List Bool Arith NArith ZArith Lia Sorted.
From Verif Require Import EventModel EventSpec.
Import ListNotations.

(** ** Timestamps *)
Lemma sub32_ge : forall a b, (b <= a)%N -> (a < b + 2 ^ 32)%N -> sub32 (u32 a) (u32 b) = (a - b)%N.
Proof.
  intros a b H1 H2. unfold sub32, u32. change (2 ^ 32)%N with 4294967296%N in *.
  rewrite !N.mod_mod by discriminate.
  pose proof (N.div_mod a 4294967296 ltac:(discriminate)) as Da.
  pose proof (N.div_mod b 4294967296 ltac:(discriminate)) as Db.
  pose proof (N.mod_lt a 4294967296 ltac:(discriminate)) as La.
  pose proof (N.mod_lt b 4294967296 ltac:(discriminate)) as Lb.
  set (qa := (a / 4294967296)%N) in *. set (qb := (b / 4294967296)%N) in *.
  set (ra := (a mod 4294967296)%N) in *. set (rb := (b mod 4294967296)%N) in *.
  symmetry. destruct (N.le_gt_cases rb ra).
  - apply (N.mod_unique _ _ 1); lia.
  - apply (N.mod_unique _ _ 0); lia.
Qed.

Lemma sub32_lt : forall a b, (a < b)%N -> (b <= a + 2 ^ 32)%N -> sub32 (u32 a) (u32 b) = u32 (2 ^ 32 - (b - a))%N.
Proof.
  intros a b H1 H2. unfold sub32, u32. change (2 ^ 32)%N with 4294967296%N in *.
  rewrite !N.mod_mod by discriminate.
  pose proof (N.div_mod a 4294967296 ltac:(discriminate)) as Da.
  pose proof (N.div_mod b 4294967296 ltac:(discriminate)) as Db.
  pose proof (N.mod_lt a 4294967296 ltac:(discriminate)) as La.
  pose proof (N.mod_lt b 4294967296 ltac:(discriminate)) as Lb.
  set (qa := (a / 4294967296)%N) in *. set (qb := (b / 4294967296)%N) in *.
  set (ra := (a mod 4294967296)%N) in *. set (rb := (b mod 4294967296)%N) in *.
  rewrite (N.mod_small (4294967296 - (b - a))) by lia.
  symmetry. destruct (N.le_gt_cases rb ra).
  - apply (N.mod_unique _ _ 1); lia.
  - apply (N.mod_unique _ _ 0); lia.
Qed.

Lemma le32 : forall a b, (a < b + 2 ^ 31)%N -> (b < a + 2 ^ 31)%N ->
  less_or_equal (u32 a) (u32 b) = N.leb a b.
Proof.
  intros a b H1 H2. unfold less_or_equal.
  change (2 ^ 31)%N with 2147483648%N in *.
  destruct (N.le_gt_cases b a) as [L|L].
  - rewrite sub32_ge by (try change (2 ^ 32)%N with 4294967296%N; lia).
    destruct (N.eqb_spec (a - b) 0), (N.leb_spec 2147483648 (a - b)), (N.leb_spec a b); simpl; lia.
  - rewrite sub32_lt by (try change (2 ^ 32)%N with 4294967296%N; lia).
    unfold u32. change (2 ^ 32)%N with 4294967296%N. rewrite N.mod_small by lia.
    destruct (N.eqb_spec (4294967296 - (b - a)) 0), (N.leb_spec 2147483648 (4294967296 - (b - a))), (N.leb_spec a b); simpl; lia.
Qed.

Lemma u32_u32 : forall a, u32 (u32 a) = u32 a.
Proof. intros. unfold u32. apply N.mod_mod. discriminate. Qed.

Lemma less_or_equal_r : forall a b, less_or_equal a b = less_or_equal a (u32 b).
Proof. intros. unfold less_or_equal, sub32. rewrite u32_u32. reflexivity. Qed.
Lemma sub32_r : forall a b, sub32 a b = sub32 a (u32 b).
Proof. intros. unfold sub32. rewrite u32_u32. reflexivity. Qed.

(** ** The lists represent the agenda *)
Definition upd (f : nat -> status) (e : nat) (x : status) : nat -> status :=
  fun g => if Nat.eqb g e then x else f g.

Record rep (ev : list nat) (ti : list (nat * N)) (f : nat -> status) (n : nat) : Prop := {
  rp_ev : forall e, In e ev <-> exists k, f e = Posted k;
  rp_evs : StronglySorted (fun a b => forall i j, f a = Posted i -> f b = Posted j -> i < j) ev;
  rp_lt : forall e k, f e = Posted k -> k < n;
  rp_ti : forall e x, In (e, x) ti <-> exists u, f e = Due u /\ x = u32 u;
  rp_tis : StronglySorted (fun a b => forall i j, f (fst a) = Due i -> f (fst b) = Due j -> (i <= j)%N) ti;
  rp_nd : NoDup ev /\ NoDup (map fst ti)
}.

Lemma rep_ext : forall ev ti f g n, (forall e, f e = g e) -> rep ev ti f n -> rep ev ti g n.
Proof.
  intros ev ti f g n E R. destruct R as [A B C D F G]. constructor; auto.
  - intros e. rewrite <- E. auto.
  - clear - B E. induction B; constructor; auto. eapply Forall_impl; [|exact H].
    simpl. intros x K i j. rewrite <- !E. auto.
  - intros e k. rewrite <- E. eauto.
  - intros e x. rewrite <- E. auto.
  - clear - F E. induction F; constructor; auto. eapply Forall_impl; [|exact H].
    simpl. intros x K i j. rewrite <- !E. auto.
Qed.

Lemma upd_eq : forall f e x, upd f e x e = x.
Proof. intros. unfold upd. rewrite Nat.eqb_refl. auto. Qed.
Lemma upd_ne : forall f e x g, g <> e -> upd f e x g = f g.
Proof. intros. unfold upd. destruct (Nat.eqb_spec g e); congruence. Qed.

Lemma ss_filter : forall (A : Type) (R : A -> A -> Prop) p l, StronglySorted R l -> StronglySorted R (filter p l).
Proof.
  induction 1 as [|a l H IH F]; simpl; [constructor|]. destruct (p a); [|auto]. constructor; auto.
  apply Forall_forall. intros x I. apply filter_In in I. rewrite Forall_forall in F. apply F. tauto.
Qed.

Lemma ss_impl : forall (A : Type) (R S : A -> A -> Prop) l,
  (forall a b, In a l -> In b l -> R a b -> S a b) -> StronglySorted R l -> StronglySorted S l.
Proof.
  intros A R S l H K. induction K as [|a l K IH F]; [constructor|].
  constructor.
  - apply IH. intros x y X Y. apply H; right; auto.
  - apply Forall_forall. intros x X. rewrite Forall_forall in F. apply H; [left|right|]; auto.
Qed.

Lemma drop_in : forall e l x, In x (drop e l) <-> In x l /\ x <> e.
Proof.
  intros. unfold drop. rewrite filter_In, negb_true_iff, Nat.eqb_neq. split; intros [A B]; auto.
Qed.
Lemma drop_timed_in : forall e l x, In x (drop_timed e l) <-> In x l /\ fst x <> e.
Proof.
  intros. unfold drop_timed. rewrite filter_In, negb_true_iff, Nat.eqb_neq. split; intros [A B]; auto.
Qed.

Lemma nodup_map_filter : forall (A B : Type) (f : A -> B) p l, NoDup (map f l) -> NoDup (map f (filter p l)).
Proof.
  induction l as [|a l IH]; simpl; intros H; [auto|]. inversion H; subst.
  destruct (p a); simpl; [|auto]. constructor; [|auto].
  intros I. apply H2. apply in_map_iff in I. destruct I as (x & E & I). apply filter_In in I.
  apply in_map_iff. exists x. tauto.
Qed.

Lemma rep_erase : forall ev ti f n e, rep ev ti f n ->
  rep (drop e ev) (drop_timed e ti) (upd f e Nothing) n.
Proof.
  intros ev ti f n e [A B C D F [G1 G2]]. constructor.
  - intros x. rewrite drop_in, A. destruct (Nat.eq_dec x e) as [->|N].
    + rewrite upd_eq. split; [tauto|intros [k K]; discriminate].
    + rewrite upd_ne by auto. tauto.
  - apply ss_filter. eapply ss_impl; [|exact B]. simpl. intros a b _ _ K i j.
    unfold upd. destruct (Nat.eqb a e); [discriminate|]. destruct (Nat.eqb b e); [discriminate|]. auto.
  - intros x k. unfold upd. destruct (Nat.eqb x e); [discriminate|]. eauto.
  - intros x y. rewrite drop_timed_in, D. simpl. destruct (Nat.eq_dec x e) as [->|N].
    + rewrite upd_eq. split; [tauto|intros (u & K & _); discriminate].
    + rewrite upd_ne by auto. tauto.
  - apply ss_filter. eapply ss_impl; [|exact F]. simpl. intros a b _ _ K i j.
    unfold upd. destruct (Nat.eqb (fst a) e); [discriminate|]. destruct (Nat.eqb (fst b) e); [discriminate|]. auto.
  - split; [apply NoDup_filter; auto|apply nodup_map_filter; auto].
Qed.

Lemma ss_snoc : forall (A : Type) (R : A -> A -> Prop) l x, StronglySorted R l ->
  (forall y, In y l -> R y x) -> StronglySorted R (l ++ [x]).
Proof.
  induction 1 as [|a l H IH F]; simpl; intros K; [repeat constructor|].
  constructor; [apply IH; auto|]. apply Forall_app. split; auto.
Qed.

Lemma nodup_snoc : forall (A : Type) (l : list A) x, NoDup l -> ~ In x l -> NoDup (l ++ [x]).
Proof.
  induction 1 as [|a l H IH IHl]; simpl; intros K; [repeat constructor; auto|].
  constructor; [|apply IHl; tauto]. rewrite in_app_iff. simpl. intuition.
Qed.

Lemma rep_append : forall ev ti f n e, rep ev ti f n -> f e = Nothing ->
  rep (ev ++ [e]) ti (upd f e (Posted n)) (S n).
Proof.
  intros ev ti f n e [A B C D F [G1 G2]] N. constructor.
  - intros x. rewrite in_app_iff. simpl. rewrite A. destruct (Nat.eq_dec x e) as [->|Ne].
    + rewrite upd_eq. split; [eauto|auto].
    + rewrite upd_ne by auto. split; [intros [K|[K|[]]]; [auto|congruence]|auto].
  - apply ss_snoc.
    + eapply ss_impl; [|exact B]. simpl. intros a b Ia Ib K i j.
      rewrite !upd_ne; [auto|intros ->; apply A in Ib; destruct Ib; congruence|intros ->; apply A in Ia; destruct Ia; congruence].
    + intros y I i j Hi Hj. rewrite upd_eq in Hj. inversion Hj; subst.
      rewrite upd_ne in Hi; [eauto|intros ->; apply A in I; destruct I; congruence].
  - intros x k. unfold upd. destruct (Nat.eqb x e); [intros K; inversion K; lia|]. intros K. apply C in K. lia.
  - intros x y. rewrite D. destruct (Nat.eq_dec x e) as [->|Ne].
    + rewrite upd_eq, N. split; intros (u & K & _); discriminate.
    + rewrite upd_ne by auto. tauto.
  - eapply ss_impl; [|exact F]. simpl. intros a b _ _ K i j.
    unfold upd. destruct (Nat.eqb (fst a) e); [discriminate|]. destruct (Nat.eqb (fst b) e); [discriminate|]. auto.
  - split; [|auto]. apply nodup_snoc; auto. intros I. apply A in I. destruct I. congruence.
Qed.

Lemma insert_in : forall e ts l x, In x (insert e ts l) <-> x = (e, ts) \/ In x l.
Proof.
  induction l as [|[f y] l IH]; intros x; cbn [insert].
  - simpl. intuition.
  - destruct (less_or_equal ts y); cbn [In]; [intuition|]. rewrite IH. intuition.
Qed.

Lemma insert_nodup : forall e ts l, NoDup (map fst l) -> ~ In e (map fst l) -> NoDup (map fst (insert e ts l)).
Proof.
  induction l as [|[f y] l IH]; intros ND NI; cbn [insert].
  - simpl. repeat constructor; auto.
  - destruct (less_or_equal ts y).
    + cbn [map fst]. constructor; auto.
    + cbn [map fst] in *. inversion ND; subst. constructor.
      * intros I. apply in_map_iff in I. destruct I as ([g z] & E & I). simpl in E. subst g.
        apply insert_in in I. destruct I as [I|I]; [inversion I; subst; apply NI; left; auto|].
        apply H1. apply in_map_iff. exists (f, z). auto.
      * apply IH; auto. intros I. apply NI. right. auto.
Qed.

Lemma rep_insert : forall ev ti f n e u, rep ev ti f n -> f e = Nothing ->
  (forall g v, f g = Due v -> (u < v + 2 ^ 31)%N /\ (v < u + 2 ^ 31)%N) ->
  rep ev (insert e (u32 u) ti) (upd f e (Due u)) n.
Proof.
  intros ev ti f n e u [A B C D F [G1 G2]] N W. 
  assert (NI : ~ In e (map fst ti)).
  { intros I. apply in_map_iff in I. destruct I as ([g z] & E & I). simpl in E. subst g.
    apply D in I. destruct I as (v & K & _). congruence. }
  constructor.
  - intros x. rewrite A. destruct (Nat.eq_dec x e) as [->|Ne].
    + rewrite upd_eq, N. split; intros [k K]; discriminate.
    + rewrite upd_ne by auto. tauto.
  - eapply ss_impl; [|exact B]. simpl. intros a b _ _ K i j.
    unfold upd. destruct (Nat.eqb a e); [discriminate|]. destruct (Nat.eqb b e); [discriminate|]. auto.
  - intros x k. unfold upd. destruct (Nat.eqb x e); [discriminate|]. eauto.
  - intros x y. rewrite insert_in, D. destruct (Nat.eq_dec x e) as [->|Ne].
    + rewrite upd_eq, N. split.
      * intros [K|(v & K & _)]; [inversion K; eauto|discriminate].
      * intros (v & K & ->). inversion K; auto.
    + rewrite upd_ne by auto. split; [intros [K|K]; [inversion K; congruence|auto]|auto].
  - (* sorted *)
    assert (S : forall l, (forall p, In p l -> In p ti) ->
      StronglySorted (fun a b => forall i j, f (fst a) = Due i -> f (fst b) = Due j -> (i <= j)%N) l ->
      StronglySorted (fun a b => forall i j, upd f e (Due u) (fst a) = Due i -> upd f e (Due u) (fst b) = Due j -> (i <= j)%N)
        (insert e (u32 u) l)).
    { induction l as [|[g x] l IH]; intros IN SS; cbn [insert]; [repeat constructor|].
      inversion SS as [|? ? SS1 SF]; subst.
      assert (Ig : In (g, x) ti) by (apply IN; left; auto).
      apply D in Ig. destruct Ig as (v & Fg & ->).
      destruct (W g v Fg) as [W1 W2]. rewrite le32 by auto.
      assert (OLD : forall p, In p l -> fst p <> e).
      { intros p I E. apply NI. rewrite <- E. apply in_map. apply IN. right. auto. }
      assert (Ng : g <> e) by (intros ->; congruence).
      assert (SSo : StronglySorted (fun a b => forall i j, upd f e (Due u) (fst a) = Due i -> upd f e (Due u) (fst b) = Due j -> (i <= j)%N) ((g, u32 v) :: l)).
      { eapply ss_impl; [|exact SS]. cbn beta. intros a b Ia Ib K i j.
        rewrite !upd_ne; [auto| |].
        - destruct Ib as [<-|Ib]; [auto|apply OLD; auto].
        - destruct Ia as [<-|Ia]; [auto|apply OLD; auto]. }
      destruct (N.leb_spec u v).
      - constructor; [exact SSo|]. apply Forall_forall. intros p I i j Hi Hj. simpl in Hi.
        rewrite upd_eq in Hi. inversion Hi; subst i; clear Hi.
        destruct I as [<-|I].
        + simpl in Hj. rewrite upd_ne in Hj by auto. congruence.
        + rewrite upd_ne in Hj by (apply OLD; auto). rewrite Forall_forall in SF.
          specialize (SF p I v j Fg Hj). lia.
      - constructor.
        + apply IH; [|auto]. intros p I. apply IN. right. auto.
        + apply Forall_forall. intros p I i j Hi Hj. simpl in Hi. rewrite upd_ne in Hi by auto.
          assert (i = v) by congruence. subst i. apply insert_in in I. destruct I as [->|I].
          * simpl in Hj. rewrite upd_eq in Hj. inversion Hj; subst. lia.
          * rewrite upd_ne in Hj by (apply OLD; auto). rewrite Forall_forall in SF.
            exact (SF p I v j Fg Hj). }
    apply S; auto.
  - split; [auto|]. apply insert_nodup; auto.
Qed.

(** ** Refinement *)
Record inv (s : st) (a : agenda) : Prop := {
  iv_now : a_now a = st_now s;
  iv_read : (a_read a <= a_now a)%N;
  iv_look : forall t, st_thr s = TLook t -> a_read a = t;
  iv_rep : rep (st_events s) (st_timed s) (a_status a) (a_posts a)
}.

Lemma init_inv : forall now, inv (init now) (start now).
Proof.
  intros. constructor; simpl; [reflexivity|reflexivity|discriminate|].
  constructor; simpl.
  - intros e. split; [intros []|intros [k K]; discriminate].
  - constructor.
  - intros e k K. discriminate.
  - intros e x. split; [intros []|intros (u & K & _); discriminate].
  - constructor.
  - split; constructor.
Qed.

Lemma signal_queue : forall s, st_now (signal s) = st_now s /\ st_events (signal s) = st_events s
  /\ st_timed (signal s) = st_timed s /\ st_freed (signal s) = st_freed s /\ st_stopped (signal s) = st_stopped s
  /\ (forall t, st_thr (signal s) = TLook t -> st_thr s = TLook t)
  /\ (forall e, st_thr (signal s) = TRun e <-> st_thr s = TRun e)
  /\ (forall d l, st_thr (signal s) <> TWait d l).
Proof.
  intros s. unfold signal. destruct (st_thr s) eqn:E; simpl; repeat split; auto; try discriminate; try congruence; intros; try (rewrite E; auto; fail); try congruence.
Qed.

Lemma memb_in : forall e l, memb e l = true <-> In e l.
Proof.
  intros. unfold memb. rewrite existsb_exists. split.
  - intros (x & I & E). apply Nat.eqb_eq in E. congruence.
  - intros I. exists e. rewrite Nat.eqb_refl. auto.
Qed.

Lemma in_list_status : forall s a e, inv s a -> in_list s e = false <-> a_status a e = Nothing.
Proof.
  intros s a e [_ _ _ R]. unfold in_list. rewrite orb_false_iff.
  assert (X : memb e (st_events s) = false <-> ~ In e (st_events s))
    by (rewrite <- memb_in; destruct (memb e (st_events s)); intuition congruence).
  assert (Y : memb e (map fst (st_timed s)) = false <-> ~ In e (map fst (st_timed s)))
    by (rewrite <- memb_in; destruct (memb e (map fst (st_timed s))); intuition congruence).
  rewrite X, Y. rewrite (rp_ev _ _ _ _ R).
  assert (Z : In e (map fst (st_timed s)) <-> exists u, a_status a e = Due u).
  { rewrite in_map_iff. split.
    - intros ([g z] & E & I). simpl in E. subst g. apply (rp_ti _ _ _ _ R) in I. destruct I as (u & K & _). eauto.
    - intros [u K]. exists (e, u32 u). split; [auto|]. apply (rp_ti _ _ _ _ R). eauto. }
  rewrite Z. split.
  - intros [K1 K2]. destruct (a_status a e) eqn:E; [auto|exfalso; eauto|exfalso; eauto].
  - intros E. rewrite E. split; intros [k K]; discriminate.
Qed.

Lemma erase_inv : forall s a e, inv s a -> inv (erase s e) (set_status a e Nothing).
Proof.
  intros s a e [A B C D]. constructor; simpl; auto. apply rep_erase. auto.
Qed.

Lemma append_inv : forall s a e, inv s a -> inv (append s e) (post a e).
Proof.
  intros s a e I. pose proof (in_list_status s a e I) as L. destruct I as [A B C D].
  unfold append, post. destruct (in_list s e) eqn:E.
  - destruct (a_status a e) eqn:X; [discriminate (proj2 L eq_refl)|constructor; auto..].
  - rewrite (proj1 L eq_refl). constructor; simpl; auto.
    eapply rep_ext; [|apply rep_append; [exact D|apply L; auto]]. intros x. reflexivity.
Qed.

Lemma signal_inv : forall s a, inv s a -> inv (signal s) a.
Proof.
  intros s a [A B C D]. destruct (signal_queue s) as (Q1 & Q2 & Q3 & _ & _ & Q4 & _).
  constructor; [congruence|auto| |rewrite Q2, Q3; auto]. intros t K. apply C. apply Q4. auto.
Qed.

Lemma post_timed_inv : forall s a e ms, inv s a -> (ms < 2 ^ 30)%N ->
  (forall f u, a_status a f = Due u -> (a_now a < u + 2 ^ 30)%N /\ (u < a_now a + 2 ^ 30)%N) ->
  inv (post_timed s e (u32 (st_now s + ms))) (set_status a e (Due (a_now a + ms)%N)).
Proof.
  intros s a e ms I M W. pose proof (erase_inv s a e I) as [A B C D].
  unfold post_timed. constructor; simpl; auto.
  simpl in D. rewrite <- (iv_now s a I).
  eapply rep_ext; [|apply rep_insert with (u := (a_now a + ms)%N); [exact D| |]].
  - intros x. unfold upd. destruct (Nat.eqb x e); auto.
  - simpl. rewrite Nat.eqb_refl. auto.
  - intros g v H. simpl in H. destruct (Nat.eqb g e); [discriminate|].
    apply W in H. change (2 ^ 30)%N with 1073741824%N in *. change (2 ^ 31)%N with 2147483648%N. lia.
Qed.

Lemma drop_notin : forall e l, ~ In e l -> drop e l = l.
Proof.
  induction l as [|x l IH]; simpl; intros H; [auto|]. destruct (Nat.eqb_spec e x); [subst; tauto|].
  simpl. f_equal. tauto.
Qed.
Lemma drop_timed_notin : forall e l, ~ In e (map fst l) -> drop_timed e l = l.
Proof.
  induction l as [|x l IH]; simpl; intros H; [auto|]. destruct (Nat.eqb_spec e (fst x)); [subst; tauto|].
  simpl. f_equal. tauto.
Qed.

Lemma look_inv : forall s a t s' o, inv s a -> st_thr s = TLook t -> look s t = (s', o) ->
  (a_now a < a_read a + 2 ^ 30)%N ->
  (forall f u, a_status a f = Due u -> (a_now a < u + 2 ^ 30)%N /\ (u < a_now a + 2 ^ 30)%N) ->
  inv s' (fold_left observe_out o a) /\
  exists x, o = [x] /\ match x with Taken e => may_take a e | Sleeps | Exits => quiet a | _ => False end.
Proof.
  intros s a t s' o I T L Rd W. pose proof I as [A B C R]. pose proof (C t T) as RT.
  unfold look in L. destruct R as [R1 R2 R3 R4 R5 [R6 R7]].
  destruct (st_events s) as [|e ev] eqn:EV.
  - assert (NP : forall f j, a_status a f <> Posted j).
    { intros f j K. assert (In f []) by (apply R1; eauto). contradiction. }
    destruct (st_timed s) as [|[e x] ti] eqn:TI.
    + assert (ND : forall f u, a_status a f <> Due u).
      { intros f u K. assert (In (f, u32 u) []) by (apply R4; eauto). contradiction. }
      assert (Q : quiet a) by (split; [auto|intros f u K; destruct (ND f u K)]).
      destruct (st_stopped s); inversion L; subst; simpl; (split; [|eexists; split; [reflexivity|exact Q]]);
        (constructor; simpl; [auto|auto|discriminate|]; rewrite EV, TI; constructor; auto).
    + assert (HD : exists u, a_status a e = Due u /\ x = u32 u) by (apply R4; left; auto).
      destruct HD as (u & Su & ->).
      assert (LE : less_or_equal (u32 u) t = N.leb u t).
      { rewrite less_or_equal_r. apply W in Su. apply le32;
        change (2 ^ 30)%N with 1073741824%N in *; change (2 ^ 31)%N with 2147483648%N; lia. }
      rewrite LE in L.
      assert (MIN : forall f v, a_status a f = Due v -> (u <= v)%N).
      { intros f v K. assert (IN : In (f, u32 v) ((e, u32 u) :: ti)) by (apply R4; eauto).
        destruct IN as [IN|IN]; [inversion IN; subst; assert (u = v) by congruence; lia|].
        inversion R5 as [|? ? _ F]; subst. rewrite Forall_forall in F.
        exact (F _ IN u v Su K). }
      destruct (N.leb_spec u t).
      * inversion L; subst; simpl. split; [|eexists; split; [reflexivity|]].
        -- pose proof (erase_inv s a e I) as [E1 E2 _ E4]. constructor; simpl; auto; [discriminate|].
           unfold erase in E4. simpl in E4. rewrite EV, TI in E4. simpl in E4.
           rewrite Nat.eqb_refl in E4. simpl in E4. rewrite drop_timed_notin in E4; [exact E4|].
           inversion R7; auto.
        -- unfold may_take. rewrite Su. repeat split; auto.
      * assert (Q : quiet a).
        { split; [auto|]. intros f v K. apply MIN in K. lia. }
        destruct (st_stopped s); inversion L; subst; simpl; (split; [|eexists; split; [reflexivity|exact Q]]);
        (constructor; simpl; [auto|auto|discriminate|]; rewrite EV, TI; constructor; auto).
  - inversion L; subst; simpl. split; [|eexists; split; [reflexivity|]].
    + pose proof (erase_inv s a e I) as [E1 E2 _ E4]. constructor; simpl; auto; [discriminate|].
      unfold erase in E4. simpl in E4. rewrite EV in E4. simpl in E4. rewrite Nat.eqb_refl in E4. simpl in E4.
      inversion R6; subst. rewrite drop_notin in E4 by auto. rewrite drop_timed_notin in E4; [exact E4|].
      intros K. apply in_map_iff in K. destruct K as ([g z] & G & K). simpl in G. subst g.
      apply R4 in K. destruct K as (u & K & _).
      assert (PE : exists k, a_status a e = Posted k) by (apply R1; left; auto). destruct PE. congruence.
    + assert (PE : exists k, a_status a e = Posted k) by (apply R1; left; auto). destruct PE as [k PE].
      unfold may_take. rewrite PE. intros f j K.
      assert (IN : In f (e :: ev)) by (apply R1; eauto). destruct IN as [<-|IN]; [assert (k = j) by congruence; lia|].
      inversion R2 as [|? ? _ F]; subst. rewrite Forall_forall in F. specialize (F f IN k j PE K). lia.
Qed.

(** Due times stay below now + 2^30. *)
Definition bounded (a : agenda) : Prop := forall f u, a_status a f = Due u -> (u < a_now a + 2 ^ 30)%N.

Lemma step_inv : forall s a o s' out, inv s a -> bounded a -> step s o = Ok s' out ->
  (forall e ms, o = PostTimed e ms -> (ms < 2 ^ 30)%N) ->
  (forall e u, a_status a e = Due u -> (a_now a < u + 2 ^ 30)%N) ->
  (existsb is_look out = true -> (a_now a < a_read a + 2 ^ 30)%N) ->
  inv s' (observe a (o, out)) /\ bounded (observe a (o, out)) /\ allowed a (o, out).
Proof.
  intros s a o s' out I BD H P1 P2 P3.
  assert (BE : forall e, bounded (set_status a e Nothing)).
  { intros e f u. simpl. destruct (Nat.eqb f e); [discriminate|]. apply BD. }
  assert (BP : forall e, bounded (post a e)).
  { intros e f u. unfold post. destruct (a_status a e) eqn:E; [|apply BD..].
    simpl. destruct (Nat.eqb f e); [discriminate|]. apply BD. }
  assert (W : forall f u, a_status a f = Due u -> (a_now a < u + 2 ^ 30)%N /\ (u < a_now a + 2 ^ 30)%N).
  { intros f u K. split; [eapply P2; eauto|eapply BD; eauto]. }
  assert (ANIL : forall o, allowed a (o, [])) by (intros q x []).
  destruct o as [e|e|e ms|e|e| |ms| |]; cbn [step] in H.
  - destruct (memb e (st_freed s)); [discriminate|]. inversion H; subst. cbn [observe fst snd fold_left].
    split; [apply signal_inv, append_inv; auto|]. auto.
  - destruct (memb e (st_freed s)); [discriminate|]. inversion H; subst. unfold observe. cbn [fst snd fold_left observe_out].
    split; [apply signal_inv, append_inv; auto|]. split; [auto|].
    intros x [<-|[]]. exists e. split; [auto|]. rewrite negb_true_iff. apply in_list_status. auto.
  - destruct (memb e (st_freed s)); [discriminate|]. inversion H; subst. cbn [observe fst snd fold_left].
    split; [apply signal_inv, post_timed_inv; auto; eapply P1; eauto|]. split; [|auto].
    intros f u. simpl. destruct (Nat.eqb f e); [|apply BD]. intros K; inversion K; subst.
    pose proof (P1 e ms eq_refl). lia.
  - destruct (memb e (st_freed s)); [discriminate|]. inversion H; subst. cbn [observe fst snd fold_left].
    split; [apply erase_inv; auto|]. auto.
  - destruct (memb e (st_freed s)); [discriminate|]. inversion H; subst. cbn [observe fst snd fold_left].
    split; [|auto]. pose proof (erase_inv s a e I) as [E1 E2 E3 E4]. constructor; simpl in *; auto.
  - inversion H; subst. cbn [observe fst snd fold_left]. split; [|auto]. apply signal_inv.
    destruct I as [A B C D]. constructor; simpl; auto.
  - inversion H; subst. cbn [observe fst snd fold_left]. destruct I as [A B C D].
    split; [constructor; simpl; auto; [congruence|lia]|]. split; [|auto].
    intros f u K. simpl in *. apply BD in K. lia.
  - inversion H; subst. cbn [observe fst snd fold_left]. split; [|auto]. apply signal_inv. auto.
  - unfold tick in H. destruct (st_thr s) as [|t|d l|e| |] eqn:T.
    + inversion H; subst. unfold observe. cbn [fst snd fold_left observe_out]. destruct I as [A B C D].
      split; [constructor; simpl; auto; [lia|intros t K; inversion K; auto]|]. split; [auto|].
      intros x [<-|[]]. auto.
    + destruct (look s t) as [s1 o1] eqn:L. inversion H; subst. unfold observe. cbn [fst snd].
      assert (X : existsb is_look out = true).
      { clear - L. unfold look in L. destruct (st_events s); [|inversion L; reflexivity].
        destruct (st_timed s) as [|[e x] ti]; [destruct (st_stopped s); inversion L; reflexivity|].
        destruct (less_or_equal x t); [inversion L; reflexivity|]. destruct (st_stopped s); inversion L; reflexivity. }
      destruct (look_inv s a t s' out I T L (P3 X) W) as [J (x & -> & K)].
      split; [auto|]. split.
      * destruct x; simpl; auto; try contradiction.
      * intros y [<-|[]]. destruct x; auto; contradiction.
    + destruct d as [d|].
      * destruct (N.leb d (st_now s)); inversion H; subst; cbn [observe fst snd fold_left]; (split; [|auto]); auto.
        destruct I as [A B C D]. constructor; simpl; auto; discriminate.
      * inversion H; subst. cbn [observe fst snd fold_left]. auto.
    + destruct (memb e (st_freed s)); [discriminate|]. inversion H; subst. unfold observe. cbn [fst snd fold_left observe_out].
      split; [destruct I as [A B C D]; constructor; simpl; auto; discriminate|]. split; [auto|].
      intros x [<-|[]]. exact Logic.I.
    + inversion H; subst. cbn [observe fst snd fold_left]. split; [|auto].
      destruct I as [A B C D]; constructor; simpl; auto; discriminate.
    + inversion H; subst. cbn [observe fst snd fold_left]. auto.
Qed.

Lemma run_app : forall h1 h2 s, run s (h1 ++ h2) =
  match run s h1 with
  | None => None
  | Some (s1, t1) => match run s1 h2 with None => None | Some (s2, t2) => Some (s2, t1 ++ t2) end
  end.
Proof.
  induction h1 as [|o h IH]; intros h2 s; simpl.
  - destruct (run s h2) as [[s2 t2]|]; reflexivity.
  - destruct (step s o) as [|s1 o1]; [reflexivity|]. rewrite IH.
    destruct (run s1 h) as [[s2 t2]|]; [|reflexivity].
    destruct (run s2 h2) as [[s3 t3]|]; reflexivity.
Qed.

(** A trace split at a step. *)
Lemma run_split : forall h s s' t p x q, run s h = Some (s', t) -> t = p ++ x :: q ->
  exists h1 h2 s1, h = h1 ++ fst x :: h2 /\ run s h1 = Some (s1, p) /\
    exists s2, step s1 (fst x) = Ok s2 (snd x) /\ run s2 h2 = Some (s', q).
Proof.
  induction h as [|o h IH]; intros s s' t p x q H E; simpl in H.
  - inversion H; subst. destruct p; discriminate.
  - destruct (step s o) as [|s1 o1] eqn:S; [discriminate|].
    destruct (run s1 h) as [[s2 t2]|] eqn:R; [|discriminate]. inversion H; subst; clear H.
    destruct p as [|y p]; simpl in *.
    + inversion H2; subst. exists [], h, s. simpl. repeat split; auto. exists s1. auto.
    + inversion H2; subst. destruct (IH s1 s' _ p x q R eq_refl) as (h1 & h2 & s3 & -> & R1 & s4 & S4 & R4).
      exists (o :: h1), h2, s3. simpl. rewrite S, R1. repeat split; auto. exists s4. auto.
Qed.

Lemma timely_prefix : forall now p q, timely now (p ++ q) -> timely now p.
Proof.
  intros now p q T p' x q' E. apply (T p' x (q' ++ q)). rewrite E, <- app_assoc. reflexivity.
Qed.

Lemma run_inv : forall now h s t, run (init now) h = Some (s, t) -> timely now t ->
  inv s (agenda_after now t) /\ bounded (agenda_after now t) /\
  (forall p x q, t = p ++ x :: q -> allowed (agenda_after now p) x).
Proof.
  intros now. induction h as [|o h IH] using rev_ind; intros s t H T.
  - inversion H; subst. split; [apply init_inv|]. split; [intros f u K; discriminate|].
    intros p x q E. destruct p; discriminate.
  - rewrite run_app in H. destruct (run (init now) h) as [[s1 t1]|] eqn:R; [|discriminate].
    simpl in H. destruct (step s1 o) as [|s2 o2] eqn:S; [discriminate|]. inversion H; subst; clear H.
    destruct (IH s1 t1 eq_refl (timely_prefix _ _ _ T)) as (I & B & AL).
    destruct (T t1 (o, o2) [] eq_refl) as (P1 & P2 & P3).
    destruct (step_inv s1 _ o s o2 I B S) as (I' & B' & A'); auto.
    unfold agenda_after in *. rewrite fold_left_app. simpl. split; [auto|]. split; [auto|].
    intros p x q E. destruct (list_eq_dec Nat.eq_dec [] [0]) as [|_]; [discriminate|].
    destruct q as [|y q] using rev_ind.
    + apply app_inj_tail in E. destruct E as [<- <-]. exact A'.
    + rewrite app_comm_cons, app_assoc in E. apply app_inj_tail in E. destruct E as [E _]. eapply AL; eauto.
Qed.

(** ** Exactly once *)
Definition posted_count (e : nat) (h : list op) : nat := length (filter (posts e) h).
Definition occ (e : nat) (l : list nat) : nat := count_occ Nat.eq_dec l e.

(** What can still run of e. *)
Definition pend (s : st) (e : nat) : nat :=
  occ e (st_events s) + occ e (map fst (st_timed s)) + match st_thr s with TRun f => if Nat.eqb f e then 1 else 0 | _ => 0 end.

Lemma occ_drop : forall e f l, occ e (drop f l) <= occ e l.
Proof.
  unfold occ. induction l as [|x l IH]; simpl; [auto|]. destruct (Nat.eqb f x); simpl;
  destruct (Nat.eq_dec x e); lia.
Qed.
Lemma occ_drop_timed : forall e f l, occ e (map fst (drop_timed f l)) <= occ e (map fst l).
Proof.
  unfold occ. induction l as [|x l IH]; simpl; [auto|]. destruct (Nat.eqb f (fst x)); simpl;
  destruct (Nat.eq_dec (fst x) e); lia.
Qed.
Lemma occ_insert : forall e f ts l, occ e (map fst (insert f ts l)) = occ e (map fst l) + (if Nat.eqb f e then 1 else 0).
Proof.
  unfold occ. induction l as [|[g x] l IH]; cbn [insert map fst count_occ].
  - destruct (Nat.eq_dec f e), (Nat.eqb_spec f e); try congruence; auto.
  - destruct (less_or_equal ts x); cbn [map fst count_occ].
    + destruct (Nat.eq_dec f e), (Nat.eqb_spec f e), (Nat.eq_dec g e); try congruence; lia.
    + rewrite IH. destruct (Nat.eq_dec g e); lia.
Qed.

Lemma pend_signal : forall s e, pend (signal s) e = pend s e.
Proof. intros. unfold signal, pend. destruct (st_thr s) eqn:E; try (rewrite E; reflexivity). reflexivity. Qed.

Lemma step_pend : forall s o s' out e, step s o = Ok s' out ->
  pend s' e + occ e (runs [(o, out)]) <= pend s e + (if posts e o then 1 else 0).
Proof.
  intros s o s' out e H.
  assert (AP : forall f, pend (append s f) e <= pend s e + (if Nat.eqb e f then 1 else 0)).
  { intros f. unfold append. destruct (in_list s f); [lia|]. unfold pend. simpl. unfold occ. rewrite count_occ_app. simpl.
    destruct (Nat.eq_dec f e), (Nat.eqb_spec e f); try congruence; lia. }
  assert (ER : forall f, pend (erase s f) e <= pend s e).
  { intros f. unfold pend, erase. simpl. pose proof (occ_drop e f (st_events s)). pose proof (occ_drop_timed e f (st_timed s)). lia. }
  destruct o as [f|f|f ms|f|f| |ms| |]; cbn [step] in H.
  - destruct (memb f (st_freed s)); [discriminate|]. inversion H; subst. rewrite pend_signal. simpl. specialize (AP f). lia.
  - destruct (memb f (st_freed s)); [discriminate|]. inversion H; subst. rewrite pend_signal. simpl. specialize (AP f). lia.
  - destruct (memb f (st_freed s)); [discriminate|]. inversion H; subst. rewrite pend_signal. simpl. specialize (ER f).
    unfold pend, post_timed in *. simpl in *. rewrite occ_insert, (Nat.eqb_sym e f). lia.
  - destruct (memb f (st_freed s)); [discriminate|]. inversion H; subst. simpl. specialize (ER f). lia.
  - destruct (memb f (st_freed s)); [discriminate|]. inversion H; subst. simpl. specialize (ER f).
    unfold pend, erase in *. simpl in *. lia.
  - inversion H; subst. rewrite pend_signal. unfold pend. simpl. lia.
  - inversion H; subst. unfold pend. simpl. lia.
  - inversion H; subst. rewrite pend_signal. simpl. lia.
  - unfold tick in H. destruct (st_thr s) as [|t|d l|f| |] eqn:T.
    + inversion H; subst. unfold pend. rewrite T. simpl. lia.
    + destruct (look s t) as [s1 o1] eqn:L. inversion H; subst.
      unfold look in L. destruct (st_events s) as [|g ev] eqn:EV.
      * destruct (st_timed s) as [|[g x] ti] eqn:TI.
        -- destruct (st_stopped s); inversion L; subst; unfold pend; simpl; rewrite EV, TI; simpl; lia.
        -- destruct (less_or_equal x t).
           ++ inversion L; subst. unfold pend. rewrite EV, TI, T. unfold occ. simpl.
              destruct (Nat.eq_dec g e), (Nat.eqb_spec g e); try congruence; lia.
           ++ destruct (st_stopped s); inversion L; subst; unfold pend; simpl; rewrite EV, TI; simpl; lia.
      * inversion L; subst. unfold pend. rewrite EV, T. unfold occ. simpl.
        destruct (Nat.eq_dec g e), (Nat.eqb_spec g e); try congruence; lia.
    + destruct d as [d|]; [destruct (N.leb d (st_now s))|]; inversion H; subst; unfold pend; simpl; rewrite ?T; lia.
    + destruct (memb f (st_freed s)); [discriminate|]. inversion H; subst. unfold pend. rewrite T. simpl.
      destruct (Nat.eq_dec f e), (Nat.eqb_spec f e); try congruence; lia.
    + inversion H; subst. unfold pend. rewrite T. simpl. lia.
    + inversion H; subst. unfold pend. rewrite T. simpl. lia.
Qed.

Lemma run_pend : forall h s s' t e, run s h = Some (s', t) ->
  pend s' e + occ e (runs t) <= pend s e + posted_count e h.
Proof.
  induction h as [|o h IH]; intros s s' t e H; simpl in H.
  - inversion H; subst. unfold runs, posted_count, occ. simpl. lia.
  - destruct (step s o) as [|s1 o1] eqn:S; [discriminate|].
    destruct (run s1 h) as [[s2 t2]|] eqn:R; [|discriminate]. inversion H; subst; clear H.
    apply (IH _ _ _ e) in R. apply (step_pend _ _ _ _ e) in S.
    unfold posted_count in *. cbn [filter].
    assert (E : occ e (runs ((o, o1) :: t2)) = occ e (runs [(o, o1)]) + occ e (runs t2)).
    { unfold runs, occ. simpl. rewrite app_nil_r, count_occ_app. reflexivity. }
    rewrite E. destruct (posts e o); cbn [length]; lia.
Qed.

(** ** Progress: position in the queue *)
Definition cancels_in (e : nat) (h : list op) : Prop := exists o, In o h /\ revokes e o = true.

Lemma in_list_events : forall s e, In e (st_events s) -> in_list s e = true.
Proof. intros s e H. unfold in_list. rewrite (proj2 (memb_in _ _) H). reflexivity. Qed.

Lemma drop_split : forall f a e b, f <> e -> drop f (a ++ e :: b) = drop f a ++ e :: drop f b.
Proof.
  intros. unfold drop. rewrite filter_app. simpl. destruct (Nat.eqb_spec f e); [congruence|]. reflexivity.
Qed.
Lemma drop_len : forall f a, length (drop f a) <= length a.
Proof. intros. unfold drop. induction a; simpl; [auto|]. destruct (negb _); simpl; lia. Qed.

Lemma step_ahead : forall s o s' out e a b, step s o = Ok s' out -> st_events s = a ++ e :: b ->
  revokes e o = false ->
  In (Taken e) out \/ exists a' b', st_events s' = a' ++ e :: b' /\ length a' + length (takes [(o, out)]) <= length a.
Proof.
  intros s o s' out e a b H E RV.
  assert (SG : forall s, st_events (signal s) = st_events s) by (intros; apply signal_queue).
  destruct o as [f|f|f ms|f|f| |ms| |]; cbn [step] in H.
  - right. destruct (memb f (st_freed s)); [discriminate|]. inversion H; subst. rewrite SG. unfold append.
    destruct (in_list s f); [exists a, b; simpl; split; auto; lia|]. simpl. rewrite E. exists a, (b ++ [f]). rewrite <- app_assoc. simpl. split; auto; lia.
  - right. destruct (memb f (st_freed s)); [discriminate|]. inversion H; subst. rewrite SG. unfold append.
    destruct (in_list s f); [exists a, b; simpl; split; auto; lia|]. simpl. rewrite E. exists a, (b ++ [f]). rewrite <- app_assoc. simpl. split; auto; lia.
  - right. destruct (memb f (st_freed s)); [discriminate|]. inversion H; subst. rewrite SG. simpl in *.
    apply Nat.eqb_neq in RV. rewrite E, drop_split by auto. eexists _, _. split; [reflexivity|]. pose proof (drop_len f a). lia.
  - right. destruct (memb f (st_freed s)); [discriminate|]. inversion H; subst. simpl in *.
    apply Nat.eqb_neq in RV. rewrite E, drop_split by auto. eexists _, _. split; [reflexivity|]. pose proof (drop_len f a). lia.
  - right. destruct (memb f (st_freed s)); [discriminate|]. inversion H; subst. simpl in *.
    apply Nat.eqb_neq in RV. rewrite E, drop_split by auto. eexists _, _. split; [reflexivity|]. pose proof (drop_len f a). lia.
  - right. inversion H; subst. rewrite SG. simpl. exists a, b. split; auto; lia.
  - right. inversion H; subst. simpl. exists a, b. split; auto; lia.
  - right. inversion H; subst. rewrite SG. exists a, b. simpl. split; auto; lia.
  - unfold tick in H. destruct (st_thr s) as [|t|d l|f| |] eqn:T.
    + right. inversion H; subst. exists a, b. simpl. split; auto; lia.
    + destruct (look s t) as [s1 o1] eqn:L. inversion H; subst.
      unfold look in L. rewrite E in L. destruct a as [|g a]; simpl in L.
      * inversion L; subst. left. left. auto.
      * inversion L; subst. right. exists a, b. simpl. split; auto; lia.
    + right. destruct d as [d|]; [destruct (N.leb d (st_now s))|]; inversion H; subst; exists a, b; simpl; split; auto; lia.
    + right. destruct (memb f (st_freed s)); [discriminate|]. inversion H; subst. exists a, b. simpl. split; auto; lia.
    + right. inversion H; subst. exists a, b. simpl. split; auto; lia.
    + right. inversion H; subst. exists a, b. simpl. split; auto; lia.
Qed.

Lemma takes_cons : forall x t, takes (x :: t) = takes [x] ++ takes t.
Proof. intros. unfold takes. simpl. rewrite app_nil_r. reflexivity. Qed.

Lemma taken_in : forall e o out, In (Taken e) out <-> In e (takes [(o, out)]).
Proof.
  intros. unfold takes. simpl. rewrite app_nil_r, in_flat_map. split.
  - intros I. exists (Taken e). simpl. auto.
  - intros (x & I & K). destruct x; simpl in K; try contradiction. destruct K as [->|[]]. auto.
Qed.

Lemma run_ahead : forall h s s' t e a b, run s h = Some (s', t) -> st_events s = a ++ e :: b ->
  (forall o, In o h -> revokes e o = false) -> length a < length (takes t) -> In e (takes t).
Proof.
  induction h as [|o h IH]; intros s s' t e a b H E RV L; simpl in H.
  - inversion H; subst. simpl in L. lia.
  - destruct (step s o) as [|s1 o1] eqn:S; [discriminate|].
    destruct (run s1 h) as [[s2 t2]|] eqn:R; [|discriminate]. inversion H; subst; clear H.
    rewrite takes_cons in *. rewrite app_length in L. apply in_app_iff.
    destruct (step_ahead _ _ _ _ _ _ _ S E (RV o (or_introl eq_refl))) as [T|(a' & b' & E' & L')].
    + left. apply taken_in. auto.
    + right. eapply IH; eauto; [intros; apply RV; right; auto|]. lia.
Qed.

(** ** The race *)
Definition is_run (s : st) (e : nat) : Prop := st_thr s = TRun e.

(** e is not pending anywhere. *)
Definition gone (s : st) (e : nat) : Prop :=
  ~ In e (st_events s) /\ ~ In e (map fst (st_timed s)) /\ st_thr s <> TRun e.

Lemma occ_in : forall e l, occ e l = 0 <-> ~ In e l.
Proof. intros. unfold occ. rewrite (count_occ_not_In Nat.eq_dec). tauto. Qed.

Lemma gone_pend : forall s e, gone s e <-> pend s e = 0.
Proof.
  intros s e. unfold gone, pend. rewrite <- !occ_in. split.
  - intros (A & B & C). rewrite A, B. destruct (st_thr s); auto. destruct (Nat.eqb_spec e0 e); [congruence|auto].
  - intros H. repeat split; try lia. intros E. rewrite E, Nat.eqb_refl in H. lia.
Qed.

Lemma gone_never_runs : forall h s s' t e, run s h = Some (s', t) -> gone s e ->
  (forall o, In o h -> posts e o = false) -> ~ In e (runs t).
Proof.
  intros h s s' t e H G P. apply gone_pend in G. apply (run_pend _ _ _ _ e) in H.
  assert (Z : posted_count e h = 0).
  { unfold posted_count. clear - P. induction h as [|o h IH]; [reflexivity|]. simpl.
    rewrite (P o (or_introl eq_refl)). apply IH. intros; apply P; right; auto. }
  apply occ_in. lia.
Qed.

Lemma cancel_gone : forall s e s' o, step s (Cancel e) = Ok s' o -> st_thr s <> TRun e -> gone s' e.
Proof.
  intros s e s' o H T. simpl in H. destruct (memb e (st_freed s)); [discriminate|]. inversion H; subst.
  unfold gone, erase. simpl. repeat split; auto.
  - rewrite drop_in. tauto.
  - rewrite in_map_iff. intros (x & E & I). apply drop_timed_in in I. tauto.
Qed.
Lemma destroy_gone : forall s e s' o, step s (Destroy e) = Ok s' o -> st_thr s <> TRun e -> gone s' e.
Proof.
  intros s e s' o H T. simpl in H. destruct (memb e (st_freed s)); [discriminate|]. inversion H; subst.
  unfold gone. simpl. repeat split; auto.
  - rewrite drop_in. tauto.
  - rewrite in_map_iff. intros (x & E & I). apply drop_timed_in in I. tauto.
Qed.

(** In flight or queued events are not freed unless destroyed in flight. *)
Definition careful (s : st) (o : op) : Prop := forall e, o = Destroy e -> st_thr s <> TRun e.
Fixpoint careful_run (s : st) (h : list op) : Prop :=
  match h with
  | [] => True
  | o :: h' => careful s o /\ match step s o with Ok s1 _ => careful_run s1 h' | Undef => True end
  end.

Definition live (s : st) : Prop := forall e, In e (st_freed s) -> gone s e.

Lemma step_gone : forall s o s' out e, step s o = Ok s' out -> posts e o = false -> gone s e -> gone s' e.
Proof.
  intros s o s' out e H P G. apply gone_pend. apply gone_pend in G. apply (step_pend _ _ _ _ e) in H.
  rewrite P in H. lia.
Qed.

Lemma step_live : forall s o s' out, step s o = Ok s' out -> careful s o -> live s -> live s'.
Proof.
  intros s o s' out H C L e I.
  assert (FR : st_freed s' = match o with Destroy f => f :: st_freed s | _ => st_freed s end).
  { assert (SG : forall s, st_freed (signal s) = st_freed s) by (intros; apply signal_queue).
    destruct o; cbn [step] in H; try (destruct (memb _ _); [discriminate|]); try (inversion H; subst; rewrite ?SG; try reflexivity).
    - unfold append. destruct (in_list s e0); reflexivity.
    - unfold append. destruct (in_list s e0); reflexivity.
    - unfold tick in H. destruct (st_thr s) as [|t|[d|] l|f| |]; try (inversion H; subst; reflexivity).
      + unfold look in H. destruct (st_events s); [|inversion H; reflexivity].
        destruct (st_timed s) as [|[g x] ti]; [destruct (st_stopped s); inversion H; reflexivity|].
        destruct (less_or_equal x t); [inversion H; reflexivity|]. destruct (st_stopped s); inversion H; reflexivity.
      + destruct (N.leb d (st_now s)); inversion H; reflexivity.
      + destruct (memb f (st_freed s)); [discriminate|]. inversion H; reflexivity. }
  rewrite FR in I.
  assert (OLD : In e (st_freed s) -> gone s' e).
  { intros J. pose proof (L e J) as G. destruct (posts e o) eqn:P; [|eapply step_gone; eauto].
    exfalso. apply memb_in in J. destruct o; simpl in P; try discriminate; apply Nat.eqb_eq in P; subst; cbn [step] in H; rewrite J in H; discriminate. }
  destruct o as [f|f|f ms|f|f| |ms| |]; auto. destruct I as [->|I]; [|auto].
  eapply destroy_gone; eauto.
Qed.

Lemma live_tick : forall s, live s -> tick s <> Undef.
Proof.
  intros s L H. unfold tick in H. destruct (st_thr s) as [|t|[d|] l|f| |] eqn:T; try discriminate.
  - destruct (look s t); discriminate.
  - destruct (N.leb d (st_now s)); discriminate.
  - destruct (memb f (st_freed s)) eqn:M; [|discriminate]. apply memb_in in M. destruct (L f M) as (_ & _ & G). congruence.
Qed.

Lemma run_live : forall h s s' t, run s h = Some (s', t) -> careful_run s h -> live s -> live s'.
Proof.
  induction h as [|o h IH]; intros s s' t H C L; simpl in H.
  - inversion H; subst; auto.
  - simpl in C. destruct C as [C1 C2]. destruct (step s o) as [|s1 o1] eqn:S; [discriminate|].
    destruct (run s1 h) as [[s2 t2]|] eqn:R; [|discriminate]. inversion H; subst.
    eapply IH; eauto. eapply step_live; eauto.
Qed.

(** ** No oversleeping *)
Definition awake (s : st) (a : agenda) : Prop :=
  forall d lag, st_thr s = TWait d lag ->
  (forall f j, a_status a f <> Posted j) /\
  (forall f u, a_status a f = Due u -> exists w, d = Some w /\ (w <= u + lag)%N) /\ st_stopped s = false.

Lemma step_awake : forall s a o s' out, inv s a -> bounded a -> awake s a -> step s o = Ok s' out ->
  (forall e u, a_status a e = Due u -> (a_now a < u + 2 ^ 30)%N) ->
  (existsb is_look out = true -> (a_now a < a_read a + 2 ^ 30)%N) ->
  awake s' (observe a (o, out)).
Proof.
  intros s a o s' out I BD AW H P2 P3 d lag T.
  assert (SG : forall s d l, st_thr (signal s) <> TWait d l) by (intros; apply signal_queue).
  assert (ERA : forall e, (forall d lag, st_thr s = TWait d lag -> 
       (forall f j, a_status (set_status a e Nothing) f <> Posted j) /\
       (forall f u, a_status (set_status a e Nothing) f = Due u -> exists w, d = Some w /\ (w <= u + lag)%N) /\ st_stopped s = false)).
  { intros e d0 l0 T0. destruct (AW d0 l0 T0) as (A & B & C). simpl. repeat split; auto.
    - intros f j. destruct (Nat.eqb f e); [discriminate|auto].
    - intros f u. destruct (Nat.eqb f e); [discriminate|exact (B f u)]. }
  destruct o as [f|f|f ms|f|f| |ms| |]; cbn [step] in H.
  - destruct (memb f (st_freed s)); [discriminate|]. inversion H; subst. destruct (SG _ _ _ T).
  - destruct (memb f (st_freed s)); [discriminate|]. inversion H; subst. destruct (SG _ _ _ T).
  - destruct (memb f (st_freed s)); [discriminate|]. inversion H; subst. destruct (SG _ _ _ T).
  - destruct (memb f (st_freed s)); [discriminate|]. inversion H; subst. apply (ERA f); auto.
  - destruct (memb f (st_freed s)); [discriminate|]. inversion H; subst. simpl in T. cbn [st_stopped]. apply (ERA f); auto.
  - inversion H; subst. destruct (SG _ _ _ T).
  - inversion H; subst. simpl in T. cbn [st_stopped]. apply AW; auto.
  - inversion H; subst. destruct (SG _ _ _ T).
  - unfold tick in H. destruct (st_thr s) as [|t|d' l'|f| |] eqn:TH.
    + inversion H; subst. discriminate.
    + destruct (look s t) as [s1 o1] eqn:L. inversion H; subst.
      assert (X : existsb is_look out = true).
      { clear - L. unfold look in L. destruct (st_events s); [|inversion L; reflexivity].
        destruct (st_timed s) as [|[e x] ti]; [destruct (st_stopped s); inversion L; reflexivity|].
        destruct (less_or_equal x t); [inversion L; reflexivity|]. destruct (st_stopped s); inversion L; reflexivity. }
      assert (W : forall f u, a_status a f = Due u -> (a_now a < u + 2 ^ 30)%N /\ (u < a_now a + 2 ^ 30)%N).
      { intros f u K. split; [eapply P2; eauto|eapply BD; eauto]. }
      specialize (P3 X).
      destruct (look_inv s a t s' out I TH L P3 W) as [J (x & -> & K)].
      destruct I as [I1 I2 I3 I4]. pose proof (I3 t TH) as RT.
      unfold look in L. destruct (st_events s) as [|e ev] eqn:EV; [|inversion L; subst; discriminate].
      destruct (st_timed s) as [|[e y] ti] eqn:TI.
      * destruct (st_stopped s) eqn:SP; inversion L; subst; simpl in T; [discriminate|]. inversion T; subst.
        unfold observe. simpl. destruct K as [K1 K2]. repeat split; auto.
        intros f u F. exfalso. assert (In (f, u32 u) []) by (apply (rp_ti _ _ _ _ I4); eauto). contradiction.
      * destruct (less_or_equal y t) eqn:LE; [inversion L; subst; discriminate|].
        destruct (st_stopped s) eqn:SP; inversion L; subst; simpl in T; [discriminate|]. inversion T; subst.
        unfold observe. simpl. destruct K as [K1 K2]. repeat split; auto.
        intros f u F. eexists. split; [reflexivity|].
        assert (HD : exists v, a_status a e = Due v /\ y = u32 v) by (apply (rp_ti _ _ _ _ I4); left; auto).
        destruct HD as (v & Sv & ->).
        assert (MIN : (v <= u)%N).
        { assert (IN : In (f, u32 u) ((e, u32 v) :: ti)) by (apply (rp_ti _ _ _ _ I4); eauto).
          destruct IN as [IN|IN]; [inversion IN; subst; assert (u = v) by congruence; lia|].
          pose proof (rp_tis _ _ _ _ I4) as R5. inversion R5 as [|? ? _ Fa]; subst. rewrite Forall_forall in Fa.
          exact (Fa _ IN v u Sv F). }
        pose proof (K2 e v Sv). destruct (W e v Sv) as [W1 W2].
        rewrite sub32_r, sub32_ge; [lia|lia|].
        change (2 ^ 30)%N with 1073741824%N in *. change (2 ^ 32)%N with 4294967296%N. lia.
    + destruct d' as [d'|].
      * destruct (N.leb d' (st_now s)); inversion H; subst; [discriminate|]. apply AW; auto.
      * inversion H; subst. apply AW; auto.
    + destruct (memb f (st_freed s)); [discriminate|]. inversion H; subst. discriminate.
    + inversion H; subst. discriminate.
    + inversion H; subst. congruence.
Qed.

Lemma run_awake : forall now h s t, run (init now) h = Some (s, t) -> timely now t ->
  awake s (agenda_after now t).
Proof.
  intros now. induction h as [|o h IH] using rev_ind; intros s t H T.
  - inversion H; subst. intros d l K. discriminate.
  - rewrite run_app in H. destruct (run (init now) h) as [[s1 t1]|] eqn:R; [|discriminate].
    simpl in H. destruct (step s1 o) as [|s2 o2] eqn:S; [discriminate|]. inversion H; subst; clear H.
    pose proof (IH s1 t1 eq_refl (timely_prefix _ _ _ T)) as AW.
    destruct (run_inv now h s1 t1 R (timely_prefix _ _ _ T)) as (I & B & _).
    destruct (T t1 (o, o2) [] eq_refl) as (P1 & P2 & P3).
    unfold agenda_after in *. rewrite fold_left_app. simpl.
    apply (step_awake s1 _ o s o2 I B AW S); auto.
Qed.

(** ** Order of runs *)
Definition in_flight (s : st) : list nat := match st_thr s with TRun e => [e] | _ => [] end.

Lemma in_flight_signal : forall s, in_flight (signal s) = in_flight s.
Proof. intros. unfold in_flight, signal. destruct (st_thr s) eqn:E; simpl; rewrite ?E; auto. Qed.

Lemma step_order : forall s o s' out, step s o = Ok s' out ->
  in_flight s ++ takes [(o, out)] = runs [(o, out)] ++ in_flight s'.
Proof.
  intros s o s' out H.
  assert (AP : forall f, in_flight (append s f) = in_flight s) by (intros f; unfold append; destruct (in_list s f); reflexivity).
  destruct o as [f|f|f ms|f|f| |ms| |]; cbn [step] in H.
  - destruct (memb f (st_freed s)); [discriminate|]. inversion H; subst. rewrite in_flight_signal, AP. simpl. apply app_nil_r.
  - destruct (memb f (st_freed s)); [discriminate|]. inversion H; subst. rewrite in_flight_signal, AP. simpl. apply app_nil_r.
  - destruct (memb f (st_freed s)); [discriminate|]. inversion H; subst. rewrite in_flight_signal. simpl. apply app_nil_r.
  - destruct (memb f (st_freed s)); [discriminate|]. inversion H; subst. simpl. apply app_nil_r.
  - destruct (memb f (st_freed s)); [discriminate|]. inversion H; subst. simpl. apply app_nil_r.
  - inversion H; subst. rewrite in_flight_signal. simpl. apply app_nil_r.
  - inversion H; subst. simpl. apply app_nil_r.
  - inversion H; subst. rewrite in_flight_signal. simpl. apply app_nil_r.
  - unfold tick in H. unfold in_flight. destruct (st_thr s) as [|t|d l|f| |] eqn:T.
    + inversion H; subst. reflexivity.
    + destruct (look s t) as [s1 o1] eqn:L. inversion H; subst.
      unfold look in L. destruct (st_events s) as [|g ev].
      * destruct (st_timed s) as [|[g x] ti].
        -- destruct (st_stopped s); inversion L; subst; reflexivity.
        -- destruct (less_or_equal x t); [inversion L; subst; reflexivity|].
           destruct (st_stopped s); inversion L; subst; reflexivity.
      * inversion L; subst. reflexivity.
    + destruct d as [d|]; [destruct (N.leb d (st_now s))|]; inversion H; subst; simpl; rewrite ?T; reflexivity.
    + destruct (memb f (st_freed s)); [discriminate|]. inversion H; subst. reflexivity.
    + inversion H; subst. reflexivity.
    + inversion H; subst. simpl. rewrite T. reflexivity.
Qed.

Lemma run_order : forall h s s' t, run s h = Some (s', t) -> in_flight s ++ takes t = runs t ++ in_flight s'.
Proof.
  induction h as [|o h IH]; intros s s' t H; simpl in H.
  - inversion H; subst. simpl. apply app_nil_r.
  - destruct (step s o) as [|s1 o1] eqn:S; [discriminate|].
    destruct (run s1 h) as [[s2 t2]|] eqn:R; [|discriminate]. inversion H; subst; clear H.
    apply IH in R. apply step_order in S.
    rewrite takes_cons. assert (E : runs ((o, o1) :: t2) = runs [(o, o1)] ++ runs t2) by (unfold runs; simpl; rewrite app_nil_r; reflexivity).
    rewrite E, app_assoc, S, <- !app_assoc, R. reflexivity.
Qed.

(** ** Timed events are not early *)
Definition elapsed (t : list (op * list out)) : N :=
  fold_right (fun x n => (match fst x with Advance ms => ms | _ => 0 end + n)%N) 0%N t.

Lemma observe_out_other : forall l a e, ~ In (Taken e) l ->
  a_status (fold_left observe_out l a) e = a_status a e /\ a_now (fold_left observe_out l a) = a_now a.
Proof.
  induction l as [|x l IH]; intros a e H; [auto|]. simpl. destruct (IH (observe_out a x) e) as [A B].
  - intros I. apply H. right. auto.
  - rewrite A, B. destruct x; simpl; auto. destruct (Nat.eqb_spec e e0); [exfalso; apply H; left; congruence|auto].
Qed.

Lemma agenda_keeps : forall m a e u, a_status a e = Due u ->
  (forall x, In x m -> revokes e (fst x) = false) -> ~ In e (takes m) ->
  a_status (fold_left observe m a) e = Due u /\ a_now (fold_left observe m a) = (a_now a + elapsed m)%N.
Proof.
  induction m as [|x m IH]; intros a e u D RV NT; simpl.
  - split; [auto|lia].
  - rewrite takes_cons in NT. rewrite in_app_iff in NT.
    assert (NX : ~ In (Taken e) (snd x)).
    { intros I. apply NT. left. destruct x as [o l]. apply taken_in. auto. }
    specialize (RV x (or_introl eq_refl)) as RX.
    assert (S : a_status (observe a x) e = Due u /\
       a_now (observe a x) = (a_now a + match fst x with Advance ms => ms | _ => 0 end)%N).
    { unfold observe. destruct (observe_out_other (snd x)
        (match fst x with
         | Post e | PostMaybe e => post a e
         | PostTimed e ms => set_status a e (Due (a_now a + ms)%N)
         | Cancel e | Destroy e => set_status a e Nothing
         | Advance ms => {| a_now := (a_now a + ms)%N; a_read := a_read a; a_posts := a_posts a; a_status := a_status a |}
         | _ => a
         end) e NX) as [A B]. rewrite A, B.
      destruct (fst x) as [f|f|f ms|f|f| |ms| |]; simpl in RX; simpl; try (rewrite D); try (split; [auto|lia]).
      - unfold post. destruct (a_status a f) eqn:F; simpl; [destruct (Nat.eqb_spec e f); [congruence|]|..]; split; auto; lia.
      - unfold post. destruct (a_status a f) eqn:F; simpl; [destruct (Nat.eqb_spec e f); [congruence|]|..]; split; auto; lia.
      - rewrite RX. reflexivity.
      - rewrite RX. reflexivity.
      - rewrite RX. reflexivity. }
    destruct S as [S1 S2].
    destruct (IH (observe a x) e u S1) as [A B]; [intros; apply RV; right; auto|tauto|].
    rewrite A, B, S2. split; [auto|lia].
Qed.

Lemma read_le_now : forall now h s t, run (init now) h = Some (s, t) ->
  (a_read (agenda_after now t) <= a_now (agenda_after now t))%N /\ a_now (agenda_after now t) = st_now s.
Proof.
  intros now. induction h as [|o h IH] using rev_ind; intros s t H.
  - inversion H; subst. simpl. split; [lia|auto].
  - rewrite run_app in H. destruct (run (init now) h) as [[s1 t1]|] eqn:R; [|discriminate].
    simpl in H. destruct (step s1 o) as [|s2 o2] eqn:S; [discriminate|]. inversion H; subst; clear H.
    destruct (IH s1 t1 eq_refl) as [A B]. unfold agenda_after in *. rewrite fold_left_app. simpl.
    set (a := fold_left observe t1 (start now)) in *.
    assert (SN : forall s, st_now (signal s) = st_now s) by (intros; apply signal_queue).
    assert (OUT : forall l b, (forall t, ~ In (ReadClock t) l) -> a_read (fold_left observe_out l b) = a_read b /\ a_now (fold_left observe_out l b) = a_now b).
    { induction l as [|x l IHl]; intros b Hn; [auto|]. simpl. destruct (IHl (observe_out b x)) as [X Y].
      - intros t I. apply (Hn t). right. auto.
      - rewrite X, Y. destruct x; simpl; auto. destruct (Hn t (or_introl eq_refl)). }
    assert (PO : forall e, a_read (post a e) = a_read a /\ a_now (post a e) = a_now a)
      by (intros e; unfold post; destruct (a_status a e); auto).
    destruct o as [f|f|f ms|f|f| |ms| |]; cbn [step] in S.
    + destruct (memb f (st_freed s1)); [discriminate|]. inversion S; subst. unfold observe; cbn [fst snd fold_left].
      destruct (PO f) as [-> ->]. rewrite SN. unfold append. destruct (in_list s1 f); simpl; auto.
    + destruct (memb f (st_freed s1)); [discriminate|]. inversion S; subst. unfold observe; cbn [fst snd fold_left observe_out].
      destruct (PO f) as [-> ->]. rewrite SN. unfold append. destruct (in_list s1 f); simpl; auto.
    + destruct (memb f (st_freed s1)); [discriminate|]. inversion S; subst. rewrite SN. auto.
    + destruct (memb f (st_freed s1)); [discriminate|]. inversion S; subst. auto.
    + destruct (memb f (st_freed s1)); [discriminate|]. inversion S; subst. auto.
    + inversion S; subst. rewrite SN. auto.
    + inversion S; subst. unfold observe; simpl. split; [lia|congruence].
    + inversion S; subst. rewrite SN. auto.
    + unfold tick in S. destruct (st_thr s1) as [|t|d l|f| |] eqn:T.
      * inversion S; subst. unfold observe; simpl. split; [lia|auto].
      * destruct (look s1 t) as [s3 o3] eqn:L. inversion S; subst.
        unfold observe. cbn [fst snd].
        assert (NR : (forall t, ~ In (ReadClock t) o2) /\ st_now s = st_now s1).
        { unfold look in L. destruct (st_events s1) as [|g ev]; [|inversion L; subst; split; [intros u [K|[]]; discriminate|reflexivity]].
          destruct (st_timed s1) as [|[g x] ti]; [destruct (st_stopped s1); inversion L; subst; split; try (intros u [K|[]]; discriminate); reflexivity|].
          destruct (less_or_equal x t); [inversion L; subst; split; [intros u [K|[]]; discriminate|reflexivity]|].
          destruct (st_stopped s1); inversion L; subst; split; try (intros u [K|[]]; discriminate); reflexivity. }
        destruct NR as [NR ->]. destruct (OUT o2 a NR) as [-> ->]. auto.
      * destruct d as [d|]; [destruct (N.leb d (st_now s1))|]; inversion S; subst; auto.
      * destruct (memb f (st_freed s1)); [discriminate|]. inversion S; subst. auto.
      * inversion S; subst. auto.
      * inversion S; subst. auto.
Qed.

Lemma not_early : forall now h s t p e ms o1 m o2 out q, run (init now) h = Some (s, t) -> timely now t ->
  t = p ++ (PostTimed e ms, o1) :: m ++ (o2, out) :: q -> In (Taken e) out ->
  (forall x, In x m -> revokes e (fst x) = false) -> ~ In e (takes m) ->
  (ms <= elapsed m)%N.
Proof.
  intros now h s t p e ms o1 m o2 out q R T E I RV NT.
  destruct (run_inv now h s t R T) as (_ & _ & AL).
  assert (E2 : t = (p ++ (PostTimed e ms, o1) :: m) ++ (o2, out) :: q) by (rewrite <- app_assoc; exact E).
  pose proof (AL _ _ _ E2 (Taken e) I) as MT. cbn beta iota in MT.
  destruct (run_split _ _ _ _ _ _ _ R E2) as (h1 & h2 & s1 & EH & R1 & s2 & S2 & R2).
  destruct (read_le_now _ _ _ _ R1) as [RD _].
  destruct (run_split _ _ _ _ _ _ _ R1 eq_refl) as (h3 & h4 & s3 & _ & _ & s4 & S4 & _). cbn [fst snd step] in S4.
  destruct (memb e (st_freed s3)); [discriminate|]. inversion S4; subst o1.
  unfold agenda_after in *. rewrite fold_left_app in *. cbn [fold_left] in *.
  set (a := fold_left observe p (start now)) in *.
  assert (D : a_status (observe a (PostTimed e ms, [])) e = Due (a_now a + ms)%N).
  { unfold observe. simpl. rewrite Nat.eqb_refl. auto. }
  destruct (agenda_keeps m _ e _ D RV NT) as [K1 K2].
  unfold may_take in MT. rewrite K1 in MT. destruct MT as [MT _].
  rewrite K2 in RD. change (a_now (observe a (PostTimed e ms, []))) with (a_now a) in RD. lia.
Qed.
