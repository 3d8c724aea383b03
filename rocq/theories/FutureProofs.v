From Coq Require Import List Bool Arith Lia.
From Verif Require Import FutureModel FutureSpec.
Import ListNotations.

Lemma upd_same : forall m f v, upd m f v f = v.
Proof. intros. unfold upd. rewrite Nat.eqb_refl. reflexivity. Qed.
Lemma upd_other : forall m f v g, g <> f -> upd m f v g = m g.
Proof. intros. unfold upd. apply Nat.eqb_neq in H. rewrite H. reflexivity. Qed.
Lemma become_same : forall p f x, become p f x f = x.
Proof. intros. unfold become. rewrite Nat.eqb_refl. reflexivity. Qed.
Lemma become_other : forall p f x g, g <> f -> become p f x g = p g.
Proof. intros. unfold become. apply Nat.eqb_neq in H. rewrite H. reflexivity. Qed.

Definition at_thr (t : qthr) (f : nat) : Prop :=
  match t with QPopped g => g = f | QCall g _ => g = f | _ => False end.

(** What a phase says about a future. *)
Definition matches (s : st) (f : nat) (x : phase) : Prop :=
  let v := s_futs s f in
  match x with
  | Unused => f_freed v = false
  | Used cb res => f_freed v = false /\ f_cb v = option_map fst cb /\
                   (forall c d, cb = Some (c, d) -> f_data v = d) /\
                   f_ready v = (match res with Some _ => true | None => false end) /\
                   (forall ec, res = Some ec -> f_ec v = ec)
  | Due c d ec => f_freed v = false /\ f_ready v = true /\ f_ec v = ec /\ f_data v = d /\
                  ((In f (s_queue s) /\ f_cb v = Some c) \/ (s_thr s = QPopped f /\ f_cb v = Some c) \/
                   (s_thr s = QCall f c /\ f_cb v = None))
  | Freed => f_freed v = true
  end.
Definition is_due (x : phase) : Prop := match x with Due _ _ _ => True | _ => False end.

Record inv (s : st) (p : phases) : Prop := {
  i_match : forall f, matches s f (p f);
  i_queue : forall f, In f (s_queue s) -> is_due (p f);
  i_nodup : NoDup (s_queue s);
  i_thr : forall f, at_thr (s_thr s) f -> is_due (p f) /\ ~ In f (s_queue s);
  i_wait : forall w, In w (s_wait s) -> p (w_fut w) <> Freed }.

Definition pend_of (p : phases) (f : nat) : list (nat * nat * nat * nat) :=
  match p f with Due c d ec => [(f, c, ec, d)] | _ => [] end.
Definition pending (s : st) (p : phases) : list (nat * nat * nat * nat) :=
  (match s_thr s with QPopped f | QCall f _ => pend_of p f | _ => [] end) ++ flat_map (pend_of p) (s_queue s).

Lemma inv_init : inv init fresh.
Proof. constructor; cbn; try tauto; try constructor. Qed.

Lemma not_freed : forall s p f, inv s p -> p f <> Freed -> f_freed (s_futs s f) = false.
Proof.
  intros s p f I N. pose proof (i_match _ _ I f) as M. unfold matches in M.
  destruct (p f); intuition.
Qed.

Lemma pend_flat : forall p q l, (forall f, In f l -> pend_of p f = pend_of q f) ->
  flat_map (pend_of p) l = flat_map (pend_of q) l.
Proof.
  induction l as [|x l IH]; intros H; [reflexivity|]. cbn. rewrite H, IH; auto; [|left; auto].
  intros f F. apply H. right. auto.
Qed.

Lemma existsb_in : forall f l, existsb (Nat.eqb f) l = true <-> In f l.
Proof.
  intros f l. rewrite existsb_exists. split.
  - intros (x & A & B). apply Nat.eqb_eq in B. subst. auto.
  - intros A. exists f. split; auto. apply Nat.eqb_refl.
Qed.

Lemma waited_in : forall s f, waited s f = false -> forall w, In w (s_wait s) -> w_fut w <> f.
Proof.
  intros s f W w I E. assert (T : waited s f = true); [|congruence].
  apply existsb_exists. exists w. split; auto. apply Nat.eqb_eq. auto.
Qed.

Lemma signal_in : forall f l w, In w (signal f l) -> exists w', In w' l /\ w_fut w' = w_fut w.
Proof.
  intros f l. induction l as [|x l IH]; intros w I; [destruct I|]. cbn in I.
  destruct (Nat.eqb (w_fut x) f && negb (w_signal x))%bool eqn:E.
  - apply andb_true_iff in E as [E _]. apply Nat.eqb_eq in E.
    destruct I as [<-|I]; [exists x; cbn; auto|exists w; auto]. split; auto. right; auto.
  - destruct I as [<-|I]; [exists x; split; [left; auto|auto]|].
    destruct (IH w I) as (w' & A & B). exists w'. split; [right; auto|auto].
Qed.
Lemma get_waiter_in : forall t l w l', get_waiter t l = Some (w, l') ->
  In w l /\ (forall x, In x l' -> In x l).
Proof.
  intros t l. induction l as [|x l IH]; intros w l' E; [discriminate|]. cbn in E.
  destruct (Nat.eqb (w_thread x) t).
  - injection E as <- <-. split; [left; auto|intros; right; auto].
  - destruct (get_waiter t l) as [[w' l'']|]; [|discriminate]. injection E as <- <-.
    destruct (IH w' l'' eq_refl) as [A B]. split; [right; auto|].
    intros y [<-|Y]; [left; auto|right; auto].
Qed.

(** A future which is neither due nor in the hands of the thread can be changed. *)
Lemma change : forall s p f v x,
  inv s p -> ~ is_due (p f) -> x <> Freed -> ~ is_due x ->
  matches (set_fut s f v) f x ->
  inv (set_fut s f v) (become p f x) /\ pending (set_fut s f v) (become p f x) = pending s p.
Proof.
  intros s p f v x I D NF DX M.
  assert (NQ : ~ In f (s_queue s)) by (intros A; apply D; apply (i_queue _ _ I); auto).
  assert (NT : ~ at_thr (s_thr s) f) by (intros A; apply D; apply (i_thr _ _ I f A)).
  split.
  - constructor; cbn.
    + intros g. destruct (Nat.eq_dec g f) as [->|N]; [rewrite become_same; auto|].
      rewrite become_other by auto. pose proof (i_match _ _ I g) as G. unfold matches in *. cbn.
      rewrite upd_other by auto. exact G.
    + intros g Q. destruct (Nat.eq_dec g f) as [->|N]; [tauto|]. rewrite become_other by auto. apply (i_queue _ _ I g Q).
    + apply (i_nodup _ _ I).
    + intros g T. destruct (Nat.eq_dec g f) as [->|N]; [tauto|]. rewrite become_other by auto. apply (i_thr _ _ I g T).
    + intros w W. destruct (Nat.eq_dec (w_fut w) f) as [->|N]; [rewrite become_same; auto|].
      rewrite become_other by auto. apply (i_wait _ _ I w W).
  - unfold pending. cbn.
    assert (E : forall g, g <> f -> pend_of (become p f x) g = pend_of p g).
    { intros g N. unfold pend_of. rewrite become_other; auto. }
    f_equal.
    + destruct (s_thr s); auto; apply E; intros ->; apply NT; reflexivity.
    + apply pend_flat. intros g Q. apply E. intros ->. auto.
Qed.

(** A future becomes due. *)
Lemma becomes_due : forall s p f v c d ec,
  inv s p -> ~ is_due (p f) -> f_freed v = false -> f_ready v = true -> f_ec v = ec -> f_data v = d -> f_cb v = Some c ->
  exists s', queue_post (set_fut s f v) f = Some s' /\ inv s' (become p f (Due c d ec)) /\
    pending s' (become p f (Due c d ec)) = pending s p ++ [(f, c, ec, d)].
Proof.
  intros s p f v c d ec I D A1 A2 A3 A4 A5.
  assert (NQ : ~ In f (s_queue s)) by (intros A; apply D; apply (i_queue _ _ I); auto).
  assert (NT : ~ at_thr (s_thr s) f) by (intros A; apply D; apply (i_thr _ _ I f A)).
  unfold queue_post. cbn [set_fut s_queue].
  destruct (existsb (Nat.eqb f) (s_queue s)) eqn:EX; [apply existsb_in in EX; tauto|].
  eexists. split; [reflexivity|]. split.
  - constructor; cbn.
    + intros g. destruct (Nat.eq_dec g f) as [->|N].
      * rewrite become_same. unfold matches. cbn. rewrite upd_same. repeat split; auto. left.
        split; auto. apply in_app_iff. right. left. reflexivity.
      * rewrite become_other by auto. pose proof (i_match _ _ I g) as G. unfold matches in *. cbn.
        rewrite upd_other by auto. destruct (p g); auto.
        rewrite in_app_iff. intuition.
    + intros g Q. apply in_app_iff in Q. destruct (Nat.eq_dec g f) as [->|N]; [rewrite become_same; exact Logic.I|].
      rewrite become_other by auto. destruct Q as [Q|[Q|[]]]; [apply (i_queue _ _ I g Q)|congruence].
    + pose proof (i_nodup _ _ I) as ND. clear - ND NQ. induction (s_queue s) as [|x l IH]; cbn.
      * constructor; auto; constructor.
      * inversion ND; subst. constructor.
        -- rewrite in_app_iff. intros [X|[X|[]]]; [auto|]. subst. apply NQ. left. auto.
        -- apply IH; auto. intros X. apply NQ. right. auto.
    + intros g T. destruct (Nat.eq_dec g f) as [->|N]; [tauto|]. rewrite become_other by auto.
      destruct (i_thr _ _ I g T) as [X Y]. split; auto. rewrite in_app_iff. intros [Z|[Z|[]]]; [auto|congruence].
    + intros w W. destruct (Nat.eq_dec (w_fut w) f) as [->|N]; [rewrite become_same; discriminate|].
      rewrite become_other by auto. apply (i_wait _ _ I w W).
  - unfold pending. cbn.
    assert (E : forall g, g <> f -> pend_of (become p f (Due c d ec)) g = pend_of p g).
    { intros g N. unfold pend_of. rewrite become_other; auto. }
    assert (E2 : pend_of (become p f (Due c d ec)) f = [(f, c, ec, d)]) by (unfold pend_of; rewrite become_same; reflexivity).
    rewrite flat_map_app. cbn. rewrite E2. cbn. rewrite app_assoc. f_equal. f_equal.
    + destruct (s_thr s); auto; apply E; intros ->; apply NT; reflexivity.
    + apply pend_flat. intros g Q. apply E. intros ->. auto.
Qed.

Lemma inv_wait : forall s p l, inv s p -> (forall w, In w l -> p (w_fut w) <> Freed) -> inv (set_wait s l) p.
Proof.
  intros s p l I W. destruct I as [A B C D E]. constructor; auto.
Qed.

Lemma step_inv : forall s p o, inv s p -> allowed s p o ->
  exists s' l, step s o = Some (s', l) /\ inv s' (next p o l) /\
    pending s p ++ due_now p o = flat_map call_of l ++ pending s' (next p o l).
Proof.
  intros s p o I A. destruct o as [f|f ec|f c d|f|t f|t f|t|f| | ]; cbn [allowed] in A; cbn [step due_now next].
  - (* Reset *)
    assert (F : f_freed (s_futs s f) = false) by (apply (not_freed s p); auto; destruct (p f); try discriminate; contradiction).
    rewrite F. eexists _, _. split; [reflexivity|]. rewrite app_nil_r. cbn [flat_map app].
    destruct (change s p f (reset (s_futs s f)) (Used None None)) as [X Y]; auto; try discriminate.
    + intros H. unfold is_due in H. destruct (p f); try contradiction.
    + unfold matches. cbn. rewrite upd_same. cbn. repeat split; auto; discriminate.
  - (* Resolve *)
    assert (F : f_freed (s_futs s f) = false) by (apply (not_freed s p); auto; destruct (p f); try discriminate; contradiction).
    rewrite F. pose proof (i_match _ _ I f) as M. unfold matches in M. unfold resolve.
    destruct (p f) as [|cb res| | ] eqn:P; try contradiction. destruct res; [contradiction|].
    assert (ND : ~ is_due (p f)) by (rewrite P; cbn; auto).
    destruct M as (_ & M1 & M2 & M3 & M4). destruct cb as [[c d]|]; cbn in M1; rewrite M1.
    + destruct (becomes_due s p f {| f_ready := true; f_ec := ec; f_cb := Some c; f_data := f_data (s_futs s f); f_freed := f_freed (s_futs s f) |} c d ec)
        as (s' & E1 & E2 & E3); auto. { cbn. apply (M2 c d). reflexivity. }
      rewrite E1. eexists _, _. split; [reflexivity|]. split; auto.
    + set (v := {| f_ready := true; f_ec := ec; f_cb := None; f_data := f_data (s_futs s f); f_freed := f_freed (s_futs s f) |}).
      eexists _, _. split; [reflexivity|]. cbn [flat_map app]. rewrite app_nil_r.
      destruct (change s p f v (Used None (Some ec))) as [X Y]; auto; try discriminate.
      { unfold matches. cbn. rewrite upd_same. unfold v. cbn. rewrite F. repeat split; auto; try discriminate.
        intros ? E; injection E; auto. }
      split.
      * apply inv_wait; auto. intros w W. apply signal_in in W. destruct W as (w' & W1 & W2). rewrite <- W2.
        apply (i_wait _ _ X w' W1).
      * rewrite <- Y. reflexivity.
  - (* SetCb *)
    assert (F : f_freed (s_futs s f) = false) by (apply (not_freed s p); auto; destruct (p f); try discriminate; contradiction).
    rewrite F. pose proof (i_match _ _ I f) as M. unfold matches in M. unfold set_callback.
    destruct (p f) as [|cb res| | ] eqn:P; try contradiction. destruct cb; [contradiction|].
    assert (ND : ~ is_due (p f)) by (rewrite P; cbn; auto).
    destruct M as (_ & M1 & M2 & M3 & M4). rewrite M3. destruct res as [ec|].
    + destruct (becomes_due s p f {| f_ready := true; f_ec := f_ec (s_futs s f); f_cb := Some c; f_data := d; f_freed := f_freed (s_futs s f) |} c d ec)
        as (s' & E1 & E2 & E3); auto.
      rewrite E1. eexists _, _. split; [reflexivity|]. split; auto.
    + set (v := {| f_ready := false; f_ec := f_ec (s_futs s f); f_cb := Some c; f_data := d; f_freed := f_freed (s_futs s f) |}).
      eexists _, _. split; [reflexivity|]. cbn [flat_map app]. rewrite app_nil_r.
      destruct (change s p f v (Used (Some (c, d)) None)) as [X Y]; auto; try discriminate.
      unfold matches. cbn. rewrite upd_same. unfold v. cbn. rewrite F. repeat split; auto; try discriminate.
      intros ? ? E; injection E; auto.
  - rewrite (not_freed s p f I A). eexists _, _. split; [reflexivity|]. rewrite app_nil_r. auto.
  - rewrite (not_freed s p f I A). rewrite app_nil_r. destruct (f_ready (s_futs s f)); eexists _, _; (split; [reflexivity|]); [auto|].
    split; [|reflexivity]. apply inv_wait; auto. intros w W. apply in_app_iff in W.
    destruct W as [W|[<-|[]]]; [apply (i_wait _ _ I w W)|exact A].
  - rewrite (not_freed s p f I A). rewrite app_nil_r. destruct (f_ready (s_futs s f)); eexists _, _; (split; [reflexivity|]); [auto|].
    split; [|reflexivity]. apply inv_wait; auto. intros w W. apply in_app_iff in W.
    destruct W as [W|[<-|[]]]; [apply (i_wait _ _ I w W)|exact A].
  - rewrite app_nil_r. destruct (get_waiter t (s_wait s)) as [[w l]|] eqn:G.
    + destruct (get_waiter_in _ _ _ _ G) as [G1 G2].
      rewrite (not_freed s p (w_fut w) I (i_wait _ _ I w G1)). eexists _, _. split; [reflexivity|].
      split; [|reflexivity]. apply inv_wait; auto. intros w' W. apply (i_wait _ _ I w'). auto.
    + eexists _, _. split; [reflexivity|]. auto.
  - (* Free *)
    destruct A as [A W].
    assert (F : f_freed (s_futs s f) = false) by (apply (not_freed s p); auto; destruct (p f); try discriminate; contradiction).
    rewrite F. eexists _, _. split; [reflexivity|]. rewrite app_nil_r. cbn [flat_map app].
    assert (ND : ~ is_due (p f)) by (unfold is_due; destruct (p f); try contradiction; auto).
    assert (NQ : ~ In f (s_queue s)) by (intros X; apply ND; apply (i_queue _ _ I); auto).
    assert (NT : ~ at_thr (s_thr s) f) by (intros X; apply ND; apply (i_thr _ _ I f X)).
    split.
    + constructor; cbn.
      * intros g. destruct (Nat.eq_dec g f) as [->|N].
        { rewrite become_same. unfold matches. cbn. rewrite upd_same. reflexivity. }
        rewrite become_other by auto. pose proof (i_match _ _ I g) as G. unfold matches in *. cbn.
        rewrite upd_other by auto. exact G.
      * intros g Q. destruct (Nat.eq_dec g f) as [->|N]; [tauto|]. rewrite become_other by auto. apply (i_queue _ _ I g Q).
      * apply (i_nodup _ _ I).
      * intros g T. destruct (Nat.eq_dec g f) as [->|N]; [tauto|]. rewrite become_other by auto. apply (i_thr _ _ I g T).
      * intros w X. pose proof (waited_in s f W w X). rewrite become_other by auto. apply (i_wait _ _ I w X).
    + unfold pending. cbn.
      assert (E : forall g, g <> f -> pend_of (become p f Freed) g = pend_of p g).
      { intros g N. unfold pend_of. rewrite become_other; auto. }
      symmetry. f_equal.
      * destruct (s_thr s); auto; apply E; intros ->; apply NT; reflexivity.
      * apply pend_flat. intros g Q. apply E. intros ->. auto.
  - (* QStep *)
    rewrite app_nil_r. destruct (s_thr s) as [|f|f c| ] eqn:T.
    + destruct (s_queue s) as [|f q] eqn:Q.
      * eexists _, _. split; [reflexivity|]. destruct (s_stop s); [|auto].
        split; [|unfold pending; cbn; rewrite T; reflexivity].
        destruct I as [B C D E G]. rewrite T, Q in *.
        constructor; cbn; try rewrite Q; auto; try contradiction.
        intros f. specialize (B f). unfold matches in *. cbn. rewrite Q in *. rewrite T in *. destruct (p f); auto.
        intuition discriminate.
      * assert (DU : is_due (p f)) by (apply (i_queue _ _ I); rewrite Q; left; auto).
        rewrite (not_freed s p f I) by (destruct (p f); try discriminate; contradiction).
        eexists _, _. split; [reflexivity|]. cbn [next flat_map app]. split.
        -- pose proof (i_nodup _ _ I) as ND. rewrite Q in ND. inversion ND; subst. constructor; cbn.
           ++ intros g. pose proof (i_match _ _ I g) as G. unfold matches in *. cbn. rewrite Q, T in G.
              destruct (p g); auto. destruct G as (G1 & G2 & G3 & G4 & G5). repeat split; auto.
              destruct G5 as [[G5 G6]|[[G5 G6]|[G5 G6]]]; try discriminate.
              destruct G5 as [->|G5]; auto.
           ++ intros g X. apply (i_queue _ _ I). rewrite Q. right; auto.
           ++ auto.
           ++ intros g <-. auto.
           ++ apply (i_wait _ _ I).
        -- unfold pending. cbn. rewrite T, Q. reflexivity.
    + destruct (i_thr _ _ I f) as [DU NQ]; [rewrite T; reflexivity|].
      pose proof (i_match _ _ I f) as M. unfold matches in M. destruct (p f) as [| |c d ec| ] eqn:P; try contradiction.
      destruct M as (M1 & M2 & M3 & M4 & M5). rewrite M1.
      assert (CB : f_cb (s_futs s f) = Some c).
      { destruct M5 as [[X Y]|[[X Y]|[X Y]]]; auto. rewrite T in X. discriminate. }
      rewrite CB. eexists _, _. split; [reflexivity|]. cbn [next flat_map app]. split.
      * constructor; cbn.
        -- intros g. pose proof (i_match _ _ I g) as G. unfold matches in *. cbn.
           destruct (Nat.eq_dec g f) as [->|N].
           ++ rewrite P in *. rewrite upd_same. cbn. repeat split; auto.
           ++ rewrite upd_other by auto. destruct (p g); auto.
              destruct G as (G1 & G2 & G3 & G4 & G5). repeat split; auto.
              destruct G5 as [G5|[[G5 G6]|[G5 G6]]]; auto; rewrite T in G5; congruence.
        -- apply (i_queue _ _ I).
        -- apply (i_nodup _ _ I).
        -- intros g <-. rewrite P. cbn. auto.
        -- apply (i_wait _ _ I).
      * unfold pending. cbn. rewrite T. reflexivity.
    + destruct (i_thr _ _ I f) as [DU NQ]; [rewrite T; reflexivity|].
      pose proof (i_match _ _ I f) as M. unfold matches in M. destruct (p f) as [| |c' d ec| ] eqn:P; try contradiction.
      destruct M as (M1 & M2 & M3 & M4 & M5). rewrite M1, M3, M4.
      assert (CC : c' = c).
      { destruct M5 as [[X Y]|[[X Y]|[X Y]]]; try tauto; rewrite T in X; congruence. }
      subst c'. eexists _, _. split; [reflexivity|]. cbn [next flat_map app call_of]. split.
      * constructor; cbn.
        -- intros g. pose proof (i_match _ _ I g) as G. unfold matches in *. cbn.
           destruct (Nat.eq_dec g f) as [->|N].
           ++ rewrite become_same. exact M1.
           ++ rewrite become_other by auto. destruct (p g); auto.
              destruct G as (G1 & G2 & G3 & G4 & G5). repeat split; auto.
              destruct G5 as [G5|[[G5 G6]|[G5 G6]]]; auto; rewrite T in G5; congruence.
        -- intros g X. rewrite become_other by (intros ->; auto). apply (i_queue _ _ I g X).
        -- apply (i_nodup _ _ I).
        -- intros g [].
        -- intros w W. destruct (Nat.eq_dec (w_fut w) f) as [->|N]; [rewrite become_same; discriminate|].
           rewrite become_other by auto. apply (i_wait _ _ I w W).
      * unfold pending. cbn. rewrite T. unfold pend_of at 1. rewrite P. cbn. f_equal.
        apply pend_flat. intros g X. unfold pend_of. rewrite become_other; auto. intros ->. auto.
    + eexists _, _. split; [reflexivity|]. auto.
  - eexists _, _. split; [reflexivity|]. rewrite app_nil_r. split; [|reflexivity].
    destruct I as [B C D E G]. constructor; auto.
Qed.

Fixpoint final (p : phases) (t : list (op * list out)) : phases :=
  match t with [] => p | (o, l) :: t => final (next p o l) t end.

Lemma run_inv : forall h s p, inv s p -> obeys s p h ->
  exists s' t, run s h = Some (s', t) /\ inv s' (final p t) /\
    pending s p ++ due p t = calls t ++ pending s' (final p t).
Proof.
  induction h as [|o h IH]; intros s p I O.
  - exists s, []. cbn. rewrite app_nil_r. auto.
  - cbn [obeys] in O. destruct O as [A O]. destruct (step_inv s p o I A) as (s1 & l & E & I1 & P1).
    rewrite E in O. destruct (IH s1 _ I1 O) as (s2 & t & R & I2 & P2).
    exists s2, ((o, l) :: t). cbn [run]. rewrite E, R. split; [reflexivity|]. split; [exact I2|].
    cbn [due final calls flat_map snd]. rewrite app_assoc, P1, <- app_assoc, P2. fold (calls t).
    rewrite app_assoc. reflexivity.
Qed.

(** ** The queue thread gets everything done *)
Definition left (s : st) : nat :=
  3 * length (s_queue s) + match s_thr s with QPopped _ => 2 | QCall _ _ => 1 | _ => 0 end.

Lemma drain : forall n s p, left s <= n -> inv s p -> s_thr s <> QDone ->
  obeys s p (repeat QStep n) /\
  forall s' t, run s (repeat QStep n) = Some (s', t) -> pending s' (final p t) = [] /\ due p t = [].
Proof.
  induction n as [|n IH]; intros s p L I ND.
  - split; [exact Logic.I|]. intros s' t R. cbn in R. injection R as <- <-. cbn. split; auto.
    unfold left in L. unfold pending. destruct (s_queue s); [|cbn in L; lia].
    destruct (s_thr s); try lia; reflexivity.
  - destruct (step_inv s p QStep I Logic.I) as (s1 & l & E & I1 & P1).
    destruct (Nat.eq_dec (left s) 0) as [Z|NZ].
    + (* nothing to do *)
      assert (QE : s_queue s = [] /\ s_thr s = QIdle).
      { unfold left in Z. destruct (s_queue s); [|cbn in Z; lia]. destruct (s_thr s); auto; try lia. contradiction. }
      destruct QE as [QE TE].
      assert (G : forall n s p, s_queue s = [] -> (s_thr s = QIdle \/ s_thr s = QDone) -> inv s p ->
        obeys s p (repeat QStep n) /\
        forall s' t, run s (repeat QStep n) = Some (s', t) -> pending s' (final p t) = [] /\ due p t = []).
      { clear. induction n as [|n IHn]; intros s p Q T I.
        - split; [exact Logic.I|]. intros s' t R. cbn in R. injection R as <- <-. cbn. unfold pending. rewrite Q.
          destruct T as [-> | ->]; auto.
        - assert (ST : exists s1, step s QStep = Some (s1, []) /\ s_queue s1 = [] /\ (s_thr s1 = QIdle \/ s_thr s1 = QDone) /\ inv s1 p).
          { destruct (step_inv s p QStep I Logic.I) as (s1 & l & E & I1 & _). cbn [step] in *.
            destruct T as [T|T]; rewrite T in E; [rewrite Q in E|]; injection E as <- <-.
            - exists (if s_stop s then set_thr s QDone else s). rewrite T, Q. split; [reflexivity|].
              cbn [next] in I1. destruct (s_stop s); auto.
            - exists s. rewrite T. auto. }
          destruct ST as (s1 & E & Q1 & T1 & I1). cbn [repeat obeys run due]. rewrite E.
          destruct (IHn s1 p Q1 T1 I1) as [O1 R1]. split; [split; [exact Logic.I|exact O1]|].
          intros s' t R. destruct (run s1 (repeat QStep n)) as [[s2 t2]|]; [|discriminate]. injection R as <- <-.
          cbn. apply (R1 s2 t2 eq_refl). }
      apply (G (S n)); auto.
    + assert (L1 : left s1 <= n /\ s_thr s1 <> QDone).
      { cbn [step] in E. unfold left in *. destruct (s_thr s) as [|f|f c| ] eqn:T; try contradiction.
        - destruct (s_queue s) as [|f q] eqn:Q; [cbn in NZ; lia|].
          destruct (f_freed (s_futs s f)); [discriminate|]. injection E as <- <-. cbn in *. split; [lia|discriminate].
        - destruct (f_freed (s_futs s f)); [discriminate|]. injection E as <- <-. cbn in *.
          destruct (f_cb (s_futs s f)); (split; [lia|discriminate]).
        - destruct (f_freed (s_futs s f)); [discriminate|]. injection E as <- <-. cbn in *. split; [lia|discriminate]. }
      destruct L1 as [L1 ND1]. destruct (IH s1 _ L1 I1 ND1) as [O1 R1].
      cbn [repeat obeys]. rewrite E. split; [split; [exact Logic.I|exact O1]|].
      intros s' t R. cbn [run] in R. rewrite E in R. destruct (run s1 (repeat QStep n)) as [[s2 t2]|] eqn:RR; [|discriminate].
      injection R as <- <-. cbn [final due due_now app]. apply (R1 s2 t2 eq_refl).
Qed.

(** ** Results, for every history *)
Definition good (s : st) (r : nat -> option nat) : Prop :=
  forall f, f_ready (s_futs s f) = (match r f with Some _ => true | None => false end) /\
            f_ec (s_futs s f) = (match r f with Some ec => ec | None => 0 end).
Definition res_next (r : nat -> option nat) (o : op) : nat -> option nat :=
  fun f => match o with
           | Reset g => if Nat.eqb f g then None else r f
           | Resolve g ec => if Nat.eqb f g then Some ec else r f
           | _ => r f
           end.

Ltac same_fut :=
  match goal with |- good _ _ => intros g end; cbn;
  repeat match goal with |- context [upd ?m ?f ?v ?g] => unfold upd end;
  try match goal with |- context [Nat.eqb ?g ?f] => destruct (Nat.eqb g f) eqn:?;
      [match goal with H : Nat.eqb _ _ = true |- _ => apply Nat.eqb_eq in H; subst end|] end; cbn; auto.

Lemma post_futs : forall s f s', queue_post s f = Some s' -> s_futs s' = s_futs s.
Proof. intros s f s'. unfold queue_post. destruct (existsb _ _); [discriminate|]. intros E; injection E as <-; reflexivity. Qed.

Lemma step_good : forall s r o s' l, good s r -> step s o = Some (s', l) -> good s' (res_next r o).
Proof.
  intros s r o s' l G E. destruct o as [f|f ec|f c d|f|t f|t f|t|f| | ]; cbn [step] in E.
  - destruct (f_freed _); [discriminate|]. injection E as <- <-. intros g. cbn. unfold upd.
    destruct (Nat.eqb g f); cbn; auto.
  - destruct (f_freed (s_futs s f)); [discriminate|]. unfold resolve in E.
    assert (X : forall g, f_ready (upd (s_futs s) f {| f_ready := true; f_ec := ec; f_cb := f_cb (s_futs s f); f_data := f_data (s_futs s f); f_freed := f_freed (s_futs s f) |} g) =
       (match res_next r (Resolve f ec) g with Some _ => true | None => false end) /\
       f_ec (upd (s_futs s) f {| f_ready := true; f_ec := ec; f_cb := f_cb (s_futs s f); f_data := f_data (s_futs s f); f_freed := f_freed (s_futs s f) |} g) =
       (match res_next r (Resolve f ec) g with Some ec => ec | None => 0 end)).
    { intros g. unfold upd. cbn. destruct (Nat.eqb g f); cbn; auto. }
    destruct (f_cb (s_futs s f)) eqn:CB.
    + match goal with [ H : match queue_post ?a ?b with _ => _ end = _ |- _ ] => destruct (queue_post a b) as [s1|] eqn:Q; [|discriminate] end.
      injection E as <- <-. apply post_futs in Q. intros g. rewrite Q. cbn [set_fut s_futs]. apply X.
    + injection E as <- <-. intros g. cbn [set_wait set_fut s_futs]. apply X.
  - destruct (f_freed (s_futs s f)); [discriminate|]. unfold set_callback in E.
    assert (X : forall g, f_ready (upd (s_futs s) f {| f_ready := f_ready (s_futs s f); f_ec := f_ec (s_futs s f); f_cb := Some c; f_data := d; f_freed := f_freed (s_futs s f) |} g) =
       (match r g with Some _ => true | None => false end) /\
       f_ec (upd (s_futs s) f {| f_ready := f_ready (s_futs s f); f_ec := f_ec (s_futs s f); f_cb := Some c; f_data := d; f_freed := f_freed (s_futs s f) |} g) =
       (match r g with Some ec => ec | None => 0 end)).
    { intros g. unfold upd. destruct (Nat.eqb g f) eqn:EQ; cbn; auto. apply Nat.eqb_eq in EQ. subst. apply G. }
    destruct (f_ready (s_futs s f)) eqn:RD.
    + match goal with [ H : match queue_post ?a ?b with _ => _ end = _ |- _ ] => destruct (queue_post a b) as [s1|] eqn:Q; [|discriminate] end.
      injection E as <- <-. apply post_futs in Q. intros g. rewrite Q. cbn [set_fut s_futs]. apply X.
    + injection E as <- <-. intros g. cbn [set_fut s_futs]. apply X.
  - destruct (f_freed _); [discriminate|]. injection E as <- <-. exact G.
  - destruct (f_freed _); [discriminate|]. destruct (f_ready _); injection E as <- <-; exact G.
  - destruct (f_freed _); [discriminate|]. destruct (f_ready _); injection E as <- <-; exact G.
  - destruct (get_waiter t (s_wait s)) as [[w l']|].
    + destruct (f_freed _); [discriminate|]. injection E as <- <-. exact G.
    + injection E as <- <-. exact G.
  - destruct (f_freed _); [discriminate|]. injection E as <- <-. intros g. cbn. unfold upd.
    destruct (Nat.eqb g f) eqn:EQ; cbn; [|apply G]. apply Nat.eqb_eq in EQ. subst. apply G.
  - destruct (s_thr s) as [|f|f c| ].
    + destruct (s_queue s) as [|f q].
      * injection E as <- <-. destruct (s_stop s); exact G.
      * destruct (f_freed _); [discriminate|]. injection E as <- <-. exact G.
    + destruct (f_freed _); [discriminate|]. injection E as <- <-. intros g. cbn. unfold upd.
      destruct (Nat.eqb g f) eqn:EQ; cbn; [|apply G]. apply Nat.eqb_eq in EQ. subst. apply G.
    + destruct (f_freed _); [discriminate|]. injection E as <- <-. exact G.
    + injection E as <- <-. exact G.
  - injection E as <- <-. exact G.
Qed.

Lemma run_app : forall h1 h2 s, run s (h1 ++ h2) =
  match run s h1 with
  | Some (s1, t1) => match run s1 h2 with Some (s2, t2) => Some (s2, t1 ++ t2) | None => None end
  | None => None
  end.
Proof.
  induction h1 as [|o h1 IH]; intros h2 s; cbn [app run].
  - destruct (run s h2) as [[? ?]|]; reflexivity.
  - destruct (step s o) as [[s1 l]|]; [|reflexivity]. rewrite IH.
    destruct (run s1 h1) as [[s2 t2]|]; [|reflexivity]. destruct (run s2 h2) as [[? ?]|]; reflexivity.
Qed.
Lemma run_split : forall h s s' t p x q, run s h = Some (s', t) -> t = p ++ x :: q ->
  exists h1 h2 s1 s2, h = h1 ++ fst x :: h2 /\ run s h1 = Some (s1, p) /\ step s1 (fst x) = Some (s2, snd x) /\ run s2 h2 = Some (s', q).
Proof.
  induction h as [|o h IH]; intros s s' t p x q R E; cbn in R.
  - injection R as <- <-. destruct p; discriminate.
  - destruct (step s o) as [[s1 l]|] eqn:S; [|discriminate].
    destruct (run s1 h) as [[s2 t2]|] eqn:RR; [|discriminate]. injection R as <- <-.
    destruct p as [|y p].
    + cbn in E. injection E as <- <-. exists [], h, s, s1. cbn. auto.
    + cbn in E. injection E as <- E. destruct (IH _ _ _ _ _ _ RR E) as (h1 & h2 & a & b & -> & R1 & R2 & R3).
      exists (o :: h1), h2, a, b. cbn. rewrite S, R1. auto.
Qed.

Fixpoint results (r : nat -> option nat) (t : list (op * list out)) : nat -> option nat :=
  match t with [] => r | (o, _) :: t => results (res_next r o) t end.
Lemma results_is : forall t r f, results r t f = result f (r f) t.
Proof.
  induction t as [|[o l] t IH]; intros r f; [reflexivity|]. cbn. rewrite IH. destruct o; reflexivity.
Qed.
Lemma run_good : forall h s r s' t, good s r -> run s h = Some (s', t) -> good s' (results r t).
Proof.
  induction h as [|o h IH]; intros s r s' t G R; cbn in R.
  - injection R as <- <-. exact G.
  - destruct (step s o) as [[s1 l]|] eqn:S; [|discriminate].
    destruct (run s1 h) as [[s2 t2]|] eqn:RR; [|discriminate]. injection R as <- <-. cbn.
    eapply IH; eauto. eapply step_good; eauto.
Qed.
Lemma good_init : good init (fun _ => None).
Proof. intros f. split; reflexivity. Qed.
Lemma good_at : forall h s t f, run init h = Some (s, t) ->
  f_ready (s_futs s f) = (match result f None t with Some _ => true | None => false end) /\
  f_ec (s_futs s f) = (match result f None t with Some ec => ec | None => 0 end).
Proof.
  intros h s t f R. pose proof (run_good _ _ _ _ _ good_init R f) as G. rewrite results_is in G. exact G.
Qed.

(** ** Wake ups *)
Definition lone (f : nat) (s : st) : Prop :=
  f_cb (s_futs s f) = None /\
  length (filter (fun w => Nat.eqb (w_fut w) f) (s_wait s)) <= 1 /\
  (f_ready (s_futs s f) = true -> forall w, In w (s_wait s) -> w_fut w = f -> w_signal w = true).

Lemma get_waiter_len : forall t f l w l', get_waiter t l = Some (w, l') ->
  length (filter (fun w => Nat.eqb (w_fut w) f) l') <= length (filter (fun w => Nat.eqb (w_fut w) f) l).
Proof.
  intros t f l. induction l as [|x l IH]; intros w l' E; [discriminate|]. cbn in E.
  destruct (Nat.eqb (w_thread x) t).
  - injection E as <- <-. cbn. destruct (Nat.eqb _ _); cbn; lia.
  - destruct (get_waiter t l) as [[w' l'']|]; [|discriminate]. injection E as <- <-.
    specialize (IH w' l'' eq_refl). cbn. destruct (Nat.eqb _ _); cbn; lia.
Qed.
Lemma signal_len : forall g f l,
  length (filter (fun w => Nat.eqb (w_fut w) f) (signal g l)) = length (filter (fun w => Nat.eqb (w_fut w) f) l).
Proof.
  intros g f l. induction l as [|x l IH]; [reflexivity|]. cbn.
  destruct (Nat.eqb (w_fut x) g && negb (w_signal x))%bool eqn:E.
  - apply andb_true_iff in E as [E _]. apply Nat.eqb_eq in E. cbn. rewrite <- E. destruct (Nat.eqb _ _); reflexivity.
  - cbn. destruct (Nat.eqb (w_fut x) f); cbn; rewrite IH; reflexivity.
Qed.
Lemma signal_lone : forall f l, length (filter (fun w => Nat.eqb (w_fut w) f) l) <= 1 ->
  forall w, In w (signal f l) -> w_fut w = f -> w_signal w = true.
Proof.
  intros f l. induction l as [|x l IH]; intros L w I E; [destruct I|]. cbn in L, I.
  destruct (Nat.eqb (w_fut x) f) eqn:X; cbn in *.
  - assert (NO : forall y, In y l -> w_fut y <> f).
    { intros y Y F. assert (IN : In y (filter (fun w => Nat.eqb (w_fut w) f) l)).
      { apply filter_In. split; auto. apply Nat.eqb_eq. auto. }
      destruct (filter (fun w => Nat.eqb (w_fut w) f) l); [destruct IN|cbn in L; lia]. }
    destruct (w_signal x) eqn:S; cbn in I.
    + destruct I as [<-|I]; auto. destruct (signal_in _ _ _ I) as (w' & W1 & W2).
      exfalso. apply (NO w' W1). congruence.
    + destruct I as [<-|I]; [reflexivity|]. exfalso. apply (NO w I E).
  - destruct I as [<-|I]; [apply Nat.eqb_neq in X; congruence|]. apply IH; auto.
Qed.
Lemma signal_other : forall g f l w, g <> f -> In w (signal g l) -> w_fut w = f -> In w l.
Proof.
  intros g f l. induction l as [|x l IH]; intros w N I E; [destruct I|]. cbn in I.
  destruct (Nat.eqb (w_fut x) g && negb (w_signal x))%bool eqn:B.
  - destruct I as [<-|I]; [cbn in E; congruence|right; auto].
  - destruct I as [<-|I]; [left; auto|right; apply IH; auto].
Qed.

Lemma lone_init : forall f, lone f init.
Proof. intros f. repeat split; cbn; auto. Qed.

Lemma lone_upd : forall f s g v, lone f s -> (g = f -> f_cb v = None /\ (f_ready v = true -> f_ready (s_futs s f) = true)) ->
  lone f (set_fut s g v).
Proof.
  intros f s g v (A & B & C) H. unfold lone. cbn. unfold upd. destruct (Nat.eqb f g) eqn:E.
  - apply Nat.eqb_eq in E. destruct (H (eq_sym E)) as [H1 H2]. auto.
  - auto.
Qed.

Lemma lone_same : forall f s s', lone f s -> s_futs s' = s_futs s -> s_wait s' = s_wait s -> lone f s'.
Proof. unfold lone. intros f s s' L -> ->. exact L. Qed.
Lemma post_same : forall s f s', queue_post s f = Some s' -> s_futs s' = s_futs s /\ s_wait s' = s_wait s.
Proof. intros s f s'. unfold queue_post. destruct (existsb _ _); [discriminate|]. intros E; injection E as <-; auto. Qed.

Lemma step_lone : forall f s o s' l, lone f s -> calm f s [o] -> step s o = Some (s', l) -> lone f s'.
Proof.
  intros f s o s' l L C E. cbn in C. destruct C as [C _].
  assert (WT : forall t tm, (waited s f = false) -> f_ready (s_futs s f) = false ->
     lone f (set_wait s (s_wait s ++ [{| w_thread := t; w_fut := f; w_timed := tm; w_signal := false |}]))).
  { intros t tm W R. destruct L as (L1 & L2 & L3). unfold lone. cbn. split; auto. split.
    - rewrite filter_app, app_length. cbn. rewrite Nat.eqb_refl. cbn.
      assert (Z : filter (fun w => Nat.eqb (w_fut w) f) (s_wait s) = []).
      { pose proof (waited_in s f W) as N. clear - N. induction (s_wait s) as [|x q IH]; [reflexivity|]. cbn.
        destruct (Nat.eqb (w_fut x) f) eqn:X; [apply Nat.eqb_eq in X; exfalso; apply (N x); [left; auto|auto]|].
        apply IH. intros w I. apply N. right. auto. }
      rewrite Z. cbn. lia.
    - congruence. }
  assert (WO : forall t g tm, g <> f ->
     lone f (set_wait s (s_wait s ++ [{| w_thread := t; w_fut := g; w_timed := tm; w_signal := false |}]))).
  { intros t g tm N. destruct L as (L1 & L2 & L3). unfold lone. cbn. split; auto. split.
    - rewrite filter_app, app_length. cbn. apply Nat.eqb_neq in N. rewrite N. cbn. lia.
    - intros R w I F. apply in_app_iff in I. destruct I as [I|[<-|[]]]; [apply L3; auto|cbn in F; congruence]. }
  destruct o as [g|g ec|g c d|g|t g|t g|t|g| | ]; cbn [step] in E.
  - destruct (f_freed _); [discriminate|]. injection E as <- <-. apply lone_upd; auto.
    intros _. cbn. split; auto. discriminate.
  - destruct (f_freed (s_futs s g)); [discriminate|]. unfold resolve in E.
    destruct (Nat.eq_dec g f) as [->|N].
    + destruct L as (L1 & L2 & L3). rewrite L1 in E. injection E as <- <-. unfold lone. cbn. rewrite upd_same. cbn.
      split; auto. rewrite signal_len. split; auto. intros _. apply signal_lone. auto.
    + destruct (f_cb (s_futs s g)) eqn:CB.
      * match goal with [ H : match queue_post ?a ?b with _ => _ end = _ |- _ ] => destruct (queue_post a b) as [s1|] eqn:Q; [|discriminate] end.
        injection E as <- <-. apply post_same in Q. destruct Q as [Q1 Q2].
        eapply lone_same; [|exact Q1|exact Q2]. apply lone_upd; auto. intros; contradiction.
      * injection E as <- <-. destruct L as (L1 & L2 & L3). unfold lone. cbn. rewrite upd_other by auto.
        split; auto. rewrite signal_len. split; auto. intros R w I F. apply L3; auto.
        eapply signal_other; eauto.
  - destruct (f_freed (s_futs s g)); [discriminate|]. unfold set_callback in E.
    destruct (f_ready (s_futs s g)).
    + match goal with [ H : match queue_post ?a ?b with _ => _ end = _ |- _ ] => destruct (queue_post a b) as [s1|] eqn:Q; [|discriminate] end.
      injection E as <- <-. apply post_same in Q. destruct Q as [Q1 Q2].
      eapply lone_same; [|exact Q1|exact Q2]. apply lone_upd; auto. intros; contradiction.
    + injection E as <- <-. apply lone_upd; auto. intros; contradiction.
  - destruct (f_freed _); [discriminate|]. injection E as <- <-. exact L.
  - destruct (f_freed _); [discriminate|]. destruct (f_ready (s_futs s g)) eqn:R; injection E as <- <-; [exact L|].
    destruct (Nat.eq_dec g f) as [->|N]; auto.
  - destruct (f_freed _); [discriminate|]. destruct (f_ready (s_futs s g)) eqn:R; injection E as <- <-; [exact L|].
    destruct (Nat.eq_dec g f) as [->|N]; auto.
  - destruct (get_waiter t (s_wait s)) as [[w l']|] eqn:GW.
    + destruct (f_freed _); [discriminate|]. injection E as <- <-. destruct L as (L1 & L2 & L3). unfold lone. cbn.
      split; auto. pose proof (get_waiter_len t f _ _ _ GW). split; [lia|].
      destruct (get_waiter_in _ _ _ _ GW) as [_ G]. intros R x X F. apply L3; auto.
    + injection E as <- <-. exact L.
  - destruct (f_freed _); [discriminate|]. injection E as <- <-. apply lone_upd; auto. intros ->. cbn.
    destruct L as (L1 & _). auto.
  - destruct (s_thr s) as [|g|g c| ].
    + destruct (s_queue s) as [|g q].
      * injection E as <- <-. destruct (s_stop s); [|exact L]. eapply lone_same; eauto.
      * destruct (f_freed _); [discriminate|]. injection E as <- <-. eapply lone_same; eauto.
    + destruct (f_freed _); [discriminate|]. injection E as <- <-.
      eapply lone_same; [apply (lone_upd f s g); [exact L|]|reflexivity|reflexivity].
      intros ->. cbn. auto.
    + destruct (f_freed _); [discriminate|]. injection E as <- <-. eapply lone_same; eauto.
    + injection E as <- <-. exact L.
  - injection E as <- <-. eapply lone_same; eauto.
Qed.

Lemma run_lone : forall h f s s' t, lone f s -> calm f s h -> run s h = Some (s', t) -> lone f s'.
Proof.
  induction h as [|o h IH]; intros f s s' t L C R; cbn in R.
  - injection R as <- <-. exact L.
  - cbn [calm] in C. destruct C as [C1 C2].
    destruct (step s o) as [[s1 l]|] eqn:S; [|discriminate].
    destruct (run s1 h) as [[s2 t2]|] eqn:RR; [|discriminate]. injection R as <- <-.
    eapply IH; [|exact C2|exact RR]. eapply step_lone; eauto. cbn. rewrite S. auto.
Qed.
