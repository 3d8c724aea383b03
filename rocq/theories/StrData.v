From Coq Require Import List Bool Arith Lia.
From Verif Require Import StrModel StrSpec StrProofs.
Import ListNotations.

(** ** What is put in the buffer of a read *)
Definition fl (e : nat) (l : list out) : list (nat * nat) := flat_map (fun x => match x with Filled e' a n => if e =? e' then [(a, n)] else [] | _ => [] end) l.
Definition ln (e : nat) (l : list out) : list nat := flat_map (fun x => match x with Length e' n => if e =? e' then [n] else [] | _ => [] end) l.
Definition tk (e : nat) (l : list out) : list (nat * nat) := flat_map (fun x => match x with Taken e' a n => if e =? e' then [(a, n)] else [] | _ => [] end) l.
Lemma fl_app : forall e a b, fl e (a ++ b) = fl e a ++ fl e b. Proof. intros. apply flat_map_app. Qed.
Lemma ln_app : forall e a b, ln e (a ++ b) = ln e a ++ ln e b. Proof. intros. apply flat_map_app. Qed.
Lemma tk_app : forall e a b, tk e (a ++ b) = tk e a ++ tk e b. Proof. intros. apply flat_map_app. Qed.
Lemma fl_resolve : forall e x c, fl e (resolve x c) = []. Proof. intros e [y|] c; reflexivity. Qed.
Lemma ln_resolve : forall e x c, ln e (resolve x c) = []. Proof. intros e [y|] c; reflexivity. Qed.
Lemma tk_resolve : forall e x c, tk e (resolve x c) = []. Proof. intros e [y|] c; reflexivity. Qed.
Lemma cover_snoc : forall l a b k, cover a l b -> 0 < k -> cover a (l ++ [(b, k)]) (b + k).
Proof. induction l as [|[c j] l IH]; intros a b k C K; cbn in *; [subst; auto|]. destruct C as (-> & J & C). auto. Qed.

(** The effect on the read e, when it is the one which is held. *)
Definition advance (r : reading) (k : nat) : reading := {| r_all := r_all r; r_ev := r_ev r; r_at := r_at r + k; r_left := r_left r - k; r_len := r_len r + k |}.
Definition read_effect (r : reading) (s' : stream) (l : list out) : Prop :=
  exists k, k <= r_left r /\ (k = 0 /\ fl (r_ev r) l = [] /\ ln (r_ev r) l = [] \/ 0 < k /\ fl (r_ev r) l = [(r_at r, k)] /\ ln (r_ev r) l = [r_len r + k]) /\
    (c_read s' = Some (advance r k) \/ c_read s' = None /\ exists c, In (Complete (r_ev r) c) l /\ (c = Ok -> 0 < k /\ (r_all r = true -> k = r_left r))).
Definition no_read (e : nat) (l : list out) : Prop := fl e l = [] /\ ln e l = [].
Lemma advance_0 : forall r, advance r 0 = r.
Proof. intros [a e p l n]. unfold advance. cbn. rewrite !Nat.add_0_r, Nat.sub_0_r. reflexivity. Qed.
Lemma do_read_effect : forall v s r, c_read s = Some r -> read_effect r (fst (do_read v s)) (snd (do_read v s)).
Proof.
  intros v s r R. unfold do_read, resolve_read. rewrite R. destruct (n_read v) as [[] k]; cbn [fst snd to_ec];
    try (exists 0; split; [lia|]; split; [left; auto|]; right; split; [reflexivity|]; eexists; split; [left; reflexivity|discriminate]).
  destruct (Nat.min k (r_left r) =? 0) eqn:Z; cbn [fst snd].
  - exists 0. split; [lia|]. split; [left; auto|]. left. rewrite advance_0. exact R.
  - apply Nat.eqb_neq in Z. cbn [r_all r_left]. exists (Nat.min k (r_left r)). split; [lia|].
    assert (F : forall l, fl (r_ev r) (Complete (r_ev r) Ok :: l) = fl (r_ev r) l) by reflexivity.
    destruct (r_all r && negb (r_left r - Nat.min k (r_left r) =? 0)) eqn:A; cbn [fst snd c_read set_read r_ev app]; (split; [right; split; [lia|]; unfold fl, ln; cbn [flat_map]; rewrite Nat.eqb_refl; auto|]).
    + left. reflexivity.
    + right. split; [reflexivity|]. exists Ok. split; [right; right; left; reflexivity|]. intros _. split; [lia|]. intros T. rewrite T in A. cbn [andb] in A. apply negb_false_iff, Nat.eqb_eq in A. lia.
Qed.
Lemma do_read_none : forall v s e, option_map r_ev (c_read s) <> Some e -> no_read e (snd (do_read v s)).
Proof.
  intros v s e N. unfold do_read, resolve_read. destruct (c_read s) as [r|]; [|split; reflexivity]. destruct (n_read v) as [[] k]; try (split; reflexivity). destruct (_ =? 0); [split; reflexivity|].
  assert (X : (e =? r_ev r) = false) by (apply Nat.eqb_neq; cbn in N; congruence).
  cbn [r_all r_left]. destruct (r_all r && _); cbn [snd c_read set_read]; split; unfold fl, ln; cbn [flat_map app]; rewrite X; reflexivity.
Qed.
Lemma do_write_none : forall v s e, no_read e (snd (do_write v s)).
Proof. intros v s e. unfold do_write. destruct (c_write s) as [w|]; [|split; reflexivity]. destruct (n_write v) as [[] k]; try (split; reflexivity). destruct (_ =? 0); [split; reflexivity|]. destruct (_ =? _); split; reflexivity. Qed.
Lemma no_read_nil : forall e, no_read e []. Proof. split; reflexivity. Qed.
Lemma no_read_app : forall e a b, no_read e a -> no_read e b -> no_read e (a ++ b).
Proof. intros e a b [A1 A2] [B1 B2]. split; [rewrite fl_app, A1, B1|rewrite ln_app, A2, B2]; reflexivity. Qed.
Lemma no_read_resolve : forall e x c, no_read e (resolve x c). Proof. intros. split; [apply fl_resolve|apply ln_resolve]. Qed.
Lemma no_read_complete : forall e x c, no_read e [Complete x c]. Proof. split; reflexivity. Qed.
(** More outputs which do not concern the read change nothing. *)
Lemma effect_more : forall r s l a b s', read_effect r s l -> no_read (r_ev r) a -> no_read (r_ev r) b -> c_read s' = c_read s -> read_effect r s' (a ++ l ++ b).
Proof.
  intros r s l a b s' (k & K & E & C) [A1 A2] [B1 B2] R. exists k. split; [exact K|]. split.
  - rewrite !fl_app, !ln_app, A1, A2, B1, B2, !app_nil_r. cbn [app]. exact E.
  - rewrite R. destruct C as [C|[C [c [I P]]]]; [auto|]. right. split; [exact C|]. exists c. split; [rewrite !in_app_iff; auto|exact P].
Qed.
Lemma effect_idle : forall r s l, no_read (r_ev r) l -> c_read s = Some r -> read_effect r s l.
Proof. intros r s l [A B] R. exists 0. split; [lia|]. split; [auto|]. left. rewrite advance_0. exact R. Qed.
Lemma last_close : forall v s, no_read 0 [] -> forall e, let x := match handle_close v s with Ok => (s, []) | c => (set_close None s, resolve (c_close s) c) end in c_read (fst x) = c_read s /\ no_read e (snd x).
Proof. intros v s _ e. destruct (handle_close v s); cbn; (split; [reflexivity|]); try apply no_read_resolve. apply no_read_nil. Qed.

Lemma step_read_held : forall v o s r, c_read s = Some r -> ~ In (r_ev r) (begins (o, v)) -> read_effect r (fst (step v o s)) (snd (step v o s)).
Proof.
  intros v o s r R NB. destruct o as [x|all x n|x n|x|x| |]; cbn [step].
  - destruct (c_stopped s); [apply effect_idle; [apply no_read_complete|exact R]|]. destruct (c_accept s); apply effect_idle; auto; try apply no_read_complete; apply no_read_nil.
  - destruct (c_stopped s); [apply effect_idle; [apply no_read_complete|exact R]|]. rewrite R. apply effect_idle; [apply no_read_complete|exact R].
  - destruct (c_stopped s); [apply effect_idle; [apply no_read_complete|exact R]|]. destruct (c_write s); [apply effect_idle; [apply no_read_complete|exact R]|]. destruct (c_closed s); [apply effect_idle; [apply no_read_complete|exact R]|].
    apply effect_idle; [apply do_write_none|]. pose proof (do_write_other v (set_write (Some {| w_ev := x; w_at := 0; w_left := n |}) s)) as (_ & O & _). rewrite O. exact R.
  - destruct (c_stopped s); [apply effect_idle; [apply no_read_complete|exact R]|]. destruct (c_close s); [apply effect_idle; [apply no_read_complete|exact R]|]. destruct (handle_close v _); apply effect_idle; auto; try apply no_read_complete; apply no_read_nil.
  - destruct (c_stopped s); [apply effect_idle; [apply no_read_nil|exact R]|]. destruct x; cbn [event_callback].
    + apply effect_idle; [apply no_read_resolve|exact R].
    + apply do_read_effect. exact R.
    + apply effect_idle; [apply do_write_none|]. pose proof (do_write_other v s) as (_ & O & _). rewrite O. exact R.
    + apply do_read_effect. exact R.
    + apply effect_idle; [apply no_read_resolve|exact R].
    + pose proof (do_write_other v s) as (_ & O & _). pose proof (do_write_none v s (r_ev r)) as W. destruct (do_write v s) as [s1 l1]. cbn [fst snd] in *.
      pose proof (do_read_effect v (set_accept None s1) r ltac:(cbn; congruence)) as E. destruct (do_read v _) as [s3 l3]. cbn [fst snd] in *.
      pose proof (last_close v s3 (no_read_nil 0) (r_ev r)) as [C1 C2]. destruct (match handle_close v s3 with Ok => _ | _ => _ end) as [s4 l4]. cbn [fst snd] in *.
      rewrite app_assoc. eapply effect_more; eauto. apply no_read_app; [exact W|apply no_read_resolve].
  - unfold stop. destruct (c_stopped s); [apply effect_idle; [apply no_read_nil|exact R]|]. exists 0. split; [lia|]. cbn [fst snd]. split; [left; split; [reflexivity|]; rewrite !fl_app, !ln_app, !fl_resolve, !ln_resolve; auto|].
    right. split; [reflexivity|]. exists Aborted. split; [rewrite R; rewrite !in_app_iff; right; left; left; reflexivity|discriminate].
  - unfold stop. destruct (c_stopped s); [apply effect_idle; [apply no_read_nil|exact R]|]. exists 0. split; [lia|]. cbn [fst snd]. split; [left; split; [reflexivity|]; rewrite !fl_app, !ln_app, !fl_resolve, !ln_resolve; auto|].
    right. split; [reflexivity|]. exists Aborted. split; [rewrite R; rewrite !in_app_iff; right; left; left; reflexivity|discriminate].
Qed.
Lemma step_read_none : forall v o s e, option_map r_ev (c_read s) <> Some e -> ~ In e (begins (o, v)) -> no_read e (snd (step v o s)).
Proof.
  intros v o s e N NB. destruct o as [x|all x n|x n|x|x| |]; cbn [step].
  - destruct (c_stopped s); [apply no_read_complete|]. destruct (c_accept s); [apply no_read_complete|apply no_read_nil].
  - destruct (c_stopped s); [apply no_read_complete|]. destruct (c_read s); [apply no_read_complete|]. pose proof (do_read_none v (set_read (Some {| r_all := all; r_ev := x; r_at := 0; r_left := n; r_len := 0 |}) s) e) as [A B].
    { cbn. intros X. apply NB. unfold begins. cbn. left. congruence. }
    destruct (do_read _ _) as [s1 l]. cbn [snd] in *. split; [exact A|]. unfold ln in *. cbn [flat_map]. rewrite B. destruct (e =? x) eqn:X; [|reflexivity]. apply Nat.eqb_eq in X. subst. destruct NB. left. reflexivity.
  - destruct (c_stopped s); [apply no_read_complete|]. destruct (c_write s); [apply no_read_complete|]. destruct (c_closed s); [apply no_read_complete|]. apply do_write_none.
  - destruct (c_stopped s); [apply no_read_complete|]. destruct (c_close s); [apply no_read_complete|]. destruct (handle_close v _); try apply no_read_complete. apply no_read_nil.
  - destruct (c_stopped s); [apply no_read_nil|]. destruct x; cbn [event_callback]; try apply no_read_resolve; try apply do_write_none; try (apply do_read_none; exact N).
    pose proof (do_write_other v s) as (_ & O & _). pose proof (do_write_none v s e) as W. destruct (do_write v s) as [s1 l1]. cbn [fst snd] in *.
    pose proof (do_read_none v (set_accept None s1) e ltac:(cbn; congruence)) as E. destruct (do_read v _) as [s3 l3]. cbn [fst snd] in *.
    pose proof (last_close v s3 (no_read_nil 0) e) as [C1 C2]. destruct (match handle_close v s3 with Ok => _ | _ => _ end) as [s4 l4]. cbn [fst snd] in *.
    apply no_read_app; [exact W|]. apply no_read_app; [apply no_read_resolve|]. apply no_read_app; [exact E|exact C2].
  - unfold stop. destruct (c_stopped s); [apply no_read_nil|]. repeat apply no_read_app; apply no_read_resolve.
  - unfold stop. destruct (c_stopped s); [apply no_read_nil|]. repeat apply no_read_app; apply no_read_resolve.
Qed.

(** ** What is taken from the buffer of a write *)
Definition take (w : writing) (k : nat) : writing := {| w_ev := w_ev w; w_at := w_at w + k; w_left := w_left w - k |}.
Definition write_effect (w : writing) (s' : stream) (l : list out) : Prop :=
  exists k, k <= w_left w /\ (k = 0 /\ tk (w_ev w) l = [] \/ 0 < k /\ tk (w_ev w) l = [(w_at w, k)]) /\
    (c_write s' = Some (take w k) \/ c_write s' = None /\ exists c, In (Complete (w_ev w) c) l /\ (c = Ok -> 0 < k /\ k = w_left w)).
Definition no_write (e : nat) (l : list out) : Prop := tk e l = [].
Lemma take_0 : forall w, take w 0 = w.
Proof. intros [e p l]. unfold take. cbn. rewrite !Nat.add_0_r, Nat.sub_0_r. reflexivity. Qed.
Lemma do_write_effect : forall v s w, c_write s = Some w -> write_effect w (fst (do_write v s)) (snd (do_write v s)).
Proof.
  intros v s r R. unfold do_write. rewrite R. destruct (n_write v) as [[] k]; cbn [fst snd to_ec];
    try (exists 0; split; [lia|]; split; [left; auto|]; right; split; [reflexivity|]; eexists; split; [left; reflexivity|discriminate]).
  destruct (Nat.min k (w_left r) =? 0) eqn:Z; cbn [fst snd].
  - exists 0. split; [lia|]. split; [left; auto|]. left. rewrite take_0. exact R.
  - apply Nat.eqb_neq in Z. exists (Nat.min k (w_left r)). split; [lia|]. destruct (_ =? w_left r) eqn:A; cbn [fst snd c_write set_write]; (split; [right; split; [lia|]; unfold tk; cbn [flat_map]; rewrite Nat.eqb_refl; auto|]).
    + right. split; [reflexivity|]. exists Ok. split; [right; left; reflexivity|]. apply Nat.eqb_eq in A. intros _. lia.
    + left. reflexivity.
Qed.
Lemma do_write_no : forall v s e, option_map w_ev (c_write s) <> Some e -> no_write e (snd (do_write v s)).
Proof.
  intros v s e N. unfold do_write. destruct (c_write s) as [r|]; [|reflexivity]. destruct (n_write v) as [[] k]; try reflexivity. destruct (_ =? 0); [reflexivity|].
  assert (X : (e =? w_ev r) = false) by (apply Nat.eqb_neq; cbn in N; congruence). destruct (Nat.min k (w_left r) =? w_left r); unfold no_write, tk; cbn [snd flat_map app]; rewrite X; reflexivity.
Qed.
Lemma do_read_no : forall v s e, no_write e (snd (do_read v s)).
Proof. intros v s e. unfold do_read, resolve_read. destruct (c_read s) as [r|]; [|reflexivity]. destruct (n_read v) as [[] k]; try reflexivity. destruct (_ =? 0); [reflexivity|]. cbn [r_all r_left]. destruct (r_all r && _); reflexivity. Qed.
Lemma no_write_app : forall e a b, no_write e a -> no_write e b -> no_write e (a ++ b).
Proof. unfold no_write. intros e a b A B. rewrite tk_app, A, B. reflexivity. Qed.
Lemma write_idle : forall w s l, no_write (w_ev w) l -> c_write s = Some w -> write_effect w s l.
Proof. intros r s l A R. exists 0. split; [lia|]. split; [auto|]. left. rewrite take_0. exact R. Qed.
Lemma write_more : forall w s l b s', write_effect w s l -> no_write (w_ev w) b -> c_write s' = c_write s -> write_effect w s' (l ++ b).
Proof.
  intros r s l b s' (k & K & E & C) B R. exists k. split; [exact K|]. split.
  - rewrite !tk_app, B, !app_nil_r. exact E.
  - rewrite R. destruct C as [C|[C [c [I P]]]]; [auto|]. right. split; [exact C|]. exists c. split; [rewrite !in_app_iff; auto|exact P].
Qed.
Lemma last_close_w : forall v s e, let x := match handle_close v s with Ok => (s, []) | c => (set_close None s, resolve (c_close s) c) end in c_write (fst x) = c_write s /\ no_write e (snd x).
Proof. intros v s e. destruct (handle_close v s); cbn; (split; [reflexivity|]); try apply tk_resolve. reflexivity. Qed.
Lemma step_write_held : forall v o s w, c_write s = Some w -> ~ In (w_ev w) (begins (o, v)) -> write_effect w (fst (step v o s)) (snd (step v o s)).
Proof.
  intros v o s r R NB. destruct o as [x|all x n|x n|x|x| |]; cbn [step].
  - destruct (c_stopped s); [apply write_idle; [reflexivity|exact R]|]. destruct (c_accept s); apply write_idle; auto; reflexivity.
  - destruct (c_stopped s); [apply write_idle; [reflexivity|exact R]|]. destruct (c_read s); [apply write_idle; [reflexivity|exact R]|].
    set (s0 := set_read _ s). pose proof (do_read_other v s0) as (_ & O & _). pose proof (do_read_no v s0 (w_ev r)) as D. destruct (do_read v s0) as [s1 l]. cbn [fst snd] in *. apply write_idle; [exact D|]. rewrite O. exact R.
  - destruct (c_stopped s); [apply write_idle; [reflexivity|exact R]|]. rewrite R. apply write_idle; [reflexivity|exact R].
  - destruct (c_stopped s); [apply write_idle; [reflexivity|exact R]|]. destruct (c_close s); [apply write_idle; [reflexivity|exact R]|]. destruct (handle_close v _); apply write_idle; auto; reflexivity.
  - destruct (c_stopped s); [apply write_idle; [reflexivity|exact R]|]. destruct x; cbn [event_callback].
    + apply write_idle; [apply tk_resolve|exact R].
    + apply write_idle; [apply do_read_no|]. pose proof (do_read_other v s) as (_ & O & _). rewrite O. exact R.
    + apply do_write_effect. exact R.
    + apply write_idle; [apply do_read_no|]. pose proof (do_read_other v s) as (_ & O & _). rewrite O. exact R.
    + apply write_idle; [apply tk_resolve|exact R].
    + pose proof (do_write_effect v s r R) as W. destruct (do_write v s) as [s1 l1]. cbn [fst snd] in *.
      pose proof (do_read_other v (set_accept None s1)) as (_ & O & _). pose proof (do_read_no v (set_accept None s1) (w_ev r)) as D. destruct (do_read v _) as [s3 l3]. cbn [fst snd] in *.
      pose proof (last_close_w v s3 (w_ev r)) as [C1 C2]. destruct (match handle_close v s3 with Ok => _ | _ => _ end) as [s4 l4]. cbn [fst snd] in *.
      eapply write_more; [exact W| |rewrite C1, O; reflexivity]. apply no_write_app; [apply tk_resolve|]. apply no_write_app; [exact D|exact C2].
  - unfold stop. destruct (c_stopped s); [apply write_idle; [reflexivity|exact R]|]. exists 0. split; [lia|]. cbn [fst snd]. split; [left; split; [reflexivity|]; rewrite !tk_app, !tk_resolve; auto|].
    right. split; [reflexivity|]. exists Aborted. split; [rewrite R; rewrite !in_app_iff; right; right; left; left; reflexivity|discriminate].
  - unfold stop. destruct (c_stopped s); [apply write_idle; [reflexivity|exact R]|]. exists 0. split; [lia|]. cbn [fst snd]. split; [left; split; [reflexivity|]; rewrite !tk_app, !tk_resolve; auto|].
    right. split; [reflexivity|]. exists Aborted. split; [rewrite R; rewrite !in_app_iff; right; right; left; left; reflexivity|discriminate].
Qed.
Lemma step_write_none : forall v o s e, option_map w_ev (c_write s) <> Some e -> ~ In e (begins (o, v)) -> no_write e (snd (step v o s)).
Proof.
  intros v o s e N NB. destruct o as [x|all x n|x n|x|x| |]; cbn [step].
  - destruct (c_stopped s); [reflexivity|]. destruct (c_accept s); reflexivity.
  - destruct (c_stopped s); [reflexivity|]. destruct (c_read s); [reflexivity|]. set (s0 := set_read _ s). pose proof (do_read_no v s0 e) as D. destruct (do_read v s0). exact D.
  - destruct (c_stopped s); [reflexivity|]. destruct (c_write s); [reflexivity|]. destruct (c_closed s); [reflexivity|]. apply do_write_no. cbn. intros X. apply NB. left. congruence.
  - destruct (c_stopped s); [reflexivity|]. destruct (c_close s); [reflexivity|]. destruct (handle_close v _); reflexivity.
  - destruct (c_stopped s); [reflexivity|]. destruct x; cbn [event_callback]; try apply tk_resolve; try apply do_read_no; try (apply do_write_no; exact N).
    pose proof (do_write_no v s e N) as W. destruct (do_write v s) as [s1 l1]. cbn [fst snd] in *.
    pose proof (do_read_no v (set_accept None s1) e) as E. destruct (do_read v _) as [s3 l3]. cbn [fst snd] in *.
    pose proof (last_close_w v s3 e) as [C1 C2]. destruct (match handle_close v s3 with Ok => _ | _ => _ end) as [s4 l4]. cbn [fst snd] in *.
    apply no_write_app; [exact W|]. apply no_write_app; [apply tk_resolve|]. apply no_write_app; [exact E|exact C2].
  - unfold stop. destruct (c_stopped s); [reflexivity|]. cbn [snd]. unfold no_write. rewrite !tk_app, !tk_resolve. reflexivity.
  - unfold stop. destruct (c_stopped s); [reflexivity|]. cbn [snd]. unfold no_write. rewrite !tk_app, !tk_resolve. reflexivity.
Qed.

(** ** Over histories *)
Lemma filled_snoc : forall e t m l, filled e (t ++ [(m, l)]) = filled e t ++ fl e l.
Proof. intros. unfold filled. rewrite outs_snoc. apply flat_map_app. Qed.
Lemma taken_snoc : forall e t m l, taken e (t ++ [(m, l)]) = taken e t ++ tk e l.
Proof. intros. unfold taken. rewrite outs_snoc. apply flat_map_app. Qed.
Lemma lengths_snoc : forall e t m l, lengths e (t ++ [(m, l)]) = lengths e t ++ ln e l.
Proof. intros. unfold lengths. rewrite outs_snoc. apply flat_map_app. Qed.
Lemma not_begun_held : forall h e k, ~ In e (begun h) -> held_k k (fst (run init h)) <> Some e.
Proof. intros h e k N H. destruct (reach_kinds h k e H) as [m [I S]]. apply N. eapply started_begun; eauto. Qed.
Lemma not_begun : forall h e, ~ In e (begun h) -> filled e (snd (run init h)) = [] /\ lengths e (snd (run init h)) = [] /\ taken e (snd (run init h)) = [].
Proof.
  induction h as [|m h IH] using rev_ind; intros e N; [auto|]. rewrite begun_snoc in N. rewrite run_snoc. cbn [snd]. rewrite filled_snoc, lengths_snoc, taken_snoc.
  assert (N1 : ~ In e (begun h)) by (intros X; apply N; apply in_app_iff; auto). assert (N2 : ~ In e (begins (fst m, snd m))) by (intros X; apply N; apply in_app_iff; destruct m; auto).
  destruct (IH e N1) as (A & B & C). destruct (step_read_none (snd m) (fst m) (fst (run init h)) e (not_begun_held h e KRead N1) N2) as [D E]. pose proof (step_write_none (snd m) (fst m) (fst (run init h)) e (not_begun_held h e KWrite N1) N2) as F.
  rewrite A, B, C, D, E, F. auto.
Qed.
Definition read_done (all : bool) (e n : nat) (t : trace) (c : code) : Prop :=
  exists k, cover 0 (filled e t) k /\ k <= n /\ last (lengths e t) 0 = k /\ (c = Ok -> 0 < k /\ (all = true -> k = n)).
Definition read_state (all : bool) (e n : nat) (s : stream) (t : trace) : Prop :=
  (exists r, c_read s = Some r /\ r_ev r = e /\ r_all r = all /\ r_at r + r_left r = n /\ r_len r = r_at r /\ cover 0 (filled e t) (r_at r) /\ last (lengths e t) 0 = r_at r) \/
  (option_map r_ev (c_read s) <> Some e /\ exists c, In (Complete e c) (outs t) /\ read_done all e n t c).
Lemma last_snoc : forall (l : list nat) x, last (l ++ [x]) 0 = x.
Proof. intros. apply last_last. Qed.
Lemma unheld : forall h e c, lawful h -> In (Complete e c) (outs (snd (run init h))) -> ~ In e (held (fst (run init h))).
Proof.
  intros h e c L I H. pose proof (reach_tally h e) as T. pose proof (occ_nodup e _ L) as N. pose proof (occ_in _ _ H) as O.
  assert (X : 1 <= completions e (snd (run init h))). { unfold completions, count. induction (outs (snd (run init h))) as [|x l IH]; [destruct I|]. cbn [filter]. destruct I as [->|I]; [cbn; rewrite Nat.eqb_refl; cbn; lia|]. specialize (IH I). destruct (is_complete e x); cbn [length]; lia. }
  lia.
Qed.
Lemma held_k_in : forall k e s, held_k k s = Some e -> In e (held s).
Proof. intros k e s H. unfold held. rewrite !in_app_iff. destruct k; rewrite H; cbn; auto 10. Qed.
Lemma complete_snoc : forall e c t m l, In (Complete e c) (outs t) \/ In (Complete e c) l -> In (Complete e c) (outs (t ++ [(m, l)])).
Proof. intros. rewrite outs_snoc. apply in_app_iff. exact H. Qed.

Lemma reach_read : forall h all e n v, lawful h -> In (Read all e n, v) h -> read_state all e n (fst (run init h)) (snd (run init h)).
Proof.
  induction h as [|m h IH] using rev_ind; intros all e n v L I; [destruct I|]. destruct (lawful_snoc h m L) as [L1 FR]. pose proof (unheld (h ++ [m]) e) as UH. apply in_app_iff in I as [I|[->|[]]].
  - assert (NB : ~ In e (begins (fst m, snd m))). { intros X. destruct m as [o w]. apply (FR e X). eapply started_begun; [exact I|reflexivity]. }
    specialize (IH all e n v L1 I). rewrite run_snoc in *. cbn [fst snd] in *. destruct IH as [(r & R & E & A & N & LE & C & LA)|(NR & c & IC & k & C & K & LA & OK)].
    + subst e. pose proof (step_read_held (snd m) (fst m) _ r R NB) as (k & K & EF & ST). destruct (step (snd m) (fst m) (fst (run init h))) as [s' l]. cbn [fst snd] in *.
      assert (CV : cover 0 (filled (r_ev r) (snd (run init h) ++ [(m, l)])) (r_at r + k) /\ last (lengths (r_ev r) (snd (run init h) ++ [(m, l)])) 0 = r_at r + k).
      { rewrite filled_snoc, lengths_snoc. destruct EF as [(-> & -> & ->)|(K0 & -> & ->)]; [rewrite !app_nil_r, Nat.add_0_r; auto|]. split; [apply cover_snoc; auto|rewrite last_snoc; lia]. }
      destruct CV as [CV LV]. destruct ST as [ST|[ST (c & IC & OK)]].
      * left. exists (advance r k). cbn. split; [exact ST|]. split; [reflexivity|]. split; [exact A|]. split; [lia|]. split; [lia|]. auto.
      * right. rewrite ST. split; [discriminate|]. exists c. split; [apply complete_snoc; auto|]. exists (r_at r + k). split; [exact CV|]. split; [lia|]. split; [exact LV|]. intros X. specialize (OK X) as [O1 O2]. split; [lia|]. intros Y. rewrite A in O2. specialize (O2 Y). lia.
    + right. destruct (step_read_none (snd m) (fst m) _ e NR NB) as [F G]. destruct (step (snd m) (fst m) (fst (run init h))) as [s' l] eqn:ST. cbn [fst snd] in *. split.
      * intros X. apply (UH c L); [apply complete_snoc; auto|]. apply (held_k_in KRead). exact X.
      * exists c. split; [apply complete_snoc; auto|]. exists k. rewrite filled_snoc, lengths_snoc, F, G, !app_nil_r. auto.
  - clear IH. assert (NB : ~ In e (begun h)) by (apply FR; left; reflexivity). destruct (not_begun h e NB) as (F & G & _). pose proof (not_begun_held h e KRead NB) as NH. rewrite run_snoc in *. cbn [fst snd] in *. revert UH. set (s := fst (run init h)) in *. cbn [step]. intros UH.
    assert (RJ : forall c, c <> Ok -> read_done all e n (snd (run init h) ++ [((Read all e n, v), [Complete e c])]) c). { intros c X. exists 0. rewrite filled_snoc, lengths_snoc, F, G. cbn. repeat split; try lia; congruence. }
    destruct (c_stopped s); [right; split; [exact NH|]; exists StoppedEc; split; [apply complete_snoc; right; left; reflexivity|apply RJ; discriminate]|].
    destruct (c_read s) eqn:R; [right; cbn [fst snd]; split; [exact NH|]; exists InProgress; split; [apply complete_snoc; right; left; reflexivity|apply RJ; discriminate]|].
    set (r0 := {| r_all := all; r_ev := e; r_at := 0; r_left := n; r_len := 0 |}). pose proof (do_read_effect v (set_read (Some r0) s) r0 eq_refl) as (k & K & EF & ST). destruct (do_read v (set_read (Some r0) s)) as [s' l]. cbn [fst snd r0 r_ev r_at r_len r_left r_all] in *.
    assert (CV : cover 0 (filled e (snd (run init h) ++ [((Read all e n, v), Length e 0 :: l)])) k /\ last (lengths e (snd (run init h) ++ [((Read all e n, v), Length e 0 :: l)])) 0 = k).
    { rewrite filled_snoc, lengths_snoc, F, G. change (fl e (Length e 0 :: l)) with (fl e l). unfold ln. cbn [flat_map]. rewrite Nat.eqb_refl. fold (ln e l). destruct EF as [(-> & -> & ->)|(K0 & -> & ->)]; cbn; auto. }
    destruct CV as [CV LV]. destruct ST as [ST|[ST (c & IC & OK)]].
    + left. exists (advance r0 k). cbn. split; [exact ST|]. split; [reflexivity|]. split; [reflexivity|]. split; [lia|]. split; [lia|]. auto.
    + right. rewrite ST. split; [discriminate|]. exists c. split; [apply complete_snoc; right; right; exact IC|]. exists k. auto.
Qed.

Definition write_done (e n : nat) (t : trace) (c : code) : Prop := exists k, cover 0 (taken e t) k /\ k <= n /\ (c = Ok -> 0 < k /\ k = n).
Definition write_state (e n : nat) (s : stream) (t : trace) : Prop :=
  (exists w, c_write s = Some w /\ w_ev w = e /\ w_at w + w_left w = n /\ cover 0 (taken e t) (w_at w)) \/
  (option_map w_ev (c_write s) <> Some e /\ exists c, In (Complete e c) (outs t) /\ write_done e n t c).
Lemma reach_write : forall h e n v, lawful h -> In (Write e n, v) h -> write_state e n (fst (run init h)) (snd (run init h)).
Proof.
  induction h as [|m h IH] using rev_ind; intros e n v L I; [destruct I|]. destruct (lawful_snoc h m L) as [L1 FR]. pose proof (unheld (h ++ [m]) e) as UH. apply in_app_iff in I as [I|[->|[]]].
  - assert (NB : ~ In e (begins (fst m, snd m))). { intros X. destruct m as [o w]. apply (FR e X). eapply started_begun; [exact I|reflexivity]. }
    specialize (IH e n v L1 I). rewrite run_snoc in *. cbn [fst snd] in *. destruct IH as [(r & R & E & N & C)|(NR & c & IC & k & C & K & OK)].
    + subst e. pose proof (step_write_held (snd m) (fst m) _ r R NB) as (k & K & EF & ST). destruct (step (snd m) (fst m) (fst (run init h))) as [s' l]. cbn [fst snd] in *.
      assert (CV : cover 0 (taken (w_ev r) (snd (run init h) ++ [(m, l)])) (w_at r + k)). { rewrite taken_snoc. destruct EF as [(-> & ->)|(K0 & ->)]; [rewrite !app_nil_r, Nat.add_0_r; auto|]. apply cover_snoc; auto. }
      destruct ST as [ST|[ST (c & IC & OK)]].
      * left. exists (take r k). cbn. split; [exact ST|]. split; [auto|]. split; [lia|exact CV].
      * right. rewrite ST. split; [discriminate|]. exists c. split; [apply complete_snoc; auto|]. exists (w_at r + k). split; [exact CV|]. split; [lia|]. intros X. specialize (OK X) as [O1 O2]. lia.
    + right. pose proof (step_write_none (snd m) (fst m) _ e NR NB) as F. destruct (step (snd m) (fst m) (fst (run init h))) as [s' l] eqn:ST. cbn [fst snd] in *. split.
      * intros X. apply (UH c L); [apply complete_snoc; auto|]. apply (held_k_in KWrite). exact X.
      * exists c. split; [apply complete_snoc; auto|]. exists k. rewrite taken_snoc, F, !app_nil_r. auto.
  - clear IH. assert (NB : ~ In e (begun h)) by (apply FR; left; reflexivity). destruct (not_begun h e NB) as (_ & _ & F). pose proof (not_begun_held h e KWrite NB) as NH. rewrite run_snoc in *. cbn [fst snd] in *. revert UH. set (s := fst (run init h)) in *. cbn [step]. intros UH.
    assert (RJ : forall c, c <> Ok -> write_done e n (snd (run init h) ++ [((Write e n, v), [Complete e c])]) c). { intros c X. exists 0. rewrite taken_snoc, F. cbn. repeat split; try lia; congruence. }
    destruct (c_stopped s); [right; split; [exact NH|]; exists StoppedEc; split; [apply complete_snoc; right; left; reflexivity|apply RJ; discriminate]|].
    destruct (c_write s) eqn:R; [right; cbn [fst snd]; split; [exact NH|]; exists InProgress; split; [apply complete_snoc; right; left; reflexivity|apply RJ; discriminate]|].
    destruct (c_closed s); [right; cbn [fst snd]; rewrite R; split; [discriminate|]; exists ClosedEc; split; [apply complete_snoc; right; left; reflexivity|apply RJ; discriminate]|].
    set (r0 := {| w_ev := e; w_at := 0; w_left := n |}). pose proof (do_write_effect v (set_write (Some r0) s) r0 eq_refl) as (k & K & EF & ST). destruct (do_write v (set_write (Some r0) s)) as [s' l]. cbn [fst snd r0 w_ev w_at w_left] in *.
    assert (CV : cover 0 (taken e (snd (run init h) ++ [((Write e n, v), l)])) k). { rewrite taken_snoc, F. destruct EF as [(-> & ->)|(K0 & ->)]; cbn; auto. }
    destruct ST as [ST|[ST (c & IC & OK)]].
    + left. exists (take r0 k). cbn. split; [exact ST|]. split; [auto|]. split; [lia|exact CV].
    + right. rewrite ST. split; [discriminate|]. exists c. split; [apply complete_snoc; right; exact IC|]. exists k. auto.
Qed.
Lemma complete_once : forall e c c' l, count (is_complete e) l <= 1 -> In (Complete e c) l -> In (Complete e c') l -> c = c'.
Proof.
  intros e c c' l. unfold count. induction l as [|x l IH]; intros N I I'; [destruct I|]. cbn [filter] in N.
  assert (Z : forall d, In (Complete e d) l -> 1 <= length (filter (is_complete e) l)). { intros d. clear. induction l as [|x l IH]; intros I; [destruct I|]. cbn [filter]. destruct I as [->|I]; [cbn; rewrite Nat.eqb_refl; cbn; lia|]. specialize (IH I). destruct (is_complete e x); cbn [length]; lia. }
  destruct I as [->|I], I' as [E|I'].
  - congruence.
  - cbn [is_complete] in N. rewrite Nat.eqb_refl in N. cbn [length] in N. specialize (Z _ I'). lia.
  - subst x. cbn [is_complete] in N. rewrite Nat.eqb_refl in N. cbn [length] in N. specialize (Z _ I). lia.
  - apply IH; auto. destruct (is_complete e x); cbn [length] in N; lia.
Qed.
