From Coq Require Import List Bool Arith Lia.
From Verif Require Import StrModel StrSpec.
Import ListNotations.

Lemma run_app : forall h1 h2 s, run s (h1 ++ h2) = (fst (run (fst (run s h1)) h2), snd (run s h1) ++ snd (run (fst (run s h1)) h2)).
Proof.
  induction h1 as [|m h1 IH]; intros h2 s; cbn [app run].
  - cbn [fst snd app]. apply surjective_pairing.
  - destruct (step (snd m) (fst m) s) as [s1 l]. rewrite IH. destruct (run s1 h1) as [s2 t]. cbn [fst snd]. destruct (run s2 h2); reflexivity.
Qed.
Lemma run_snoc : forall h m s, run s (h ++ [m]) = (fst (step (snd m) (fst m) (fst (run s h))), snd (run s h) ++ [(m, snd (step (snd m) (fst m) (fst (run s h))))]).
Proof. intros. rewrite run_app. cbn [run]. destruct (step _ _ _); reflexivity. Qed.
Lemma run_moves : forall h s, map fst (snd (run s h)) = h.
Proof. induction h as [|m h IH]; intros s; [reflexivity|]. cbn [run]. destruct (step _ _ _) as [s1 l]. specialize (IH s1). destruct (run s1 h). cbn [snd map fst] in *. congruence. Qed.
Lemma run_in : forall h s m l, In (m, l) (snd (run s h)) -> In m h.
Proof. intros h s m l I. rewrite <- (run_moves h s). apply in_map with (f := fst) in I. exact I. Qed.
Lemma in_run : forall h s m, In m h -> exists l, In (m, l) (snd (run s h)).
Proof. intros h s m I. rewrite <- (run_moves h s) in I. apply in_map_iff in I as [[m' l] [E I]]. cbn in E. subst. eauto. Qed.
Lemma outs_app : forall a b, outs (a ++ b) = outs a ++ outs b.
Proof. intros. apply flat_map_app. Qed.
Lemma outs_snoc : forall t m l, outs (t ++ [(m, l)]) = outs t ++ l.
Proof. intros. rewrite outs_app. unfold outs at 2. cbn. rewrite app_nil_r. reflexivity. Qed.
Lemma count_app : forall A (f : A -> bool) a b, count f (a ++ b) = count f a + count f b.
Proof. intros. unfold count. rewrite filter_app, app_length. reflexivity. Qed.
Lemma begun_snoc : forall h m, begun (h ++ [m]) = begun h ++ begins m.
Proof. intros. unfold begun. rewrite flat_map_app. cbn. rewrite app_nil_r. reflexivity. Qed.
Lemma completions_snoc : forall e t m l, completions e (t ++ [(m, l)]) = completions e t + count (is_complete e) l.
Proof. intros. unfold completions. rewrite outs_snoc. apply count_app. Qed.

(** ** Every operation is held or has completed *)
Definition opt (x : option nat) : list nat := match x with Some e => [e] | None => [] end.
Definition held_k (k : kind) (s : stream) : option nat :=
  match k with KAccept => c_accept s | KRead => option_map r_ev (c_read s) | KWrite => option_map w_ev (c_write s) | KClose => c_close s end.
Definition held (s : stream) : list nat := opt (held_k KAccept s) ++ opt (held_k KRead s) ++ opt (held_k KWrite s) ++ opt (held_k KClose s).
Definition occ (e : nat) (l : list nat) : nat := count (Nat.eqb e) l.
Definition done (e : nat) (l : list out) : nat := count (is_complete e) l.
Lemma occ_app : forall e a b, occ e (a ++ b) = occ e a + occ e b.
Proof. intros. apply count_app. Qed.
Lemma done_app : forall e a b, done e (a ++ b) = done e a + done e b.
Proof. intros. apply count_app. Qed.
Lemma done_resolve : forall e x c, done e (resolve x c) = occ e (opt x).
Proof. intros e [y|] c; [|reflexivity]. unfold done, occ, count, resolve, opt. cbn [filter is_complete]. destruct (e =? y); reflexivity. Qed.
Lemma done_nil : forall e, done e [] = 0. Proof. reflexivity. Qed.
Lemma occ_nil : forall e, occ e [] = 0. Proof. reflexivity. Qed.
Lemma done_complete : forall e x c l, done e (Complete x c :: l) = occ e [x] + done e l.
Proof. intros. unfold done, occ, count. cbn [filter is_complete]. destruct (e =? x); reflexivity. Qed.
Lemma done_filled : forall e x a n l, done e (Filled x a n :: l) = done e l. Proof. reflexivity. Qed.
Lemma done_length : forall e x n l, done e (Length x n :: l) = done e l. Proof. reflexivity. Qed.
Lemma done_taken : forall e x a n l, done e (Taken x a n :: l) = done e l. Proof. reflexivity. Qed.
Lemma held_occ : forall e s, occ e (held s) = occ e (opt (c_accept s)) + occ e (opt (option_map r_ev (c_read s))) + occ e (opt (option_map w_ev (c_write s))) + occ e (opt (c_close s)).
Proof. intros. unfold held. rewrite !occ_app. cbn [held_k]. lia. Qed.
Ltac tally := cbn [fst snd]; rewrite ?held_occ, ?done_app, ?done_resolve; cbn [c_accept c_read c_write c_close c_stopped c_closed set_accept set_read set_write set_close set_stopped set_closed opt option_map r_ev w_ev app fst snd];
  rewrite ?done_nil, ?done_complete, ?done_filled, ?done_length, ?done_taken, ?done_nil, ?occ_nil.

Lemma resolve_read_tally : forall e c s, done e (snd (resolve_read c s)) + occ e (held (fst (resolve_read c s))) = occ e (held s).
Proof. intros e c s. unfold resolve_read. destruct (c_read s) eqn:R; tally; rewrite ?R; tally; lia. Qed.
Lemma do_read_tally : forall e v s, done e (snd (do_read v s)) + occ e (held (fst (do_read v s))) = occ e (held s).
Proof.
  intros e v s. unfold do_read. destruct (c_read s) as [r|] eqn:R; [|reflexivity]. destruct (n_read v) as [[] k]; try apply resolve_read_tally.
  destruct (Nat.min k (r_left r) =? 0); [reflexivity|]. cbn [r_all r_left]. destruct (r_all r && _); [|unfold resolve_read; cbn [c_read set_read]]; tally; rewrite ?R; tally; lia.
Qed.
Lemma do_write_tally : forall e v s, done e (snd (do_write v s)) + occ e (held (fst (do_write v s))) = occ e (held s).
Proof.
  intros e v s. unfold do_write. destruct (c_write s) as [w|] eqn:R; [|reflexivity]. destruct (n_write v) as [[] k]; try (tally; rewrite ?R; tally; lia).
  destruct (Nat.min k (w_left w) =? 0); [reflexivity|]. destruct (_ =? _); tally; rewrite ?R; tally; lia.
Qed.
Lemma do_read_other : forall v s, let s' := fst (do_read v s) in c_accept s' = c_accept s /\ c_write s' = c_write s /\ c_close s' = c_close s /\ c_stopped s' = c_stopped s /\ c_closed s' = c_closed s.
Proof.
  intros v s. unfold do_read, resolve_read. destruct (c_read s) as [r|]; [|cbn; auto]. destruct (n_read v) as [[] k]; try (cbn; auto). destruct (_ =? 0); [cbn; auto|]. cbn [r_all r_left]. destruct (r_all r && _); cbn; auto.
Qed.
Lemma do_write_other : forall v s, let s' := fst (do_write v s) in c_accept s' = c_accept s /\ c_read s' = c_read s /\ c_close s' = c_close s /\ c_stopped s' = c_stopped s /\ c_closed s' = c_closed s.
Proof.
  intros v s. unfold do_write. destruct (c_write s) as [r|]; [|cbn; auto]. destruct (n_write v) as [[] k]; try (cbn; auto). destruct (_ =? 0); [cbn; auto|]. destruct (_ =? _); cbn; auto.
Qed.
Lemma step_tally : forall e v o s, done e (snd (step v o s)) + occ e (held (fst (step v o s))) = occ e (held s) + occ e (begins (o, v)).
Proof.
  intros e v o s. destruct o as [x|all x n|x n|x|x| |]; unfold begins; cbn [started1 fst step].
  - destruct (c_stopped s); [tally; lia|]. destruct (c_accept s) eqn:A; tally; rewrite ?A; tally; lia.
  - destruct (c_stopped s); [tally; lia|]. destruct (c_read s) eqn:A; [tally; lia|]. pose proof (do_read_tally e v (set_read (Some {| r_all := all; r_ev := x; r_at := 0; r_left := n; r_len := 0 |}) s)) as D.
    destruct (do_read _ _) as [s1 l]. cbn [fst snd] in *. rewrite done_length, D. tally. rewrite A. tally. lia.
  - destruct (c_stopped s); [tally; lia|]. destruct (c_write s) eqn:A; [tally; lia|]. destruct (c_closed s); [tally; lia|]. rewrite do_write_tally. tally. rewrite A. tally. lia.
  - destruct (c_stopped s); [tally; lia|]. destruct (c_close s) eqn:A; [tally; lia|]. unfold handle_close. cbn [c_close set_closed set_close]. destruct (to_ec (n_close v)); tally; rewrite ?A; tally; lia.
  - rewrite occ_nil. destruct (c_stopped s); [tally; lia|]. destruct x; cbn [event_callback]; try (rewrite ?do_read_tally, ?do_write_tally; lia); try (tally; lia).
    pose proof (do_write_tally e v s) as W. destruct (do_write v s) as [s1 l1]. pose proof (do_read_tally e v (set_accept None s1)) as R. destruct (do_read v _) as [s3 l3]. cbn [fst snd] in *.
    assert (A : occ e (held s1) = occ e (held (set_accept None s1)) + occ e (opt (c_accept s1))) by (tally; lia).
    destruct (handle_close v s3); cbn [fst snd]; rewrite ?done_app, ?done_resolve, ?done_nil; try lia;
    assert (C : occ e (held s3) = occ e (held (set_close None s3)) + occ e (opt (c_close s3))) by (tally; lia); lia.
  - rewrite occ_nil. unfold stop. destruct (c_stopped s); [tally; lia|]. tally; lia.
  - rewrite occ_nil. unfold stop. destruct (c_stopped s); [tally; lia|]. tally; lia.
Qed.
Lemma reach_tally : forall h e, completions e (snd (run init h)) + occ e (held (fst (run init h))) = occ e (begun h).
Proof.
  induction h as [|m h IH] using rev_ind; intros e; [reflexivity|]. rewrite run_snoc. cbn [fst snd]. rewrite completions_snoc, begun_snoc, occ_app, <- (IH e).
  pose proof (step_tally e (snd m) (fst m) (fst (run init h))) as T. unfold done in T. destruct m as [o v]. cbn [fst snd] in *. lia.
Qed.
Lemma occ_nodup : forall e l, NoDup l -> occ e l <= 1.
Proof.
  intros e l N. unfold occ, count. induction N as [|x l X N IH]; [cbn; lia|]. cbn [filter]. destruct (e =? x) eqn:E; [|exact IH]. apply Nat.eqb_eq in E. subst.
  replace (filter (Nat.eqb x) l) with (@nil nat); [cbn; lia|]. clear N IH. induction l as [|y l IH]; [reflexivity|]. cbn [filter]. destruct (x =? y) eqn:E; [apply Nat.eqb_eq in E; subst; destruct X; left; reflexivity|]. apply IH. intros I. apply X. right. exact I.
Qed.
Lemma occ_in : forall e l, In e l -> 1 <= occ e l.
Proof. intros e l I. unfold occ, count. induction l as [|x l IH]; [destruct I|]. cbn [filter]. destruct I as [->|I]; [rewrite Nat.eqb_refl; cbn; lia|]. specialize (IH I). destruct (e =? x); cbn [length]; lia. Qed.
Lemma occ_0 : forall e l, occ e l = 0 -> ~ In e l.
Proof. intros e l O I. apply occ_in in I. lia. Qed.
Lemma in_occ : forall e l, 1 <= occ e l -> In e l.
Proof. intros e l. unfold occ, count. induction l as [|x l IH]; cbn [filter length]; intros H; [lia|]. destruct (e =? x) eqn:E; [apply Nat.eqb_eq in E; subst; left; reflexivity|right; auto]. Qed.
Lemma started_begins : forall m k e, started1 (fst m) = Some (k, e) -> begins m = [e].
Proof. intros m k e S. unfold begins. rewrite S. reflexivity. Qed.
Lemma started_begun : forall h m k e, In m h -> started1 (fst m) = Some (k, e) -> In e (begun h).
Proof. intros h m k e I S. unfold begun. apply in_flat_map. exists m. split; [exact I|]. rewrite (started_begins _ _ _ S). left. reflexivity. Qed.
Lemma unique : forall h m m' k k' e, lawful h -> In m h -> In m' h -> started1 (fst m) = Some (k, e) -> started1 (fst m') = Some (k', e) -> m = m'.
Proof.
  unfold lawful. induction h as [|a h IH]; intros m m' k k' e N I I' S S'; [destruct I|]. unfold begun in N. cbn [flat_map] in N. fold (begun h) in N.
  assert (N2 : NoDup (begun h)). { apply NoDup_remove_1 with (a := 0) || idtac. clear -N. induction (begins a) as [|x l IHl]; [exact N|]. inversion N; subst. auto. }
  destruct I as [->|I], I' as [->|I']; auto.
  - rewrite (started_begins _ _ _ S) in N. inversion N; subst. destruct H1. eapply started_begun; eauto.
  - rewrite (started_begins _ _ _ S') in N. inversion N; subst. destruct H1. eapply started_begun; eauto.
  - eapply IH; eauto.
Qed.
Lemma lawful_snoc : forall h m, lawful (h ++ [m]) -> lawful h /\ (forall e, In e (begins m) -> ~ In e (begun h)).
Proof.
  unfold lawful. intros h m. rewrite begun_snoc. generalize (begun h). intros l. induction l as [|x l IH]; intros N; [split; [constructor|auto]|].
  cbn [app] in N. inversion N; subst. destruct (IH H2) as [A B]. split; [constructor; auto; intros I; apply H1; apply in_app_iff; auto|]. intros e I [->|J]; [apply H1; apply in_app_iff; auto|exact (B e I J)].
Qed.

(** ** Which kind of operation is held *)
Lemma step_kinds : forall v o s k e, held_k k (fst (step v o s)) = Some e -> held_k k s = Some e \/ started1 o = Some (k, e).
Proof.
  intros v o s k e. destruct o as [x|all x n|x n|x|x| |]; cbn [step started1].
  - destruct (c_stopped s); [auto|]. destruct (c_accept s) eqn:A; [auto|]. destruct k; cbn; auto. intros H; injection H as ->; auto.
  - destruct (c_stopped s); [auto|]. destruct (c_read s) eqn:A; [auto|]. set (s0 := set_read _ s). pose proof (do_read_other v s0) as (O1 & O2 & O3 & _). destruct (do_read v s0) as [s1 l] eqn:D. cbn [fst] in *.
    destruct k; cbn [held_k]; try (rewrite ?O1, ?O2, ?O3; auto).
    intros H. right. unfold do_read, resolve_read in D. cbn [s0 c_read set_read] in D. revert H. destruct (n_read v) as [[] j]; try (injection D as <- <-; discriminate). cbn [r_left] in D. destruct (_ =? 0); [injection D as <- <-; cbn; intros H; injection H as ->; reflexivity|].
    cbn [r_all r_ev r_left] in D. destruct (all && _); cbn [c_read set_read] in D; injection D as <- <-; [cbn; intros H; injection H as ->; reflexivity|discriminate].
  - destruct (c_stopped s); [auto|]. destruct (c_write s) eqn:A; [auto|]. destruct (c_closed s); [auto|]. set (s0 := set_write _ s). pose proof (do_write_other v s0) as (O1 & O2 & O3 & _). destruct (do_write v s0) as [s1 l] eqn:D. cbn [fst] in *.
    destruct k; cbn [held_k]; try (rewrite ?O1, ?O2, ?O3; auto).
    intros H. right. unfold do_write in D. cbn [s0 c_write set_write] in D. revert H. destruct (n_write v) as [[] j]; try (injection D as <- <-; discriminate). cbn [w_left] in D. destruct (_ =? 0); [injection D as <- <-; cbn; intros H; injection H as ->; reflexivity|].
    destruct (_ =? _); injection D as <- <-; [discriminate|cbn; intros H; injection H as ->; reflexivity].
  - destruct (c_stopped s); [auto|]. destruct (c_close s) eqn:A; [auto|]. unfold handle_close. cbn [c_close set_closed set_close]. destruct (to_ec (n_close v)), k; cbn; auto; try discriminate. intros H; injection H as ->; auto.
  - destruct (c_stopped s); [auto|]. intros H. left. revert H. destruct x; cbn [event_callback].
    + destruct k; cbn; auto. discriminate.
    + pose proof (do_read_other v s) as (O1 & O2 & O3 & _). destruct k; cbn [held_k]; rewrite ?O1, ?O2, ?O3; auto. unfold do_read, resolve_read. destruct (c_read s) as [r|] eqn:R; [|cbn; rewrite ?R; auto]. destruct (n_read v) as [[] j]; try discriminate.
      destruct (_ =? 0); [cbn; rewrite ?R; auto|]. cbn [r_all r_left]. destruct (r_all r && _); cbn; auto; discriminate.
    + pose proof (do_write_other v s) as (O1 & O2 & O3 & _). destruct k; cbn [held_k]; rewrite ?O1, ?O2, ?O3; auto. unfold do_write. destruct (c_write s) as [r|] eqn:R; [|cbn; rewrite ?R; auto]. destruct (n_write v) as [[] j]; try discriminate.
      destruct (_ =? 0); [cbn; rewrite ?R; auto|]. destruct (_ =? _); cbn; auto; discriminate.
    + pose proof (do_read_other v s) as (O1 & O2 & O3 & _). destruct k; cbn [held_k]; rewrite ?O1, ?O2, ?O3; auto. unfold do_read, resolve_read. destruct (c_read s) as [r|] eqn:R; [|cbn; rewrite ?R; auto]. destruct (n_read v) as [[] j]; try discriminate.
      destruct (_ =? 0); [cbn; rewrite ?R; auto|]. cbn [r_all r_left]. destruct (r_all r && _); cbn; auto; discriminate.
    + destruct k; cbn; auto. discriminate.
    + pose proof (do_write_other v s) as (O1 & O2 & O3 & _). destruct (do_write v s) as [s1 l1] eqn:W. cbn [fst] in *. pose proof (do_read_other v (set_accept None s1)) as (P1 & P2 & P3 & _). destruct (do_read v (set_accept None s1)) as [s3 l3] eqn:D. cbn [fst] in *.
      assert (Q : forall k, match k with KClose => False | _ => True end -> held_k k (fst match handle_close v s3 with Ok => (s3, []) | c => (set_close None s3, resolve (c_close s3) c) end) = held_k k s3) by (intros k0; destruct k0, (handle_close v s3); cbn; tauto).
      assert (Q' : held_k KClose (fst match handle_close v s3 with Ok => (s3, []) | c => (set_close None s3, resolve (c_close s3) c) end) = Some e -> c_close s3 = Some e) by (destruct (handle_close v s3); cbn; auto; discriminate).
      destruct (match handle_close v s3 with Ok => (s3, []) | c => (set_close None s3, resolve (c_close s3) c) end) as [s4 l4]. cbn [fst] in *.
      destruct k; [rewrite Q by exact I|rewrite Q by exact I|rewrite Q by exact I|intros H; apply Q' in H; cbn [held_k]; cbn in *; congruence]; cbn [held_k].
      * rewrite P1. discriminate.
      * intros H. cbn [c_read set_accept] in *. rewrite <- O2. unfold do_read, resolve_read in D. cbn [c_read set_accept] in D. destruct (c_read s1) as [r|] eqn:R; [|injection D as <- <-; cbn in H; rewrite R in H; exact H].
        destruct (n_read v) as [[] j]; try (injection D as <- <-; discriminate H). destruct (_ =? 0); [injection D as <- <-; cbn in H; rewrite R in H; exact H|]. cbn [r_all r_left r_ev] in D. destruct (r_all r && _); injection D as <- <-; [exact H|discriminate H].
      * intros H. rewrite P2 in H. cbn [c_write set_accept] in H. unfold do_write in W. destruct (c_write s) as [r|] eqn:R; [|injection W as <- <-; rewrite R in H; exact H].
        destruct (n_write v) as [[] j]; try (injection W as <- <-; discriminate H). destruct (_ =? 0); [injection W as <- <-; rewrite R in H; exact H|]. destruct (_ =? _); injection W as <- <-; [discriminate H|exact H].
  - unfold stop. destruct (c_stopped s); [auto|]. destruct k; cbn; discriminate.
  - unfold stop. destruct (c_stopped s); [auto|]. destruct k; cbn; discriminate.
Qed.
Lemma reach_kinds : forall h k e, held_k k (fst (run init h)) = Some e -> exists m, In m h /\ started1 (fst m) = Some (k, e).
Proof.
  induction h as [|m h IH] using rev_ind; intros k e H; [destruct k; discriminate|]. rewrite run_snoc in H. cbn [fst] in H. apply step_kinds in H as [H|H].
  - destruct (IH _ _ H) as [m' [I S]]. exists m'. split; [apply in_app_iff; auto|exact S].
  - exists m. split; [apply in_app_iff; right; left; reflexivity|exact H].
Qed.
Lemma held_in : forall e s, In e (held s) -> exists k, held_k k s = Some e.
Proof.
  intros e s I. unfold held in I. rewrite !in_app_iff in I. destruct I as [I|[I|[I|I]]]; [exists KAccept|exists KRead|exists KWrite|exists KClose]; (destruct (held_k _ s); [destruct I as [->|[]]; reflexivity|destruct I]).
Qed.
Lemma outstanding_held : forall h k e, lawful h -> outstanding k e (snd (run init h)) -> held_k k (fst (run init h)) = Some e.
Proof.
  intros h k e L [[m [l [I S]]] Z]. apply run_in in I. pose proof (reach_tally h e) as T. rewrite Z in T. pose proof (occ_in _ _ (started_begun _ _ _ _ I S)) as O.
  assert (X : In e (held (fst (run init h)))) by (apply in_occ; lia). apply held_in in X as [k' X]. destruct (reach_kinds h k' e X) as [m' [I' S']].
  pose proof (unique h m m' k k' e L I I' S S'). subst m'. congruence.
Qed.
Definition stopped_empty (s : stream) : Prop := c_stopped s = true -> held s = [].
Lemma stop_held : forall s, stopped_empty s -> held (fst (stop s)) = [].
Proof. intros s E. unfold stop. destruct (c_stopped s) eqn:S; [apply E; exact S|reflexivity]. Qed.
Lemma step_stopped : forall v o s, stopped_empty s -> stopped_empty (fst (step v o s)).
Proof.
  intros v o s E H. destruct (c_stopped s) eqn:S.
  - destruct o; cbn [step] in *; rewrite ?S in *; auto; unfold stop in *; rewrite S in *; auto.
  - destruct o as [x|all x n|x n|x|x| |]; cbn [step] in *; rewrite ?S in *.
    + destruct (c_accept s); cbn in H; congruence.
    + destruct (c_read s); [cbn in H; congruence|]. revert H. set (s0 := set_read _ s). pose proof (do_read_other v s0) as (_ & _ & _ & O & _). destruct (do_read v s0). cbn in *. congruence.
    + destruct (c_write s); [cbn in H; congruence|]. destruct (c_closed s); [cbn in H; congruence|]. pose proof (do_write_other v (set_write (Some {| w_ev := x; w_at := 0; w_left := n |}) s)) as (_ & _ & _ & O & _). cbn in *. congruence.
    + destruct (c_close s); [cbn in H; congruence|]. destruct (handle_close v _); cbn in H; congruence.
    + destruct x; cbn [event_callback] in *; try (cbn in H; congruence).
      * pose proof (do_read_other v s) as (_ & _ & _ & O & _). congruence.
      * pose proof (do_write_other v s) as (_ & _ & _ & O & _). congruence.
      * pose proof (do_read_other v s) as (_ & _ & _ & O & _). congruence.
      * pose proof (do_write_other v s) as (_ & _ & _ & O & _). destruct (do_write v s) as [s1 l1]. cbn [fst] in *. pose proof (do_read_other v (set_accept None s1)) as (_ & _ & _ & P & _). destruct (do_read v _) as [s3 l3]. cbn [fst] in *. destruct (handle_close v s3); cbn in *; congruence.
    + apply stop_held. exact E.
    + apply stop_held. exact E.
Qed.
Lemma reach_stopped : forall h, stopped_empty (fst (run init h)).
Proof. induction h as [|m h IH] using rev_ind; [intros H; discriminate|]. rewrite run_snoc. apply step_stopped. exact IH. Qed.
Lemma stop_sets : forall s, c_stopped (fst (stop s)) = true.
Proof. intros s. unfold stop. destruct (c_stopped s) eqn:S; [exact S|reflexivity]. Qed.
Lemma step_stays : forall v o s, c_stopped s = true -> c_stopped (fst (step v o s)) = true.
Proof. intros v o s S. destruct o; cbn [step]; rewrite ?S; auto; apply stop_sets. Qed.
Lemma reach_is_stopped : forall h, existsb is_stop h = true -> c_stopped (fst (run init h)) = true.
Proof.
  induction h as [|m h IH] using rev_ind; [discriminate|]. rewrite existsb_app. cbn [existsb]. rewrite run_snoc. cbn [fst]. intros H. apply orb_prop in H as [H|H]; [apply step_stays; auto|].
  unfold is_stop in H. rewrite orb_false_r in H. destruct m as [o v]. cbn [fst snd] in *. destruct o; try discriminate; apply stop_sets.
Qed.
