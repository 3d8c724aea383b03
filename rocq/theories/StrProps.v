(** Properties of the operations of a stream: C49, C81. *)
From Coq Require Import List Bool Arith Lia.
From Verif Require Import StrModel StrSpec StrProofs StrData.
Import ListNotations.

(** ** C49 *)
(** No operation completes more than once, and only operations which were begun complete. *)
Theorem C49_at_most_once : forall h e, lawful h -> completions e (snd (run init h)) <= 1.
Proof. intros h e L. pose proof (reach_tally h e) as T. pose proof (occ_nodup e _ L). lia. Qed.
Print Assumptions C49_at_most_once.
Theorem C49_only_begun : forall h e c, In (Complete e c) (outs (snd (run init h))) -> In e (begun h).
Proof.
  intros h e c I. pose proof (reach_tally h e) as T. apply in_occ. rewrite <- T. assert (1 <= completions e (snd (run init h))); [|lia].
  unfold completions, count. induction (outs (snd (run init h))) as [|x l IH]; [destruct I|]. cbn [filter]. destruct I as [->|I]; [cbn; rewrite Nat.eqb_refl; cbn; lia|]. specialize (IH I). destruct (is_complete e x); cbn [length]; lia.
Qed.
Print Assumptions C49_only_begun.
Lemma busy : forall h k e, lawful h -> outstanding k e (snd (run init h)) -> c_stopped (fst (run init h)) = false /\ held_k k (fst (run init h)) = Some e.
Proof.
  intros h k e L O. pose proof (outstanding_held h k e L O) as H. split; [|exact H]. destruct (c_stopped (fst (run init h))) eqn:S; [|reflexivity]. pose proof (reach_stopped h S) as E. apply held_k_in in H. rewrite E in H. destruct H.
Qed.
(** While one operation of a kind is outstanding a further one is rejected, and changes nothing. *)
Theorem C49_rejected : forall h k e v o e', lawful h -> outstanding k e (snd (run init h)) -> started1 o = Some (k, e') ->
  step v o (fst (run init h)) = (fst (run init h), [Complete e' InProgress]).
Proof.
  intros h k e v o e' L O S. destruct (busy h k e L O) as [ST H]. destruct o; inversion S; subst; cbn [step held_k] in *; rewrite ST.
  - rewrite H. reflexivity.
  - destruct (c_read _); [reflexivity|discriminate].
  - destruct (c_write _); [reflexivity|discriminate].
  - rewrite H. reflexivity.
Qed.
Print Assumptions C49_rejected.
(** So at most one is outstanding. *)
Theorem C49_one_of_a_kind : forall h k e e', lawful h -> outstanding k e (snd (run init h)) -> outstanding k e' (snd (run init h)) -> e = e'.
Proof. intros h k e e' L O O'. destruct (busy h k e L O) as [_ H]. destruct (busy h k e' L O') as [_ H']. congruence. Qed.
Print Assumptions C49_one_of_a_kind.
(** Stopping the stream, and losing the connection, completes the outstanding operations with ABORTED; nothing is outstanding afterwards and nothing ever will be. *)
Theorem C49_stop : forall h k e v o, lawful h -> outstanding k e (snd (run init h)) -> o = Stop \/ o = Disconnect -> In (Complete e Aborted) (snd (step v o (fst (run init h)))).
Proof.
  intros h k e v o L O [-> | ->]; destruct (busy h k e L O) as [S H]; cbn [step]; unfold stop; rewrite S; cbn [snd]; rewrite !in_app_iff; destruct k; cbn [held_k] in H; rewrite H; cbn; auto 10.
Qed.
Print Assumptions C49_stop.
Theorem C49_stopped : forall h e, lawful h -> existsb is_stop h = true -> In e (begun h) -> completions e (snd (run init h)) = 1.
Proof.
  intros h e L S I. pose proof (reach_tally h e) as T. rewrite (reach_stopped h (reach_is_stopped h S)) in T. pose proof (occ_nodup e _ L). apply occ_in in I. rewrite occ_nil in T. lia.
Qed.
Print Assumptions C49_stopped.
Theorem C49_after_stop : forall h v o k e, existsb is_stop h = true -> started1 o = Some (k, e) -> snd (step v o (fst (run init h))) = [Complete e StoppedEc].
Proof. intros h v o k e S B. apply reach_is_stopped in S. destruct o; inversion B; subst; cbn [step]; rewrite S; reflexivity. Qed.
Print Assumptions C49_after_stop.
(** A read fills its buffer from the beginning without gaps, and says how much; OK means some bytes, and for read all the whole buffer. *)
Theorem C49_read : forall h all e n v c, lawful h -> In (Read all e n, v) h -> In (Complete e c) (outs (snd (run init h))) ->
  exists k, cover 0 (filled e (snd (run init h))) k /\ k <= n /\ last (lengths e (snd (run init h))) 0 = k /\ (c = Ok -> 0 < k /\ (all = true -> k = n)).
Proof.
  intros h all e n v c L I C. destruct (reach_read h all e n v L I) as [(r & R & E & _)|(_ & c' & C' & D)].
  - destruct (unheld h e c L C). apply (held_k_in KRead). cbn [held_k]. rewrite R. cbn. congruence.
  - replace c with c'; [exact D|]. eapply complete_once; [exact (C49_at_most_once h e L)|exact C'|exact C].
Qed.
Print Assumptions C49_read.
(** Also before it completes it stays inside the buffer. *)
Theorem C49_read_inside : forall h all e n v, lawful h -> In (Read all e n, v) h -> exists k, cover 0 (filled e (snd (run init h))) k /\ k <= n.
Proof. intros h all e n v L I. destruct (reach_read h all e n v L I) as [(r & _ & _ & _ & N & _ & C & _)|(_ & c & _ & k & C & K & _)]; [exists (r_at r); split; [exact C|lia]|exists k; auto]. Qed.
Print Assumptions C49_read_inside.
(** A write hands over its buffer from the beginning without gaps, and OK means all of it. *)
Theorem C49_write : forall h e n v c, lawful h -> In (Write e n, v) h -> In (Complete e c) (outs (snd (run init h))) ->
  exists k, cover 0 (taken e (snd (run init h))) k /\ k <= n /\ (c = Ok -> k = n).
Proof.
  intros h e n v c L I C. destruct (reach_write h e n v L I) as [(r & R & E & _)|(_ & c' & C' & k & K1 & K2 & K3)].
  - destruct (unheld h e c L C). apply (held_k_in KWrite). cbn [held_k]. rewrite R. cbn. congruence.
  - replace c with c'; [exists k; split; [exact K1|]; split; [exact K2|]; apply K3|]. eapply complete_once; [exact (C49_at_most_once h e L)|exact C'|exact C].
Qed.
Print Assumptions C49_write.
(** After a close no write is accepted. *)
Lemma step_closed : forall v o s, c_closed s = true -> c_closed (fst (step v o s)) = true.
Proof.
  intros v o s C. destruct o as [x|all x n|x n|x|x| |]; cbn [step]; try (destruct (c_stopped s) eqn:S; [exact C|]).
  - destruct (c_accept s); exact C.
  - destruct (c_read s); [exact C|]. set (s0 := set_read _ s). pose proof (do_read_other v s0) as (_ & _ & _ & _ & O). destruct (do_read v s0). cbn in *. congruence.
  - destruct (c_write s); [exact C|]. rewrite C. exact C.
  - destruct (c_close s); [exact C|]. destruct (handle_close v _); reflexivity.
  - destruct x; cbn [event_callback]; try exact C.
    + pose proof (do_read_other v s) as (_ & _ & _ & _ & O). congruence.
    + pose proof (do_write_other v s) as (_ & _ & _ & _ & O). congruence.
    + pose proof (do_read_other v s) as (_ & _ & _ & _ & O). congruence.
    + pose proof (do_write_other v s) as (_ & _ & _ & _ & O). destruct (do_write v s) as [s1 l1]. cbn [fst] in *. pose proof (do_read_other v (set_accept None s1)) as (_ & _ & _ & _ & P). destruct (do_read v _) as [s3 l3]. cbn [fst] in *. destruct (handle_close v s3); cbn in *; congruence.
  - unfold stop. destruct (c_stopped s); exact C.
  - unfold stop. destruct (c_stopped s); exact C.
Qed.
Definition closes (h : list move) (s : stream) : Prop := (exists e v, In (Close e, v) h) -> c_closed s = true \/ c_stopped s = true.
Lemma reach_closed : forall h, closes h (fst (run init h)).
Proof.
  induction h as [|m h IH] using rev_ind; intros (e & v & I); [destruct I|]. rewrite run_snoc. cbn [fst]. apply in_app_iff in I as [I|[->|[]]].
  - destruct IH as [C|C]; [eauto|left; apply step_closed; exact C|right; apply step_stays; exact C].
  - cbn [fst snd step]. set (s := fst (run init h)). destruct (c_stopped s) eqn:S; [right; exact S|]. destruct (c_close s) eqn:C; [|left; destruct (handle_close v _); reflexivity].
    cbn [fst]. destruct (reach_kinds h KClose n C) as [[o w] [J B]]. destruct o; inversion B; subst. apply IH. eauto.
Qed.
Theorem C49_closed : forall h e v v' e' n, In (Close e, v) h -> exists c, c <> Ok /\ snd (step v' (Write e' n) (fst (run init h))) = [Complete e' c].
Proof.
  intros h e v v' e' n I. pose proof (reach_closed h ltac:(eauto)) as C. cbn [step]. destruct (c_stopped _) eqn:S; [exists StoppedEc; split; [discriminate|reflexivity]|]. destruct (c_write _) eqn:W; [exists InProgress; split; [discriminate|reflexivity]|].
  destruct C as [C|C]; [|congruence]. rewrite C. exists ClosedEc. split; [discriminate|reflexivity].
Qed.
Print Assumptions C49_closed.
Definition gives (r w : nat) : env := {| n_read := (SOk, r); n_write := (SOk, w); n_close := SOk |}.
Definition session : list move :=
  [(Accept 1, gives 0 0); (Event Opened, gives 0 0); (Read true 2 10, gives 4 0); (Write 3 5, gives 0 2); (Read false 4 7, gives 0 0); (Event DataReady, gives 9 0); (Event DataWrite, gives 0 3); (Read true 5 8, gives 3 0); (Close 6, gives 0 0)].
Example C49_ex : lawful session /\ map snd (snd (run init session)) =
  [[]; [Complete 1 Ok]; [Length 2 0; Filled 2 0 4; Length 2 4]; [Taken 3 0 2]; [Complete 4 InProgress]; [Filled 2 4 6; Length 2 10; Complete 2 Ok]; [Taken 3 2 3; Complete 3 Ok]; [Length 5 0; Filled 5 0 3; Length 5 3]; []] /\
  outstanding KRead 5 (snd (run init session)) /\ outstanding KClose 6 (snd (run init session)) /\ snd (step (gives 0 0) Stop (fst (run init session))) = [Complete 5 Aborted; Complete 6 Aborted].
Proof.
  split; [unfold lawful; vm_compute; repeat (constructor; [cbn; intuition discriminate|]); constructor|]. split; [vm_compute; reflexivity|]. split; [|split; [|vm_compute; reflexivity]].
  - split; [|vm_compute; reflexivity]. eexists (Read true 5 8, _), _. split; [vm_compute; do 7 right; left; reflexivity|reflexivity].
  - split; [|vm_compute; reflexivity]. eexists (Close 6, _), _. split; [vm_compute; do 8 right; left; reflexivity|reflexivity].
Qed.

(** ** C81 *)
(** A read which is waiting completes with OK when the protocol has what it waits for. *)
Lemma cover_fun : forall l a n m, cover a l n -> cover a l m -> n = m.
Proof. induction l as [|[b k] l IH]; intros a n m C D; cbn in *; [congruence|]. destruct C as (_ & _ & C). destruct D as (_ & _ & D). eauto. Qed.
Theorem C81_read : forall h all e n k v0 v j, lawful h -> In (Read all e n, v0) h -> outstanding KRead e (snd (run init h)) -> cover 0 (filled e (snd (run init h))) k -> k < n ->
  n_read v = (SOk, j) -> 0 < j -> (all = true -> n - k <= j) -> In (Complete e Ok) (snd (step v (Event DataReady) (fst (run init h)))).
Proof.
  intros h all e n k v0 v j L I O C K N J A. destruct (busy h KRead e L O) as [S H]. destruct (reach_read h all e n v0 L I) as [(r & R & E & AL & NN & _ & C' & _)|(NR & _)]; [|cbn [held_k] in H; congruence].
  pose proof (cover_fun _ _ _ _ C C') as KE. cbn [step event_callback]. rewrite S. unfold do_read. rewrite R, N. destruct (Nat.min j (r_left r) =? 0) eqn:Z; [apply Nat.eqb_eq in Z; lia|]. apply Nat.eqb_neq in Z. cbn [r_all r_left].
  destruct (r_all r && _) eqn:B; [|unfold resolve_read; cbn [c_read set_read snd r_ev]; apply in_app_iff; right; left; congruence].
  apply andb_prop in B as [B1 B2]. apply negb_true_iff, Nat.eqb_neq in B2. assert (all = true) by congruence. specialize (A H0). lia.
Qed.
Print Assumptions C81_read.
(** A write which is waiting completes with OK when the protocol takes the rest of it. *)
Theorem C81_write_partial : forall h e n k v0 v j, lawful h -> In (Write e n, v0) h -> outstanding KWrite e (snd (run init h)) -> cover 0 (taken e (snd (run init h))) k -> k < n ->
  n_write v = (SOk, j) -> n - k <= j -> In (Complete e Ok) (snd (step v (Event DataWrite) (fst (run init h)))).
Proof.
  intros h e n k v0 v j L I O C K N J. destruct (busy h KWrite e L O) as [S H]. destruct (reach_write h e n v0 L I) as [(r & R & E & NN & C')|(NR & _)]; [|cbn [held_k] in H; congruence].
  pose proof (cover_fun _ _ _ _ C C') as KE. cbn [step event_callback]. rewrite S. unfold do_write. rewrite R, N. destruct (Nat.min j (w_left r) =? 0) eqn:Z; [apply Nat.eqb_eq in Z; lia|].
  destruct (_ =? w_left r) eqn:B; [cbn [snd]; right; left; congruence|]. apply Nat.eqb_neq in B. lia.
Qed.
Print Assumptions C81_write_partial.
(** When the stream is at its end the read completes with EOF. *)
Theorem C81_eof : forall h e v j x, lawful h -> outstanding KRead e (snd (run init h)) -> n_read v = (SEof, j) -> x = DataReady \/ x = ReadClosed -> In (Complete e Eof) (snd (step v (Event x) (fst (run init h)))).
Proof.
  intros h e v j x L O N X. destruct (busy h KRead e L O) as [S H]. cbn [held_k] in H. cbn [step]. rewrite S. assert (E : event_callback v x (fst (run init h)) = do_read v (fst (run init h))) by (destruct X; subst; reflexivity).
  rewrite E. unfold do_read, resolve_read. rewrite N. destruct (c_read _) as [r|]; [|discriminate]. cbn in *. left. congruence.
Qed.
Print Assumptions C81_eof.
(** A close completes when everything is acknowledged, an accept when the stream is open. *)
Theorem C81_close : forall h e v, lawful h -> outstanding KClose e (snd (run init h)) -> In (Complete e Ok) (snd (step v (Event WriteClosed) (fst (run init h)))).
Proof. intros h e v L O. destruct (busy h KClose e L O) as [S H]. cbn [step event_callback held_k] in *. rewrite S. cbn [snd]. rewrite H. left. reflexivity. Qed.
Print Assumptions C81_close.
Theorem C81_accept : forall h e v, lawful h -> outstanding KAccept e (snd (run init h)) -> In (Complete e Ok) (snd (step v (Event Opened) (fst (run init h)))).
Proof. intros h e v L O. destruct (busy h KAccept e L O) as [S H]. cbn [step event_callback held_k] in *. rewrite S. cbn [snd]. rewrite H. left. reflexivity. Qed.
Print Assumptions C81_accept.
Example C81_ex : let h := firstn 5 session in lawful h /\ outstanding KRead 2 (snd (run init h)) /\ cover 0 (filled 2 (snd (run init h))) 4 /\ outstanding KWrite 3 (snd (run init h)) /\ cover 0 (taken 3 (snd (run init h))) 2.
Proof.
  split; [unfold lawful; vm_compute; repeat (constructor; [cbn; intuition discriminate|]); constructor|]. split; [split; [eexists (Read true 2 10, _), _; split; [vm_compute; do 2 right; left; reflexivity|reflexivity]|vm_compute; reflexivity]|].
  split; [vm_compute; repeat split; lia|]. split; [split; [eexists (Write 3 5, _), _; split; [vm_compute; do 3 right; left; reflexivity|reflexivity]|vm_compute; reflexivity]|]. vm_compute. repeat split; lia.
Qed.
(** A write of no bytes, which is done at once, does not complete: not however much the protocol takes, until the stream ends. *)
Definition goes_on (m : move) : Prop := is_stop m = false /\ fst (n_write (snd m)) = SOk.
Lemma stuck_step : forall v o s, c_write s = Some {| w_ev := 1; w_at := 0; w_left := 0 |} -> goes_on (o, v) -> c_write (fst (step v o s)) = c_write s.
Proof.
  intros v o s W [N G]. cbn [fst snd] in *. assert (D : forall s, c_write s = Some {| w_ev := 1; w_at := 0; w_left := 0 |} -> do_write v s = (s, [])).
  { intros s0 E. unfold do_write. rewrite E. destruct (n_write v) as [st k]. cbn in G. subst st. cbn [w_left]. rewrite Nat.min_0_r. reflexivity. }
  destruct o as [x|all x n|x n|x|x| |]; try discriminate N; cbn [step]; (destruct (c_stopped s); [reflexivity|]).
  - destruct (c_accept s); reflexivity.
  - destruct (c_read s); [reflexivity|]. set (s0 := set_read _ s). pose proof (do_read_other v s0) as (_ & O & _). destruct (do_read v s0). cbn in *. congruence.
  - rewrite W. cbn. exact W.
  - destruct (c_close s); [reflexivity|]. destruct (handle_close v _); reflexivity.
  - destruct x; cbn [event_callback]; try reflexivity; try (pose proof (do_read_other v s) as (_ & O & _); exact O).
    + rewrite D by exact W. reflexivity.
    + rewrite D by exact W. pose proof (do_read_other v (set_accept None s)) as (_ & O & _). destruct (do_read v _) as [s3 l3]. cbn [fst] in *. destruct (handle_close v s3); cbn in *; congruence.
Qed.
Theorem C81_empty_write_refuted : forall h, Forall goes_on h -> let t := snd (run init ((Write 1 0, gives 0 100) :: h)) in lawful ((Write 1 0, gives 0 100) :: h) -> completions 1 t = 0.
Proof.
  intros h F t L. assert (W : c_write (fst (run init ((Write 1 0, gives 0 100) :: h))) = Some {| w_ev := 1; w_at := 0; w_left := 0 |}).
  { clear t L. induction h as [|m h IH] using rev_ind; [reflexivity|]. apply Forall_app in F as [F1 F2]. specialize (IH F1). rewrite app_comm_cons, run_snoc. cbn [fst]. rewrite <- IH. destruct m as [o v]. apply stuck_step; [exact IH|]. inversion F2; subst. exact H1. }
  pose proof (reach_tally ((Write 1 0, gives 0 100) :: h) 1) as T. unfold t. pose proof (occ_nodup 1 _ L). assert (I : In 1 (held (fst (run init ((Write 1 0, gives 0 100) :: h))))) by (apply (held_k_in KWrite); cbn [held_k]; rewrite W; reflexivity). apply occ_in in I. lia.
Qed.
Print Assumptions C81_empty_write_refuted.
Example C81_ex_empty : let h := [(Event DataWrite, gives 0 100); (Close 2, gives 0 0); (Event WriteClosed, gives 0 0)] in Forall goes_on h /\ map snd (snd (run init ((Write 1 0, gives 0 100) :: h))) = [[]; []; []; [Complete 2 Ok]].
Proof. split; [repeat (constructor; [split; reflexivity|]); constructor|vm_compute; reflexivity]. Qed.
