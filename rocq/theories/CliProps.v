(** Properties of the DTLS client: C78, C79. *)
From Coq Require Import List Bool Arith Lia.
From Verif Require Import CliModel CliSpec CliProofs CliMore CliTight.
Import ListNotations.

Definition quiet : env := {| x_out := []; x_record := Some Taken; x_hs := HsAgain; x_rd := RdAgain; x_wr := WrOk |}.
Definition shake : env := {| x_out := []; x_record := None; x_hs := HsDone; x_rd := RdAgain; x_wr := WrOk |}.
Definition reads (r : reading) : env := {| x_out := []; x_record := None; x_hs := HsAgain; x_rd := r; x_wr := WrOk |}.
(** mbedtls sends the close notify. *)
Definition notify : env := {| x_out := [Taken]; x_record := None; x_hs := HsAgain; x_rd := RdAgain; x_wr := WrOk |}.

Lemma freed_in : forall l, count is_freed l = 1 -> In Freed l.
Proof. intros l C. unfold count in C. destruct (filter is_freed l) as [|x m] eqn:X; [discriminate|]. assert (Y : In x (x :: m)) by (left; reflexivity). rewrite <- X in Y. apply filter_In in Y. destruct Y as [Y1 Y2]. destruct x; try discriminate. exact Y1. Qed.
Lemma freed_out : forall l, count is_freed l = 0 -> ~ In Freed l.
Proof. intros l C H. unfold count in C. destruct (filter is_freed l) eqn:E; [|discriminate]. assert (X : In Freed []) by (rewrite <- E; apply filter_In; auto). destruct X. Qed.

(** ** C78 *)
(** The end is reported at most once, the connection is freed at most once, and the module never uses it afterwards. *)
Theorem C78_at_most_once : forall h, let t := snd (run init h) in count is_ended (outs t) <= 1 /\ count is_freed (outs t) <= 1 /\ ~ In Crash (outs t).
Proof.
  intros h t. unfold t. pose proof (reach_inv h) as I. split; [apply (i_ended _ _ I)|]. split; [rewrite (i_freed _ _ I); destruct (fst _); lia|].
  pose proof (i_crash _ _ I) as C. intros H. apply not_true_iff_false in C. apply C. apply existsb_exists. exists Crash. auto.
Qed.
Print Assumptions C78_at_most_once.
(** A connection which has ended is freed, or it is freed by the completion of the packet which is on its way. *)
Theorem C78_released : forall h, let t := snd (run init h) in existsb ends t = true -> In Freed (outs t) \/ flying t = true /\ forall e, In Freed (snd (step e Sent (fst (run init h)))).
Proof.
  intros h t E. unfold t in *. pose proof (reach_inv h) as I. pose proof (i_ends _ _ I) as D. pose proof (i_freed _ _ I) as F. pose proof (i_fly _ _ I) as L. pose proof (i_gone _ _ I) as G. destruct (fst (run init h)) as [c|].
  - right. assert (X : d_destroyed c = true) by congruence. destruct (G X) as [P B]. split; [congruence|]. intros e. apply sent_frees; auto.
  - left. apply freed_in. exact F.
Qed.
Print Assumptions C78_released.
(** And it is freed only then. *)
Theorem C78_not_before : forall h, let t := snd (run init h) in In Freed (outs t) -> existsb ends t = true /\ flying t = false.
Proof.
  intros h t F. unfold t in *. pose proof (reach_inv h) as I. pose proof (i_ends _ _ I) as D. pose proof (i_freed _ _ I) as C. pose proof (freed_idle h) as L. destruct (fst (run init h)) as [c|]; [destruct (freed_out _ C F)|auto].
Qed.
Print Assumptions C78_not_before.
(** A closed connection ends: its end is reported, or the next completion reports it. The case that mbedtls has reported an end of file is left out. *)
Theorem C78_close_partial : forall h, no_eof h -> let t := snd (run init h) in existsb closes t = true -> existsb ends t = true \/ flying t = true /\ forall e, In (Ended Closed) (snd (step e Sent (fst (run init h)))).
Proof.
  intros h N t C. unfold t in *. pose proof (reach_inv h) as I. pose proof (i_ends _ _ I) as D. pose proof (i_closed _ _ I) as K. pose proof (i_fly _ _ I) as L. pose proof (closing_flies h N) as B. destruct (fst (run init h)) as [c|]; [|auto].
  assert (PH : d_phase c = Closing). { destruct (d_phase c) eqn:PH; auto; destruct (i_gone _ _ I) as [Z _]; try congruence; apply K; congruence. }
  specialize (B PH). destruct (d_destroyed c) eqn:X; [left; congruence|]. right. split; [congruence|]. intros e. apply sent_frees; auto.
Qed.
Print Assumptions C78_close_partial.
Example C78_ex : let h := [(Connect, quiet); (Handle, shake); (SendData 1, quiet); (Wake, quiet); (Sent, quiet); (Close, notify)] in
  no_eof h /\ existsb closes (snd (run init h)) = true /\ existsb ends (snd (run init h)) = false /\ flying (snd (run init h)) = true /\
  map snd (snd (run init (h ++ [(Sent, quiet)]))) = [[]; [Handshaken]; [Return Ok]; [Wire (Some 1); Completed 1 Ok]; []; [Wire None; Return Ok]; [Ended Closed; Freed]].
Proof. split; [repeat (constructor; [discriminate|]); constructor|vm_compute; auto]. Qed.
Example C78_ex_destroy : let h := [(Connect, shake); (SendData 1, quiet); (SendData 2, quiet); (Wake, quiet); (Destroy, quiet)] in
  existsb ends (snd (run init h)) = true /\ flying (snd (run init h)) = true /\ In Freed (outs (snd (run init (h ++ [(Sent, quiet)])))) /\ completed (snd (run init (h ++ [(Sent, quiet)]))) = [1; 2].
Proof. vm_compute. auto 20. Qed.

(** After an end of file nothing is reported any more, not even when the owner closes the connection. *)
Definition stays (s : state) : Prop := exists c, s = Some c /\ d_phase c = Closing /\ d_buf c = false /\ d_destroyed c = false /\ d_receiving c = false.
Definition ask (m : move) : list out := match fst m with SendData _ => [Return ConnectionClosing] | Close => [Return Ok] | _ => [] end.
Lemma stays_step : forall s m, stays s -> is_destroy m = false -> stays (fst (step (snd m) (fst m) s)) /\ snd (step (snd m) (fst m) s) = ask m.
Proof.
  intros s [o e] (c & -> & P & B & D & R) ND. destruct c as [ph bu q po re de]. cbn in P, B, D, R. subst. unfold stays. destruct o; try discriminate ND; cbn; try (split; [eexists; split; [reflexivity|cbn; auto]|reflexivity]).
  destruct po; (split; [eexists; split; [reflexivity|cbn; auto]|reflexivity]).
Qed.
Lemma stays_run : forall h s, stays s -> forallb (fun m => negb (is_destroy m)) h = true -> outs (snd (run s h)) = flat_map ask h.
Proof.
  induction h as [|m h IH]; intros s S N; [reflexivity|]. cbn [forallb] in N. apply andb_prop in N. destruct N as [N1 N2]. apply negb_true_iff in N1. destruct (stays_step s m S N1) as [S1 O1].
  cbn [run]. destruct (step (snd m) (fst m) s) as [s1 l]. cbn [fst snd] in *. subst l. specialize (IH s1 S1 N2). destruct (run s1 h) as [s2 t]. cbn [snd] in *. unfold outs in *. cbn [flat_map snd]. rewrite IH. reflexivity.
Qed.
Definition eof : list move := [(Connect, shake); (SendData 1, quiet); (Handle, reads RdEof); (Close, notify)].
Theorem C78_eof_refuted : map snd (snd (run init eof)) = [[Handshaken]; [Return Ok]; []; [Return Ok]] /\
  forall h, forallb (fun m => negb (is_destroy m)) h = true -> count is_ended (outs (snd (run init (eof ++ h)))) = 0.
Proof.
  split; [vm_compute; reflexivity|]. intros h N. rewrite run_app. cbn [snd]. rewrite outs_app, count_app. rewrite (stays_run h); [|eexists; split; [reflexivity|]; cbn; auto|exact N].
  unfold count. replace (filter is_ended (flat_map ask h)) with (@nil out); [vm_compute; reflexivity|]. clear N. induction h as [|[o e] h IH]; [reflexivity|]. cbn [flat_map]. rewrite filter_app, <- IH. destruct o; reflexivity.
Qed.
Print Assumptions C78_eof_refuted.
(** The owner hears of a connection which it has destroyed only if a packet was on its way, when that one completes. *)
Theorem C78_stale_partial : forall h e o, let t := snd (run init h) in In Stale (snd (step e o (fst (run init h)))) -> o = Sent /\ existsb ends t = true /\ flying t = true.
Proof. intros h e o. apply stale_sent. Qed.
Print Assumptions C78_stale_partial.
Example C78_ex_stale : let h := [(Connect, shake); (SendData 1, quiet); (Wake, quiet); (Destroy, quiet)] in In Stale (snd (step quiet Sent (fst (run init h)))) /\ existsb ends (snd (run init h)) = true /\ flying (snd (run init h)) = true.
Proof. vm_compute. auto. Qed.
(** It does in that case: the connection is reported closed a second time, after the owner was told that access was denied. *)
Theorem C78_stale_refuted : exists h, map snd (snd (run init h)) = [[Handshaken]; [Return Ok]; [Wire (Some 1); Completed 1 Ok]; [Ended Denied]; [Stale; Freed]].
Proof. exists [(Connect, shake); (SendData 1, quiet); (Wake, quiet); (Handle, reads RdDenied); (Sent, quiet)]. vm_compute. reflexivity. Qed.
Print Assumptions C78_stale_refuted.

(** ** C79 *)
Theorem C79_in_order : forall h, let t := snd (run init h) in exists rest, accepted t = completed t ++ rest /\ left_out (wired t) (completed t).
Proof. intros h t. pose proof (reach_inv h) as I. eexists. split; [apply (i_order _ _ I)|apply (i_wired _ _ I)]. Qed.
Print Assumptions C79_in_order.
Theorem C79_freed : forall h, let t := snd (run init h) in In Freed (outs t) -> completed t = accepted t.
Proof.
  intros h t F. unfold t in *. pose proof (reach_inv h) as I. pose proof (i_freed _ _ I) as C. pose proof (i_order _ _ I) as O. destruct (fst (run init h)) as [c|]; [destruct (freed_out _ C F)|rewrite app_nil_r in O; auto].
Qed.
Print Assumptions C79_freed.
(** Until the connection ends or is closed, a waiting send waits for a packet on its way, or the next event sends it. *)
Theorem C79_no_stall_partial : forall h e, no_eof h -> let t := snd (run init h) in existsb ends t = false -> completed t <> accepted t -> flying t = true \/ exists tok c rest, accepted t = completed t ++ tok :: rest /\ In (Completed tok c) (snd (step e Wake (fst (run init h)))).
Proof.
  intros h e N t E NC. unfold t in *. pose proof (reach_inv h) as I. pose proof (i_order _ _ I) as O. pose proof (i_posted _ _ I) as P. pose proof (i_fly _ _ I) as F. pose proof (i_early _ _ I) as EA. pose proof (closing_flies h N) as B. destruct (fst (run init h)) as [c|]; [|rewrite app_nil_r in O; congruence].
  destruct (d_buf c) eqn:X; [auto|]. right. destruct (d_queue c) as [|x q] eqn:Q; [rewrite app_nil_r in O; congruence|]. destruct (d_phase c) eqn:PH; [discriminate (EA eq_refl)| |discriminate (B eq_refl)]. destruct (P eq_refl ltac:(discriminate)) as [Y|Y]; try congruence.
  exists x, (wr_code (x_wr e)), q. split; [exact O|]. cbn. rewrite Y. unfold start_send_deferred. destruct c as [ph bu qu po re de]. cbn in *. subst. cbn. destruct (pushes _ _) as [c1 l1]. destruct (x_record e) as [p|]; [|cbn; apply in_app_iff; right; left; reflexivity].
  destruct (push1 _ _ _) as [c2 l2]. cbn. rewrite !in_app_iff. right. right. left. reflexivity.
Qed.
Print Assumptions C79_no_stall_partial.
(** Then the whole queue goes out as packets complete, even when a write failed. *)
Theorem C79_drains_partial : forall h, no_eof h -> let t := snd (run init h) in existsb ends t = false -> existsb closes t = false -> accepted t <> [] -> exists n, completed (snd (run init (h ++ rounds n))) = accepted t.
Proof.
  intros h N t E C A. unfold t in *. pose proof (reach_inv h) as I. assert (M : moving (fst (run init h)) \/ completed (snd (run init h)) = accepted (snd (run init h))).
  { pose proof (i_posted _ _ I) as P. pose proof (i_order _ _ I) as O. pose proof (i_early _ _ I) as EA. pose proof (i_ends _ _ I) as D. pose proof (open_closing h N) as OC. destruct (fst (run init h)) as [c|]; [|right; rewrite app_nil_r in O; auto].
    destruct (d_phase c) eqn:PH; [right; rewrite (EA eq_refl), app_nil_r in O; auto| |].
    - left. exists c. repeat split; auto. congruence.
    - exfalso. destruct (OC eq_refl); congruence. }
  destruct M as [M|M]; [|exists 0; cbn [rounds]; rewrite app_nil_r; exact M].
  exists (waits (fst (run init h))). pose proof (drain _ _ M (Nat.le_refl _)) as D. pose proof (reach_inv (h ++ rounds (waits (fst (run init h))))) as J. pose proof (i_order _ _ J) as O.
  rewrite run_app in *. cbn [fst snd] in *. unfold accepted in O at 1. rewrite flat_map_app in O. fold (accepted (snd (run init h))) in O. fold (accepted (snd (run (fst (run init h)) (rounds (waits (fst (run init h))))))) in O.
  rewrite accepted_rounds, app_nil_r in O. destruct (fst (run (fst (run init h)) _)) as [c|]; [|rewrite app_nil_r in O; auto]. cbn in D. destruct (d_queue c); [|discriminate]. rewrite app_nil_r in O. auto.
Qed.
Print Assumptions C79_drains_partial.
Example C79_ex : let h := [(Connect, shake); (SendData 1, quiet); (SendData 2, quiet); (SendData 3, quiet); (Wake, quiet)] in
  no_eof h /\ existsb ends (snd (run init h)) = false /\ existsb closes (snd (run init h)) = false /\ accepted (snd (run init h)) = [1; 2; 3] /\ completed (snd (run init h)) = [1] /\ completed (snd (run init (h ++ rounds 2))) = [1; 2; 3] /\
  wired (snd (run init (h ++ rounds 2))) = [1; 2; 3].
Proof. split; [repeat (constructor; [discriminate|]); constructor|vm_compute; auto 20]. Qed.
(** A send which completes with OK is on its way, if mbedtls makes a record for every write which it says it has done, and has nothing else to send then. *)
Definition writes (m : move) : Prop := x_wr (snd m) = WrOk -> x_out (snd m) = [] /\ x_record (snd m) = Some Taken.
Theorem C79_sent_partial : forall h, Forall writes h -> forall x tok, In x (snd (run init h)) -> In (Completed tok Ok) (snd x) -> In (Wire (Some tok)) (snd x).
Proof.
  induction h as [|m h IH] using rev_ind; intros W x tok I C; [destruct I|]. apply Forall_app in W as [W1 W2]. rewrite run_snoc in I. cbn [snd] in I. apply in_app_iff in I as [I|[<-|[]]]; [exact (IH W1 x tok I C)|]. cbn [fst snd] in *. destruct m as [o e]. cbn [fst snd] in *. inversion W2; subst. apply (step_sent _ _ _ _ C H1).
Qed.
Print Assumptions C79_sent_partial.
(** After an end of file the accepted sends never complete until the owner destroys the connection. *)
Theorem C79_eof_refuted : accepted (snd (run init eof)) = [1] /\ forall h, forallb (fun m => negb (is_destroy m)) h = true -> completed (snd (run init (eof ++ h))) = [].
Proof.
  split; [vm_compute; reflexivity|]. intros h N. rewrite run_app. cbn [snd]. unfold completed. rewrite outs_app, flat_map_app. rewrite (stays_run h); [|eexists; split; [reflexivity|]; cbn; auto|exact N].
  replace (flat_map completed1 (flat_map ask h)) with (@nil nat); [vm_compute; reflexivity|]. clear N. induction h as [|[o e] h IH]; [reflexivity|]. cbn [flat_map]. rewrite flat_map_app, <- IH. destruct o; reflexivity.
Qed.
Print Assumptions C79_eof_refuted.
