(** Properties of the DTLS server: C58, C77. *)
From Coq Require Import List Bool Arith Lia.
From Verif Require Import SrvModel SrvSpec SrvProofs SrvMore SrvTight.
Import ListNotations.

Definition quiet : env := {| x_out := []; x_record := Some Taken; x_hs := HsAgain; x_rd := RdAgain; x_wr := WrOk |}.
Definition shake : env := {| x_out := []; x_record := None; x_hs := HsDone; x_rd := RdAgain; x_wr := WrOk |}.
Definition large : env := {| x_out := []; x_record := None; x_hs := HsAgain; x_rd := RdAgain; x_wr := WrTooLarge |}.

(** ** C58 *)
(** Every accepted send completes at most once, in the order of the calls, and the data goes out in that order. *)
Theorem C58_in_order : forall h, let t := snd (run init h) in exists rest, accepted t = completed t ++ rest /\ left_out (wired t) (completed t).
Proof. intros h t. pose proof (reach_inv h) as I. eexists. split; [apply (i_order _ _ I)|apply (i_wired _ _ I)]. Qed.
Print Assumptions C58_in_order.
(** When the connection is freed all of them have completed. *)
Theorem C58_freed : forall h, let t := snd (run init h) in In Freed (outs t) -> completed t = accepted t.
Proof.
  intros h t F. unfold t in *. pose proof (reach_inv h) as I. pose proof (i_freed _ _ I) as C. pose proof (i_order _ _ I) as O. destruct (fst (run init h)) as [c|].
  - exfalso. unfold count in C. destruct (filter is_freed _) eqn:E; [|discriminate]. assert (X : In Freed []) by (rewrite <- E; apply filter_In; auto). destruct X.
  - rewrite app_nil_r in O. auto.
Qed.
Print Assumptions C58_freed.
(** If every write so far has put a packet on its way, then a waiting send is waiting for a packet on its way, or the next event sends it. *)
Theorem C58_no_stall_partial : forall h e, let t := snd (run init h) in existsb fizzled t = false -> completed t <> accepted t -> flying t = true \/ exists tok c rest, accepted t = completed t ++ tok :: rest /\ In (Completed tok c) (snd (step e Wake (fst (run init h)))).
Proof.
  intros h e t NF NC. unfold t in *. pose proof (reach_inv h) as I. pose proof (i_order _ _ I) as O. pose proof (i_posted _ _ I) as P. pose proof (i_fly _ _ I) as F. destruct (fst (run init h)) as [c|]; [|rewrite app_nil_r in O; congruence].
  destruct (d_buf c) eqn:B; [auto|]. right. destruct (d_queue c) as [|x q] eqn:Q; [rewrite app_nil_r in O; congruence|]. destruct (P ltac:(discriminate)) as [X|[X|X]]; try congruence.
  exists x, (wr_code (x_wr e)), q. split; [exact O|]. cbn. rewrite X. unfold start_send_deferred. destruct c as [ph bu qu po re de cl]. cbn in *. subst. cbn. destruct (pushes _ _) as [c1 l1]. destruct (x_record e) as [p|]; [|cbn; apply in_app_iff; right; left; reflexivity].
  destruct (push1 _ _ _) as [c2 l2]. cbn. rewrite !in_app_iff. right. right. left. reflexivity.
Qed.
Print Assumptions C58_no_stall_partial.
(** And then the whole queue goes out when packets are completed. *)
Theorem C58_drains_partial : forall h, existsb fizzled (snd (run init h)) = false -> exists n, completed (snd (run init (h ++ rounds n))) = accepted (snd (run init h)).
Proof.
  intros h NF. pose proof (reach_inv h) as I. assert (M : moving (fst (run init h))).
  { pose proof (i_posted _ _ I) as P. unfold moving. destruct (fst (run init h)) as [c|]; [|exact Logic.I]. intros Q. destruct (P Q) as [X|[X|X]]; auto. congruence. }
  exists (waits (fst (run init h))). pose proof (drain _ _ M (i_recv _ _ I) (Nat.le_refl _)) as D. pose proof (reach_inv (h ++ rounds (waits (fst (run init h))))) as J. pose proof (i_order _ _ J) as O.
  rewrite run_app in *. cbn [fst snd] in *. unfold accepted in O at 1. rewrite flat_map_app in O. fold (accepted (snd (run init h))) in O. fold (accepted (snd (run (fst (run init h)) (rounds (waits (fst (run init h))))))) in O.
  rewrite accepted_rounds, app_nil_r in O. destruct (fst (run (fst (run init h)) _)) as [c|]; [|rewrite app_nil_r in O; auto]. cbn in D. destruct (d_queue c); [|discriminate]. rewrite app_nil_r in O. auto.
Qed.
Print Assumptions C58_drains_partial.
Example C58_ex : let h := [(Handle, shake); (SendData 1, quiet); (SendData 2, quiet); (SendData 3, quiet); (Wake, quiet)] in
  existsb fizzled (snd (run init h)) = false /\ accepted (snd (run init h)) = [1; 2; 3] /\ completed (snd (run init h)) = [1] /\ completed (snd (run init (h ++ rounds 2))) = [1; 2; 3] /\
  In Freed (outs (snd (run init (h ++ [(Close None, quiet); (Sent, quiet); (Wake, quiet); (Sent, quiet); (Wake, quiet); (Sent, quiet); (Wake, quiet)])))).
Proof. vm_compute. auto 20. Qed.
(** The close of the owner cancels nothing: the sends which were accepted before it are written first. *)
Theorem C58_close_does_not_cancel : forall h tok, let t := snd (run init h) in forall x, In x t -> In (Completed tok ConnectionClosing) (snd x) -> match fst (fst x) with Close _ | Wake | SendData _ => False | _ => True end.
Proof.
  induction h as [|m h IH] using rev_ind; intros tok t x I C; [destruct I|]. unfold t in I. rewrite run_snoc in I. cbn [snd] in I. apply in_app_iff in I as [I|[<-|[]]]; [exact (IH tok x I C)|]. clear IH. cbn [fst snd] in *. destruct m as [o e]. cbn [fst snd] in *. destruct (fst (run init h)) as [c|]; [|destruct C]. apply (step_cancel _ _ _ _ C).
Qed.
Print Assumptions C58_close_does_not_cancel.
(** A send which completes with OK is on its way, if mbedtls makes a record for every write which it says it has done, and has nothing else to send then. *)
Definition writes (m : move) : Prop := x_wr (snd m) = WrOk -> x_out (snd m) = [] /\ x_record (snd m) = Some Taken.
Theorem C58_sent_partial : forall h, Forall writes h -> forall x tok, In x (snd (run init h)) -> In (Completed tok Ok) (snd x) -> In (Wire (Some tok)) (snd x).
Proof.
  induction h as [|m h IH] using rev_ind; intros W x tok I C; [destruct I|]. apply Forall_app in W as [W1 W2]. rewrite run_snoc in I. cbn [snd] in I. apply in_app_iff in I as [I|[<-|[]]]; [exact (IH W1 x tok I C)|]. cbn [fst snd] in *. destruct m as [o e]. cbn [fst snd] in *. inversion W2; subst. apply (step_sent _ _ _ _ C H1).
Qed.
Print Assumptions C58_sent_partial.
(** When a write fails, or there is no buffer, nobody sends the rest of the queue, although the second send was accepted. *)
Definition idle (m : move) : bool :=
  match fst m, x_out (snd m), x_rd (snd m) with (Handle | Timer | Wake | Sent), [], (RdAgain | RdData _) => true | _, _, _ => false end.
Theorem C58_stall_refuted : exists h, let t := snd (run init h) in accepted t = [1; 2] /\ completed t = [1] /\ flying t = false /\
  forall h2, forallb idle h2 = true -> completed (snd (run init (h ++ h2))) = [1].
Proof.
  exists [(Handle, shake); (SendData 1, quiet); (SendData 2, quiet); (Wake, large)]. cbv zeta. do 3 (split; [vm_compute; reflexivity|]). intros h2 Q. rewrite run_app. cbn [snd]. unfold completed. rewrite outs_app, flat_map_app.
  set (s := fst (run init _)). vm_compute in s. assert (X : flat_map completed1 (outs (snd (run s h2))) = []); [|rewrite X; vm_compute; reflexivity].
  induction h2 as [|[o e] h2 IH]; [reflexivity|]. cbn [forallb] in Q. apply andb_prop in Q. destruct Q as [Q1 Q2]. specialize (IH Q2).
  assert (Y : fst (step e o s) = s /\ flat_map completed1 (snd (step e o s)) = []).
  { unfold idle in Q1. cbn [fst snd] in Q1. destruct e as [xo xr xh xd xw]. cbn [x_out x_rd] in Q1. unfold s. destruct o; try discriminate; destruct xo; try discriminate; destruct xd; try discriminate; vm_compute; auto. }
  cbn [run fst snd]. destruct Y as [Y1 Y2]. destruct (step e o s) as [s1 l]. cbn [fst snd] in Y1, Y2. rewrite Y1. destruct (run s h2) as [s2 t2]. cbn [snd] in *. unfold outs in *. cbn [flat_map snd]. rewrite flat_map_app, Y2, IH. reflexivity.
Qed.
Print Assumptions C58_stall_refuted.

(** ** C77 *)
Theorem C77_reported_at_most_once : forall h, count is_ended (outs (snd (run init h))) <= 1 /\ count is_freed (outs (snd (run init h))) <= 1.
Proof. intros h. pose proof (reach_inv h) as I. split; [apply (i_ended _ _ I)|]. rewrite (i_freed _ _ I). destruct (fst _); lia. Qed.
Print Assumptions C77_reported_at_most_once.
(** Nothing is freed while a packet is on its way. *)
Theorem C77_not_before : forall h, let t := snd (run init h) in In Freed (outs t) -> existsb ends t = true /\ flying t = false.
Proof. intros h t F. exact (reach_down h F). Qed.
Print Assumptions C77_not_before.
(** With orderly ends nothing is reported later and no freed memory is used, and the connection is freed at once, or by the completion of the packet
    which is on its way. *)
Theorem C77_released_partial : forall h, let t := snd (run init h) in orderly t -> ~ In Crash (outs t) /\ ~ In Stale (outs t) /\
  (existsb ends t = true -> In Freed (outs t) \/ flying t = true /\ forall e, In Freed (snd (step e Sent (fst (run init h))))).
Proof.
  intros h t O. unfold t in *. destruct (reach_tidy h O) as [[J1 J2] J3]. split; [exact J1|]. split; [exact J2|]. intros E. pose proof (reach_inv h) as I. pose proof (i_ends _ _ I) as D. pose proof (i_freed _ _ I) as F. pose proof (i_fly _ _ I) as L. destruct (fst (run init h)) as [c|].
  - rewrite E in D. destruct (J3 (eq_sym D)) as [P B]. right. split; [congruence|]. intros e. apply sent_frees; auto.
  - left. unfold count in F. destruct (filter is_freed _) as [|x l] eqn:X; [discriminate|]. assert (Y : In x (x :: l)) by (left; reflexivity). rewrite <- X in Y. apply filter_In in Y. destruct Y as [Y1 Y2]. destruct x; try discriminate. exact Y1.
Qed.
Print Assumptions C77_released_partial.
Definition alert : env := {| x_out := [Taken]; x_record := None; x_hs := HsFailed; x_rd := RdError; x_wr := WrError |}.
Lemma orderly_by : forall t, (forall k x, nth_error t k = Some x -> ends x = true -> is_sent (fst x) = false /\ (flying (firstn (S k) t) = false \/ existsb closes (firstn k t) = true)) -> orderly t.
Proof.
  intros t H t1 x t2 -> E. specialize (H (length t1) x). rewrite nth_error_app2, Nat.sub_diag in H by lia. specialize (H eq_refl E). 
  replace (firstn (S (length t1)) (t1 ++ x :: t2)) with (t1 ++ [x]) in H. 2: { replace (S (length t1)) with (length t1 + 1) by lia. rewrite firstn_app_2. reflexivity. }
  replace (firstn (length t1) (t1 ++ x :: t2)) with t1 in H. 2: { replace (length t1) with (length t1 + 0) at 1 by lia. rewrite firstn_app_2. cbn. rewrite app_nil_r. reflexivity. }
  exact H.
Qed.
Example C77_ex : let h := [(Handle, shake); (SendData 1, quiet); (Wake, quiet); (Sent, quiet); (Close None, alert); (Sent, quiet); (Wake, quiet)] in
  orderly (snd (run init h)) /\ existsb ends (snd (run init h)) = true /\ map snd (snd (run init h)) = [[Handshaken]; [Return Ok]; [Wire (Some 1); Completed 1 Ok]; []; [Wire None; Return Started]; []; [Ended; Freed]].
Proof.
  split; [|vm_compute; auto]. apply orderly_by. set (t := snd (run init _)). vm_compute in t. intros k x. subst t. do 7 (destruct k as [|k]; [cbn; intros X; injection X as <-; vm_compute; intuition discriminate|]). cbn. destruct k; discriminate.
Qed.
(** A handshake which fails with an alert: the connection is never freed, whatever happens. *)
Theorem C77_leak_refuted : exists h, let t := snd (run init h) in map snd t = [[Wire None; Ended]] /\ fst (fst (hd ((Timer, quiet), []) t)) = Handle /\ forall h2, ~ In Freed (outs (snd (run init (h ++ h2)))).
Proof.
  exists [(Handle, alert)]. cbv zeta. do 2 (split; [vm_compute; reflexivity|]). intros h2. rewrite run_app. cbn [snd]. rewrite outs_app, in_app_iff. intros [X|X]; [vm_compute in X; intuition discriminate|].
  revert X. apply run_lost. eexists. split; [reflexivity|]. cbn. repeat split; discriminate.
Qed.
Print Assumptions C77_leak_refuted.
(** The same for every end which is reported while a packet is on its way and the owner has not closed the connection. *)
Theorem C77_leak_always_refuted : forall h h2, let t := snd (run init h) in existsb ends t = true -> flying t = true -> existsb closes t = false -> ~ In Freed (outs t) -> ~ In Freed (outs (snd (run init (h ++ h2)))).
Proof.
  intros h h2 t E F C NF. rewrite run_app. cbn [snd]. rewrite outs_app, in_app_iff. intros [X|X]; [tauto|]. revert X. apply run_lost. unfold t in *. pose proof (reach_inv h) as I. pose proof (i_ends _ _ I) as D. pose proof (i_freed _ _ I) as FR. pose proof (i_recv _ _ I) as R.
  destruct (fst (run init h)) as [c|] eqn:S.
  - exists c. split; [reflexivity|]. split; [congruence|]. split; [exact R|]. intros P. pose proof (closing_closes h) as CC. rewrite S in CC. specialize (CC P). congruence.
  - exfalso. apply NF. unfold count in FR. destruct (filter is_freed _) as [|x l] eqn:Y; [discriminate|]. assert (Z : In x (x :: l)) by (left; reflexivity). rewrite <- Y in Z. apply filter_In in Z. destruct Z as [Z1 Z2]. destruct x; try discriminate. exact Z1.
Qed.
Print Assumptions C77_leak_always_refuted.
(** A datagram with two records, data and the close of the client: the second one is found when a packet is completed; freed memory is used. *)
Definition peer_closed : env := {| x_out := []; x_record := None; x_hs := HsAgain; x_rd := RdPeerClosed; x_wr := WrOk |}.
Theorem C77_use_after_free_refuted : exists h, map snd (snd (run init h)) = [[Handshaken]; [Return Ok]; [Wire (Some 1); Completed 1 Ok]; [Data 7]; [Ended; Freed; Crash]].
Proof. exists [(Handle, shake); (SendData 1, quiet); (Wake, quiet); (Handle, {| x_out := []; x_record := None; x_hs := HsAgain; x_rd := RdData 7; x_wr := WrOk |}); (Sent, peer_closed)]. vm_compute. reflexivity. Qed.
Print Assumptions C77_use_after_free_refuted.
(** A connection which is lost still reports to its owner. *)
Theorem C77_stale_refuted : exists h, map snd (snd (run init h)) = [[Handshaken]; [Return Ok]; [Wire (Some 1); Completed 1 Ok]; [Ended]; [Stale]].
Proof. exists [(Handle, shake); (SendData 1, quiet); (Wake, quiet); (Handle, peer_closed); (Timer, peer_closed)]. vm_compute. reflexivity. Qed.
Print Assumptions C77_stale_refuted.
