(** Properties C37 to C41: attaching to the server. [reached h]: h is a history of the attacher, whatever the
    application, the resolver, the event queue, the timers and the server do, in which the DTLS and the CoAP client keep their
    contracts ([allowed]) and any start of a connection, a resolution or a request may fail for lack of memory. *)
From Coq Require Import List Bool Arith Lia.
From Verif Require Import AttachModel AttachSpec AttachProofs AttachMore AttachTurns AttachClose AttachLive AttachRank AttachTokens AttachFinal AttachEnd AttachHist.
Import ListNotations.

(** Histories for the examples. *)
Definition goods (l : list op) : list move := map (fun o => (o, good)) l.
Definition attaching : list op := [Start; Resolved true; Run; Dtls 0 Handshake; StartAnswer Accept; EndAnswer true].
Definition failing : list op := [Start; Resolved false; Run].
Definition redirect (c n : nat) : list op := [Dtls c Handshake; StartAnswer (Goto n); Dtls c DtlsClosed; Resolved true; Run].
Definition four_redirects : list op := [Start; Resolved true; Run] ++ redirect 0 10 ++ redirect 1 11 ++ redirect 2 12 ++ redirect 3 13 ++ [Dtls 4 Handshake].

(** C37: in one attempt no more than four redirects are followed (MAX_REDIRECT_FOLLOW is five, but the counter is
    compared before the fifth is followed), at every point of every history. *)
Theorem C37_redirects_bounded : forall h l1 l2, reached h -> outs (snd (run init h)) = l1 ++ l2 -> hops 0 l1 <= 4.
Proof. exact hops_bound. Qed.
Print Assumptions C37_redirects_bounded.
(** The configured server is resolved for a start, a restart or when the retry timer fires; another one only when a connection is closed, and
    it is the one which the last redirect named. *)
Theorem C37_where_to : forall h t1 m l t2 x, reached h -> snd (run init h) = t1 ++ (m, l) :: t2 -> In (Resolve x) l ->
  (x = Configured /\ (fst m = Start \/ fst m = Restart \/ fst m = Timer)) \/
  (exists n c, x = Other n /\ fst m = Dtls c DtlsClosed /\ last_goto None t1 = Some n).
Proof. exact resolve_from. Qed.
Print Assumptions C37_where_to.
(** When four have been followed and the server redirects again, the device waits ten seconds and resolves nothing. *)
Theorem C37_gives_up : forall h n c e1 e2, reached (h ++ [(StartAnswer (Goto n), e1); (Dtls c DtlsClosed, e2)]) ->
  forallb (fun m => negb (closes m)) h = true -> hops 0 (outs (snd (run init h))) = 4 ->
  forall t x, snd (run init (h ++ [(StartAnswer (Goto n), e1); (Dtls c DtlsClosed, e2)])) = t ++ [x] ->
  In (Wait 10) (snd x) /\ forall y, ~ In (Resolve y) (snd x).
Proof. exact gives_up. Qed.
Print Assumptions C37_gives_up.
Example C37_ex : let h := goods (four_redirects ++ [StartAnswer (Goto 14); Dtls 4 DtlsClosed; Timer]) in
  reached h /\ hops 0 (outs (snd (run init (goods four_redirects)))) = 4 /\
  filter (fun x => match x with Resolve _ | Wait _ => true | _ => false end) (outs (snd (run init h))) =
    [Resolve Configured; Resolve (Other 10); Resolve (Other 11); Resolve (Other 12); Resolve (Other 13); Wait 10; Resolve Configured].
Proof. split; [vm_compute; intuition discriminate|]. split; vm_compute; reflexivity. Qed.

(** C38: false. An application which is attached and disables attaching gets DETACHED twice; one which
    is not attached gets DETACHED which no ATTACHED came before. *)
Theorem C38_alternate_refuted : exists h, reached h /\ ~ turns false (outs (snd (run init h))).
Proof.
  exists (goods (attaching ++ [Close Disable; Dtls 0 DtlsClosed; Run])). split; [vm_compute; intuition discriminate|]. vm_compute. intuition discriminate.
Qed.
Print Assumptions C38_alternate_refuted.
Theorem C38_detached_first_refuted : exists h l, reached h /\ outs (snd (run init h)) = l ++ [News NewsDetached] /\ ~ In (News NewsAttached) l.
Proof.
  eexists (goods (failing ++ [Close Disable; Run])), [_; _; _; _]. split; [vm_compute; intuition discriminate|].
  split; [vm_compute; reflexivity|]. vm_compute. intuition discriminate.
Qed.
Print Assumptions C38_detached_first_refuted.
(** As long as the application does not disable attaching, they alternate. *)
Theorem C38_alternate_partial : forall h, reached h -> forallb (fun m => negb (disables m)) h = true -> turns false (outs (snd (run init h))).
Proof. intros h H D. rewrite <- (no_disable h init); auto; [|discriminate]. apply turns_fold, H. Qed.
Print Assumptions C38_alternate_partial.
(** In every history they alternate when the DETACHED which goes with the end of a disable is left out. *)
Theorem C38_alternate_own_partial : forall h, reached h -> turns false (events (snd (run init h))).
Proof. intros h H. apply turns_fold, H. Qed.
Print Assumptions C38_alternate_own_partial.
Definition twice : list op := attaching ++ [KeepAliveLost; Dtls 0 DtlsClosed; Timer; Resolved true; Run; Dtls 1 Handshake; StartAnswer Accept; EndAnswer true; Close DeviceClose; Dtls 1 DtlsClosed; Run].
Example C38_ex : let h := goods twice in reached h /\ forallb (fun m => negb (disables m)) h = true /\
  filter (fun x => match x with News _ => true | _ => false end) (outs (snd (run init h))) = [News NewsAttached; News NewsDetached; News NewsAttached; News NewsDetached].
Proof. split; [vm_compute; intuition discriminate|]. split; vm_compute; reflexivity. Qed.

(** C39: for every way to close there are never more closed callbacks than calls. *)
Theorem C39_at_most_once : forall h k, answered k (snd (run init h)) <= asked k (snd (run init h)).
Proof. intros h k. pose proof (counts h k). lia. Qed.
Print Assumptions C39_at_most_once.
(** After a close or a stop nothing is attempted before a start or a restart. *)
Lemma close_quiet : forall e o s, closes (o, e) = true -> existsb attempt (snd (step e o s)) = false.
Proof. intros e o s C. destruct o; try discriminate; open_step; split_step; reflexivity. Qed.
Theorem C39_no_attempt : forall h1 m h2, reached (h1 ++ m :: h2) -> closes m = true -> forallb (fun x => negb (begins x)) h2 = true ->
  forall t1 t2, snd (run init (h1 ++ m :: h2)) = t1 ++ t2 -> length t1 = length h1 -> existsb attempt (outs t2) = false.
Proof.
  intros h1 [o e] h2 H C B t1 t2 E L. pose proof H as H0. apply reached_app in H. destruct H as [H1 H2]. pose proof (reached_inv h1 H1) as I.
  rewrite run_app in E. assert (N : length (snd (run init h1)) = length h1).
  { clear. generalize init. induction h1 as [|[o e] h IH]; intros s; [reflexivity|]. cbn. destruct (step e o s) as [s1 l]. specialize (IH s1). destruct (run s1 h). cbn in *. congruence. }
  destruct (run init h1) as [s t]. cbn [fst snd] in *. cbn [run] in E. destruct H2 as [A O].
  pose proof (step_inv e o s _ I A) as I1. pose proof (close_quiet e o s C) as Q. pose proof (closes_stop e o s C) as M.
  destruct (step e o s) as [s1 l]. cbn [fst snd] in *. destruct (quiet h2 _ _ I1 O M B) as [X _].
  destruct (run s1 h2) as [s2 t3]. cbn [snd] in *.
  assert (Y : t = t1 /\ ((o, e), l) :: t3 = t2).
  { assert (G : forall (a b c d : trace), a ++ b = c ++ d -> length a = length c -> a = c /\ b = d).
    { induction a as [|x a IH]; intros b [|y c] d F G; try discriminate; [auto|]. cbn in F, G. injection F as -> F. destruct (IH b c d F ltac:(congruence)). split; congruence. }
    apply G; [exact E|]. congruence. }
  destruct Y as [_ <-]. unfold outs in *. cbn. rewrite existsb_app, Q, X. reflexivity.
Qed.
Print Assumptions C39_no_attempt.
(** The closed callback of a close comes: it has come, or the resolver, the event queue and the connection can bring it, as
    long as the application neither starts nor closes again. *)
Theorem C39_completes : forall (h1 : list move) k e (h2 : list move), reached (h1 ++ (Close k, e) :: h2) ->
  forallb (fun m => negb (begins m) && negb (asks m)) h2 = true ->
  exists h3, forallb environment h3 = true /\ reached (h1 ++ (Close k, e) :: h2 ++ h3) /\
    In (ClosedCb k) (outs (snd (run (fst (run init (h1 ++ [(Close k, e)]))) (h2 ++ h3)))).
Proof. exact close_answered. Qed.
Print Assumptions C39_completes.
(** It does not come early when the application closes for the first time and does not start again: there is no
    connection and nothing is resolved. *)
Theorem C39_closed_is_closed_partial : forall h1 h2 t x k, reached (h1 ++ h2) -> forallb (fun m => negb (closes m)) h1 = true ->
  forallb (fun m => negb (begins m)) h2 = true -> snd (run init (h1 ++ h2)) = t ++ [x] -> In (ClosedCb k) (snd x) ->
  w_live (world_of (t ++ [x])) = None /\ busy (t ++ [x]) = 0.
Proof. exact cb_clean. Qed.
Print Assumptions C39_closed_is_closed_partial.
(** In general it may: disable, enable and close in one go, and the close is reported while a name is being resolved. *)
Theorem C39_closed_is_closed_refuted : exists h t x, reached h /\ snd (run init h) = t ++ [x] /\ In (ClosedCb DeviceClose) (snd x) /\ busy (t ++ [x]) = 1.
Proof.
  eexists (goods (failing ++ [Close Disable; Restart; Close DeviceClose; Run])), [_; _; _; _; _; _], _. split; [vm_compute; intuition discriminate|].
  split; [vm_compute; reflexivity|]. split; [left; reflexivity|vm_compute; reflexivity].
Qed.
Print Assumptions C39_closed_is_closed_refuted.
Example C39_ex : let h1 := goods attaching in let h2 := goods [Dtls 0 DtlsClosed; Run] in
  reached (h1 ++ (Close DeviceClose, good) :: h2) /\ forallb (fun m => negb (begins m) && negb (asks m)) h2 = true /\
  forallb (fun m => negb (closes m)) h1 = true /\ answered DeviceClose (snd (run init (h1 ++ (Close DeviceClose, good) :: h2))) = 1.
Proof. split; [vm_compute; intuition discriminate|]. repeat split; vm_compute; reflexivity. Qed.

(** C40: false when memory runs out. There is no connection for lack of memory: the wait is put off to the event queue, and the event which shall start it posts itself
    again for ever and never starts it. *)
Definition stuck (s : st) : Prop :=
  p_mod s = Running /\ p_state s = RetryWait /\ p_timer s = false /\ p_dns s = 0 /\ (p_queue s = [] \/ p_queue s = [QDeferred]) /\
  p_dtls s = None /\ p_start s = None /\ p_end s = None /\ p_sct s = None /\ p_ka s = false.
Lemma stuck_for_ever : forall h s w, inv s w -> stuck s -> forallb environment h = true -> obeys s w h ->
  existsb tries (outs (snd (run s h))) = false.
Proof.
  induction h as [|[o e] h IH]; intros s w I S E O; [reflexivity|]. cbn in E. apply andb_prop in E. destruct E as [E1 E2]. destruct O as [A O].
  assert (X : stuck (fst (step e o s)) /\ existsb tries (snd (step e o s)) = false).
  { destruct S as (S1 & S2 & S3 & S4 & S5 & S6 & S7 & S8 & S9 & S10). pose proof (v_live _ _ _ _ _ _ (proj1 I)) as L. rewrite S6 in L.
    destruct o; try discriminate; cbn [step]; rewrite ?S4, ?S7, ?S8, ?S9, ?S3, ?S10; try (split; [repeat split; assumption|reflexivity]).
    - destruct S5 as [Q|Q]; rewrite Q; [split; [repeat split; auto|reflexivity]|]. cbn. split; [|reflexivity]. unfold stuck. cbn. rewrite ?S1, ?S2, ?S3, ?S4. repeat split; auto.
    - destruct A as [A _]. congruence. }
  destruct X as [X1 X2]. pose proof (step_inv e o s w I A) as I1. cbn [run]. destruct (step e o s) as [s1 l]. cbn [fst snd] in *.
  specialize (IH s1 _ I1 X1 E2 O). destruct (run s1 h). unfold outs in *. cbn in *. rewrite existsb_app, X2, IH. reflexivity.
Qed.
Theorem C40_retries_refuted : exists h, reached h /\ started (snd (run init h)) = true /\ is_attached false (outs (snd (run init h))) = false /\
  forall h2, forallb environment h2 = true -> reached (h ++ h2) -> existsb tries (outs (snd (run (fst (run init h)) h2))) = false.
Proof.
  set (bad := {| e_dns := true; e_create := false; e_start := true; e_sct := true; e_end := true; e_insert := true |}).
  exists [(Start, good); (Resolved true, good); (Run, bad)]. 
  assert (R : reached [(Start, good); (Resolved true, good); (Run, bad)]) by (vm_compute; intuition discriminate).
  split; [exact R|]. split; [reflexivity|]. split; [reflexivity|].
  intros h2 E H. apply reached_app in H. destruct H as [_ O]. eapply stuck_for_ever; eauto; [apply reached_inv; exact R|].
  vm_compute. repeat split; auto.
Qed.
Print Assumptions C40_retries_refuted.
(** Another way: closed while it waits and started again at once, when the resolver cannot be started: the late close event
    cancels the new timer. *)
Theorem C40_cancelled_refuted : exists h, reached h /\ started (snd (run init h)) = true /\ is_attached false (outs (snd (run init h))) = false /\
  forallb (fun m => e_create (snd m)) h = true /\
  forall h2, forallb environment h2 = true -> reached (h ++ h2) -> existsb tries (outs (snd (run (fst (run init h)) h2))) = false.
Proof.
  set (bad := {| e_dns := false; e_create := true; e_start := true; e_sct := true; e_end := true; e_insert := true |}).
  set (h := goods (failing ++ [Close Disable]) ++ [(Restart, bad); (Run, good)]).
  exists h. assert (R : reached h) by (vm_compute; intuition discriminate).
  split; [exact R|]. split; [reflexivity|]. split; [reflexivity|]. split; [reflexivity|].
  intros h2 E H. apply reached_app in H. destruct H as [_ O]. eapply stuck_for_ever; eauto; [apply reached_inv; exact R|].
  vm_compute. repeat split; auto.
Qed.
Print Assumptions C40_cancelled_refuted.
(** When memory suffices to start the resolver and connections, something is outstanding whenever the attacher is started and not attached. *)
Theorem C40_outstanding_partial : forall h, reached h -> forallb memory h = true -> started (snd (run init h)) = true ->
  is_attached false (events (snd (run init h))) = false -> outstanding (fst (run init h)) (world_of (snd (run init h))).
Proof.
  intros h H M S A. apply trying_outstanding; [apply reached_inv, H|apply reached_queue; auto|]. apply is_trying; auto.
  destruct (turns_fold h H) as [_ T]. rewrite A in T. unfold attached in T. intros X. rewrite X in T. discriminate.
Qed.
Print Assumptions C40_outstanding_partial.
(** It leads to the next attempt: after a bounded number of events there has been one, in whatever order they come, and the events to get there may all happen. *)
Theorem C40_retries_partial : forall h, reached h -> forallb memory h = true -> started (snd (run init h)) = true ->
  is_attached false (events (snd (run init h))) = false ->
  (exists n, forall h2, reached (h ++ h2) -> forallb environment h2 = true -> forallb memory h2 = true -> n < reactions (fst (run init h)) h2 ->
     existsb tries (outs (snd (run (fst (run init h)) h2))) = true) /\
  (exists h2, reached (h ++ h2) /\ forallb environment h2 = true /\ existsb tries (outs (snd (run (fst (run init h)) h2))) = true).
Proof.
  intros h H M S A. assert (T : trying (fst (run init h))).
  { apply is_trying; auto. destruct (turns_fold h H) as [_ T]. rewrite A in T. unfold attached in T. intros X. rewrite X in T. discriminate. }
  pose proof (reached_inv h H) as I. pose proof (reached_queue h H M) as Q. split.
  - exists (rank (fst (run init h)) (world_of (snd (run init h)))). intros h2 O E2 M2 R. apply reached_app in O. eapply bounded_reactions; eauto. apply O.
  - destruct (next_try _ _ _ (le_n _) I Q T) as (h2 & E2 & O & X). exists h2. repeat split; auto. apply reached_app. auto.
Qed.
Print Assumptions C40_retries_partial.
Example C40_ex : let h := goods (attaching ++ [KeepAliveLost; Dtls 0 DtlsClosed]) in reached h /\ forallb memory h = true /\
  started (snd (run init h)) = true /\ is_attached false (events (snd (run init h))) = false /\ p_timer (fst (run init h)) = true.
Proof. split; [vm_compute; intuition discriminate|]. repeat split; vm_compute; reflexivity. Qed.

(** C41: OK while attached means that every token which was added is in an upload which the server has acknowledged on this connection. *)
Theorem C41_synchronized : forall (h : list move) e t x, reached (h ++ [(Synchronized, e)]) -> snd (run init (h ++ [(Synchronized, e)])) = t ++ [x] ->
  In (Return Ok) (snd x) -> is_attached false (outs t) = true -> incl (added t) (w_acked (world_of t)).
Proof. exact synchronized. Qed.
Print Assumptions C41_synchronized.
Definition uploads : list op := [AddToken 1; Start; Resolved true; Run; Dtls 0 Handshake; StartAnswer Accept; AddToken 2; UploadAnswer true; EndAnswer true; UploadAnswer true].
Example C41_ex : let h := goods (uploads ++ [Synchronized]) in reached h /\ is_attached false (outs (snd (run init (goods uploads)))) = true /\
  added (snd (run init (goods uploads))) = [1; 2] /\ last (map snd (snd (run init h))) [] = [Return Ok].
Proof. split; [|repeat split; vm_compute; reflexivity]. vm_compute. repeat split; eauto; try discriminate; try (right; split; [discriminate|]; eauto). Qed.

(** No history makes the attacher use a connection or a host name which does not exist. *)
Theorem C40_no_crash : forall h, reached h -> ~ In Crash (outs (snd (run init h))).
Proof. exact no_crash. Qed.
Print Assumptions C40_no_crash.
