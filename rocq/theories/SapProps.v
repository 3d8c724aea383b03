(** C36: futures of the stream API. *)
From Coq Require Import List Bool Arith Lia.
From Verif Require Import StrModel StrSpec StrProofs StrData SapModel SapSpec SapProofs SapMore.
Import ListNotations.

(** Missing in the theorems with the suffix: histories in which the stream is closed again before the future of the close before is resolved, see the two theorems at the end. *)
Theorem C36_at_most_once_partial : forall h f, proper h -> patient h -> resolved f (snd (play start h)) <= 1 /\ (~ In f (futures h) -> resolved f (snd (play start h)) = 0).
Proof.
  intros h f P PA. pose proof (g_count _ _ _ (reach_good h P PA) f) as C. pose proof (occ_nodup f _ P) as N. split; [lia|]. intros X. assert (occ f (futures h) = 0) by (destruct (Nat.eq_dec (occ f (futures h)) 0) as [Z|Z]; [exact Z|]; destruct X; apply in_occ; lia). lia.
Qed.
Print Assumptions C36_at_most_once_partial.
Theorem C36_no_crash_partial : forall h, proper h -> patient h -> ~ In Crash (replies (snd (play start h))).
Proof. intros h P PA. apply (g_crash _ _ _ (reach_good h P PA)). Qed.
Print Assumptions C36_no_crash_partial.
(** Once the stream is aborted or its connection is closed, and the event queue has run, every future has been resolved once: also those of operations begun after it. *)
Theorem C36_exactly_once_partial : forall h v f, proper h -> patient h -> existsb ends h = true -> In f (futures h) -> resolved f (snd (play start (h ++ drain v))) = 1.
Proof.
  intros h v f P PA E I. destruct (drained h v P PA E) as (P' & PA' & F & Z). pose proof (g_count _ _ _ (reach_good _ P' PA') f) as C. rewrite Z, occ_nil, F in C. pose proof (occ_nodup f _ P). apply occ_in in I. lia.
Qed.
Print Assumptions C36_exactly_once_partial.
(** An operation which the stream has completed is resolved, with the code of the stream, when the event queue runs. *)
Theorem C36_code_partial : forall h v k f c, proper h -> patient h -> unresolved k f (snd (play start h)) -> k_posted (p_slot (fst (play start h)) k) = true -> last (map Some (codes k (snd (play start h)))) None = Some c ->
  snd (act v (Fire k false) (fst (play start h))) = [Resolved f c].
Proof.
  intros h v k f c P PA U PO LA. pose proof (reach_good h P PA) as G. pose proof (unresolved_pend h k f P PA U) as I. set (p := fst (play start h)) in *. set (t := snd (play start h)) in *.
  destruct (g_life _ _ _ G k) as (x & L & F). destruct x; [destruct L as [(_ & X & _) _]; congruence|destruct L as [(_ & X & _) _]; congruence|]. destruct F as [_ F]. unfold latest in F. rewrite F in LA. injection LA as ->.
  destruct (good_fire h p t (Fire k false, v) k c G eq_refl L) as (_ & g & E1 & E2). unfold act. rewrite (g_dead _ _ _ G), PO. fold (unposted k p). rewrite E2.
  unfold pend_k in I. destruct (k_live (p_slot p k)); [|destruct I]. rewrite E1 in I. destruct I as [->|[]]. reflexivity.
Qed.
Print Assumptions C36_code_partial.
(** The stream completes an operation: the event queue has it. *)
Theorem C36_posted : forall h m k c, In (Done k c) (snd (act (snd m) (fst m) (fst (play start h)))) -> k_posted (p_slot (fst (play start (h ++ [m]))) k) = true.
Proof. intros h m k c I. rewrite play_snoc. cbn [fst]. eapply act_done; eauto. Qed.
Print Assumptions C36_posted.
(** A second operation of the kind is answered at once, and nothing else happens. *)
Theorem C36_in_progress_partial : forall h k f f' m, k <> KClose -> proper h -> patient h -> unresolved k f (snd (play start h)) -> future1 m = Some (k, f') -> act (snd m) (fst m) (fst (play start h)) = (fst (play start h), [Resolved f' InProgress]).
Proof.
  intros h k f f' m N P PA U F. pose proof (reach_good h P PA) as G. pose proof (unresolved_pend h k f P PA U) as I. unfold pend_k in I. destruct (k_live _); [|destruct I]. destruct (p_fut (fst (play start h)) k) eqn:E; [|destruct I].
  unfold act. rewrite (g_dead _ _ _ G). destruct m as [a v]. cbn [fst snd] in *. destruct a as [g|all g z|g z|g| |[x|]|kk st]; inversion F; subst; unfold begin; try congruence; rewrite E; reflexivity.
Qed.
Print Assumptions C36_in_progress_partial.
(** A read or a write whose predecessor is resolved is given to the stream. *)
Theorem C36_next_partial : forall h k f m, k = KRead \/ k = KWrite -> proper h -> patient h -> (forall g, ~ unresolved k g (snd (play start h))) -> future1 m = Some (k, f) ->
  p_core (fst (act (snd m) (fst m) (fst (play start h)))) = fst (step (snd m) (match fst m with ARead all _ n => Read all (id KRead) n | AWrite _ n => Write (id KWrite) n | _ => Stop end) (p_core (fst (play start h)))).
Proof.
  intros h k f m K P PA U F. pose proof (reach_good h P PA) as G. assert (E : p_fut (fst (play start h)) k = None).
  { destruct (g_life _ _ _ G k) as (x & L & FI). destruct x; [apply FI; exact K| |]; (destruct (p_fut (fst (play start h)) k) as [g|] eqn:E; [|reflexivity]); destruct (U g); apply waits; auto; unfold pend_k; destruct L as [(L & _) _]; rewrite L, E; left; reflexivity. }
  unfold act. rewrite (g_dead _ _ _ G). destruct m as [a v]. cbn [fst snd] in *. destruct a as [g|all g z|g z|g| |[x|]|kk st]; inversion F; subst; try (destruct K; discriminate); unfold begin; rewrite E, core_core; reflexivity.
Qed.
Print Assumptions C36_next_partial.

Definition quiet : env := {| n_read := (SOk, 0); n_write := (SOk, 0); n_close := SOk |}.
Definition shut : env := {| n_read := (SOk, 0); n_write := (SOk, 0); n_close := SClosed |}.
(** The stream is closed twice: the second future is resolved with OPERATION_IN_PROGRESS, the first one never, and when the close is done the SDK uses an event which it has destroyed. *)
Theorem C36_lost_refuted : exists h, proper h /\ (exists f, In f (futures h) /\ existsb ends h = true /\ resolved f (snd (play start (h ++ drain quiet))) = 0) /\ In Crash (replies (snd (play start h))).
Proof.
  exists [(AAccept 0, quiet); (Under (Some Opened), quiet); (Fire KAccept false, quiet); (AClose 1, quiet); (AClose 2, quiet); (Fire KClose false, quiet); (AAbort, quiet)].
  split; [|split; [exists 1; split; [|split]|]]; [unfold proper; cbn; repeat constructor; cbn; intuition discriminate|cbn; auto|reflexivity|reflexivity|vm_compute; auto 10].
Qed.
Print Assumptions C36_lost_refuted.
(** A future is resolved twice. *)
Theorem C36_twice_refuted : exists h f, proper h /\ resolved f (snd (play start h)) = 2.
Proof.
  exists [(AClose 1, shut); (AClose 2, shut); (AClose 3, shut); (Fire KClose true, shut); (Fire KClose true, shut)], 3. split; [unfold proper; cbn; repeat constructor; cbn; intuition discriminate|vm_compute; reflexivity].
Qed.
Print Assumptions C36_twice_refuted.
(** A stream can be accepted once: a second accept is rejected although the first one is resolved. *)
Theorem C36_accept_refuted : exists h f m, proper (h ++ [m]) /\ (forall g, ~ unresolved KAccept g (snd (play start h))) /\ future1 m = Some (KAccept, f) /\ snd (act (snd m) (fst m) (fst (play start h))) = [Resolved f InProgress].
Proof.
  exists [(AAccept 0, quiet); (Under (Some Opened), quiet); (Fire KAccept false, quiet)], 1, (AAccept 1, quiet). split; [unfold proper; cbn; repeat constructor; cbn; intuition discriminate|]. split; [|split; reflexivity].
  intros g [(m & l & I & F) R]. cbn in I. destruct I as [X|[X|[X|[]]]]; inversion X; subst; inversion F; subst. vm_compute in R. discriminate.
Qed.
Print Assumptions C36_accept_refuted.

Definition some : env := {| n_read := (SOk, 4); n_write := (SOk, 2); n_close := SOk |}.
Definition story : list doing := [(AAccept 0, quiet); (Under (Some Opened), quiet); (Fire KAccept false, quiet); (ARead true 1 8, some); (AWrite 2 5, some); (ARead false 3 8, some); (Under (Some DataWrite), quiet); (Under (Some DataReady), some)].
Lemma story_patient : patient story.
Proof.
  intros h1 h2 m f E F f' _. assert (I : In m story) by (rewrite E; apply in_app_iff; right; left; reflexivity). cbn in I. repeat (destruct I as [<-|I]; [discriminate|]). destruct I.
Qed.
Lemma story_proper : proper story.
Proof. unfold proper. cbn. repeat constructor; cbn; intuition discriminate. Qed.
Example C36_ex : proper story /\ patient story /\ resolved 0 (snd (play start story)) = 1 /\ resolved 3 (snd (play start story)) = 1 /\ unresolved KRead 1 (snd (play start story)) /\ unresolved KWrite 2 (snd (play start story)) /\ codes KRead (snd (play start story)) = [Ok] /\ k_posted (p_slot (fst (play start story)) KRead) = true.
Proof.
  split; [exact story_proper|]. split; [exact story_patient|]. split; [vm_compute; reflexivity|]. split; [vm_compute; reflexivity|]. split; [|split; [|split; vm_compute; reflexivity]].
  - split; [|vm_compute; reflexivity]. exists (ARead true 1 8, some). eexists. split; [cbn; do 3 right; left; reflexivity|reflexivity].
  - split; [|vm_compute; reflexivity]. exists (AWrite 2 5, some). eexists. split; [cbn; do 4 right; left; reflexivity|reflexivity].
Qed.
Example C36_ex_end : patient (story ++ [(AAbort, quiet)]) /\ existsb ends (story ++ [(AAbort, quiet)]) = true /\ futures (story ++ [(AAbort, quiet)]) = [0; 1; 2; 3].
Proof.
  split; [|split; reflexivity]. intros h1 h2 m f E F f' _. assert (I : In m (story ++ [(AAbort, quiet)])) by (rewrite E; apply in_app_iff; right; left; reflexivity). cbn in I. repeat (destruct I as [<-|I]; [discriminate|]). destruct I.
Qed.
(** A stream which is closed twice in turn. *)
Example C36_ex_close : patient [(AClose 1, shut); (Fire KClose false, shut); (AClose 2, shut)].
Proof.
  intros h1 h2 m f E F f' [(m' & l & I & F') R].
  destruct h1 as [|a [|b [|c [|]]]]; inversion E; subst; try discriminate.
  - destruct I.
  - cbn in I. destruct I as [I|[I|[]]]; inversion I; subst; inversion F'; subst. vm_compute in R. discriminate.
Qed.
