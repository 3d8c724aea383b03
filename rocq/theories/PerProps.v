(** * C98: what the TCP tunnel device stores survives restarts and power loss *)
From Coq Require Import String Ascii List Bool Arith NArith ZArith Lia.
From Verif Require Import JsonModel JsonProofs IamPolicyModel IamStateModel IamStateSpec IamStateProofs IamStateInv IamStateFrame IamStateReload
  IamJsonModel IamJsonSpec IamJsonProofs IamJsonProps IamStateProps
  PerModel PerSpec PerProofs PerProofs2 PerProofs3 PerProofs4 PerProofs5 PerProofs6 PerProofs7.
Import ListNotations.
Open Scope string_scope.
Open Scope list_scope.
Open Scope nat_scope.

(** ** The examples *)
Definition all_of : rres := {| r_size := true; r_mem := true; r_open := true; r_len := 2000 |}.
Definition start_with (ws wk : wres) : boot_in :=
  {| b_before := true; b_conf := ex_conf; b_rs := all_of; b_ws := ws; b_middle := true; b_new := Some "key"; b_wk := wk;
     b_rk := all_of; b_ext := ex_x; b_after := true |}.
Definition fine : wres := WTaken 2000.
Definition ex_keys (t : string) : option N := if String.eqb (PerModel.take 3 t) "key" then Some 5%N else None.
Definition fresh : dev := {| d_state := Some (state_dump open_state); d_key := None; d_run := None |}.
Definition pair : event := Request conn_a (RqPairLocalOpen (PlOk (CbStr "eve", CbNull))).
Definition create : event := Request conn_a (RqCreateUser (PlOk (CbStr "bob"))).
Definition odd_fp : event := Request conn_a (RqAddFp "bob" "not-a-fingerprint" (PlOk CbNull)).
Definition go := run ex_strtod ex_keys ex_env.
Definition at_ (l : list op) : dev := match go fresh l with Some (d, _) => d | None => fresh end.

Example ex_sane : strtod_sane ex_strtod.
Proof. intros [|c s] z k H; [discriminate|]. injection H as _ <-. cbn. lia. Qed.
Example ex_keys_sane : keys_sane ex_keys.
Proof.
  intros t t' f [u ->] H. unfold ex_keys in *. destruct t as [|a [|b [|c t]]]; cbn in *;
    try (repeat match type of H with context [Ascii.eqb ?p ?q] => destruct (Ascii.eqb p q); cbn in H end; discriminate H).
  exact H.
Qed.
Ltac cs := unfold c_string; vm_compute; let H := fresh in intros H; repeat destruct H as [H|H]; try discriminate H; exact H.
Example ex_c : forall w, c_op (Serve ex_x pair w) /\ c_op (Serve ex_x create w) /\ c_op (Serve ex_x odd_fp w).
Proof. intros w. split; [|split]; (split; [cs|split; [cs|]]); cbn; auto. split; [cs|exact I]. Qed.

(** ** Whole states *)

(** When the device starts, after any history of starts, stops, power losses,
    failing writes and short reads, its users and settings are those of one moment
    of that history, or those of the file it was first given; never a part of one
    or a mixture. *)
Theorem C98_whole_state : forall L K E d0 ops d os b d' os' p, strtod_sane L -> reads_versions L ->
  d_run d0 = None -> c_ops ops -> run L K E d0 ops = Some (d, os) -> d_run d = None ->
  step L K E d (Boot b) = Some (d', os') -> d_run d' = Some p ->
  exists o, had L K E d0 ops o /\ same_state (named o) (i_state (p_iam p)).
Proof.
  intros L K E d0 ops d os b d' os' p HL HR H0 Hc Hr Hn Hs Hp. cbn [step] in Hs. rewrite Hn in Hs. injection Hs as Hs.
  destruct (history_inv _ _ _ _ _ _ _ HL HR H0 Hc Hr) as [Hh _].
  destruct (boot_history L K E b d0 ops _ _ _ HL HR Hh Hs Hn) as [_ B]. destruct (B p Hp) as (o & A1 & _ & A2). eauto.
Qed.
Print Assumptions C98_whole_state.

Example C98_ex_whole : exists d os d' p,
  go fresh [Boot (start_with fine fine); Serve ex_x pair (WLoss 20); Boot (start_with fine fine)] = Some (d, os) /\
  d_run d = None /\ os = [Started; Answered 201%N; Refused] /\
  go fresh [Boot (start_with fine fine); Serve ex_x pair fine; Stop; Boot (start_with fine fine)] = Some (d', [Started; Answered 201%N; Started]) /\
  d_run d' = Some p /\ map u_name (st_users (i_state (p_iam p))) = ["eve"].
Proof. do 4 eexists. repeat (split; [vm_compute; reflexivity|]). vm_compute. reflexivity. Qed.

(** A state file which is a proper beginning of a saved one is refused, and
    nothing is changed. *)
Theorem C98_broken_file_refused : forall L K E s t b d, strtod_sane L -> reads_versions L -> proper_state s ->
  begins t (state_dump s) -> t <> state_dump s -> d_state d = Some t -> d_run d = None ->
  step L K E d (Boot b) = Some (d, [Refused]).
Proof. intros. cbn [step]. rewrite H5. f_equal. eapply boot_truncated; eauto. Qed.
Print Assumptions C98_broken_file_refused.

Example C98_ex_broken : begins "{""Version"":2" (state_dump open_state) /\ "{""Version"":2" <> state_dump open_state.
Proof. split; [eexists; vm_compute; reflexivity|vm_compute; discriminate]. Qed.

(** ** The latest state *)

(** An event changed the state and the state file could be opened: whatever
    happened to the writing, a device which starts later, without other events
    between, has exactly that state. *)
Theorem C98_latest_partial : forall L K E d0 ops d1 os1 p x e w d2 os2 i' more d3 os3 q,
  strtod_sane L -> reads_versions L -> d_run d0 = None -> c_ops (ops ++ [Serve x e w]) ->
  run L K E d0 ops = Some (d1, os1) -> d_run d1 = Some p ->
  step L K E d1 (Serve x e w) = Some (d2, os2) ->
  IamStateModel.step E (p_iam p) (x, op_of e) = Some i' -> i_state i' <> i_state (p_iam p) ->
  w <> WNoOpen -> w <> WLossBefore ->
  Forall starts_again more -> run L K E d2 more = Some (d3, os3) -> d_run d3 = Some q ->
  same_state (i_state i') (i_state (p_iam q)).
Proof.
  intros L K E d0 ops d1 os1 p x e w d2 os2 i' more d3 os3 q HL HR H0 Hc Hr Hp Hs Hi Hn W1 W2 Hm Hr3 Hq.
  apply Forall_app in Hc. destruct Hc as [Hc1 Hc2]. inversion Hc2 as [|? ? Hc3 _]; subst.
  destruct (history_inv _ _ _ _ _ _ _ HL HR H0 Hc1 Hr) as [_ Hpi].
  assert (Hpi' : proper_state (i_state i')) by (eapply pi_serve; eauto).
  assert (Hnm : has_name d1) by (eapply run_name; eauto; intros p' Hp'; congruence).
  assert (Hnm2 : has_name d2) by (eapply step_name; eauto).
  assert (Hnm3 : has_name d3) by (eapply run_name; eauto).
  assert (Hni : named (i_state i') = i_state i') by (apply has_named; eapply friendly_step; eauto).
  pose proof (changed_announced _ _ _ _ _ Hi Hn) as Hcb.
  destruct (serve_inv _ _ _ _ _ _ _ _ _ _ Hp Hs) as (j & Hj & _ & Hrun & _ & Hw).
  rewrite Hi in Hj. injection Hj as <-. specialize (Hw Hcb).
  assert (Hf : exists f, d_state d2 = Some f /\ of_state (i_state i') f).
  { destruct w; cbn in Hw; try contradiction; eexists; (split; [exact Hw|left; apply take_begins]). }
  destruct Hf as (f & Hf & Hof).
  destruct (restarts_of_state L K E more d2 d3 os3 (i_state i') f HL HR Hpi' Hm Hr3 Hf Hof) as [_ B].
  { intros p' Hp'. destruct Hrun as [E'|E']; rewrite E' in Hp'; [discriminate|]. injection Hp' as <-. cbn. rewrite Hni. apply same_refl. }
  specialize (B q Hq). rewrite Hni, (has_named _ (Hnm3 q Hq)) in B. exact B.
Qed.
Print Assumptions C98_latest_partial.

(** A file which is not opened keeps what it had: the state before. *)
Theorem C98_not_opened_unchanged : forall L K E d x e w d2 os2, w = WNoOpen \/ w = WLossBefore ->
  step L K E d (Serve x e w) = Some (d2, os2) -> d_state d2 = d_state d /\ d_key d2 = d_key d.
Proof.
  intros L K E d x e w d2 os2 Hw H. destruct (d_run d) as [p|] eqn:Hp; cbn [step] in H; rewrite Hp in H; [|injection H as <- <-; auto].
  destruct (IamStateModel.step E (p_iam p) (x, op_of e)) as [i'|]; [|discriminate].
  destruct (Nat.ltb _ _); [|injection H as <- <-; auto].
  destruct Hw as [-> | ->]; cbn in H; injection H as <- <-; auto.
Qed.
Print Assumptions C98_not_opened_unchanged.

Example C98_ex_latest : let d1 := at_ [Boot (start_with fine fine)] in exists p i' d2 os2 d3 q,
  d_run d1 = Some p /\ IamStateModel.step ex_env (p_iam p) (ex_x, op_of pair) = Some i' /\
  length (st_users (i_state i')) = 1 /\ length (st_users (i_state (p_iam p))) = 0 /\
  step ex_strtod ex_keys ex_env d1 (Serve ex_x pair fine) = Some (d2, os2) /\
  go d2 [Stop; Boot (start_with fine fine)] = Some (d3, [Started]) /\ d_run d3 = Some q.
Proof. do 6 eexists. repeat (split; [vm_compute; reflexivity|]). vm_compute. reflexivity. Qed.

(** ** Starting again *)

(** The state was saved completely, no event was one of those [reload_safe]
    excludes, and the next start meets no shortage: the device starts, with that
    state and the same identity. *)
Theorem C98_starts_again_partial : forall L K E d0 ops d1 os1 p x e w d2 os2 i' b,
  strtod_sane L -> reads_versions L -> keys_sane K -> d_run d0 = None ->
  c_ops (ops ++ [Serve x e w]) -> safe_ops L K E d0 (ops ++ [Serve x e w]) ->
  run L K E d0 ops = Some (d1, os1) -> d_run d1 = Some p ->
  step L K E d1 (Serve x e w) = Some (d2, os2) ->
  IamStateModel.step E (p_iam p) (x, op_of e) = Some i' -> i_state i' <> i_state (p_iam p) ->
  complete w (state_dump (i_state i')) -> good_start b d2 ->
  exists q, run L K E d2 [Stop; Boot b] = Some (set_run (Some q) d2, [Started]) /\
    same_state (i_state i') (i_state (p_iam q)) /\ K (p_key q) = K (p_key p).
Proof.
  intros L K E d0 ops d1 os1 p x e w d2 os2 i' b HL HR HK H0 Hc Hsafe Hr Hp Hs Hi Hn Hw Hb.
  apply Forall_app in Hc. destruct Hc as [Hc1 Hc2]. inversion Hc2 as [|? ? Hc3 _]; subst.
  destruct (history_inv _ _ _ _ _ _ _ HL HR H0 Hc1 Hr) as [_ Hpi].
  assert (Hpi' : proper_state (i_state i')) by (eapply pi_serve; eauto).
  assert (Hnm : has_name d1) by (eapply run_name; eauto; intros p' Hp'; congruence).
  assert (Hfr : st_friendly (i_state i') <> None) by (eapply friendly_step; eauto).
  assert (Hv1 : valid_run d1).
  { eapply run_valid; eauto; [eapply safe_app; eauto|]. intros p' Hp'. congruence. }
  pose proof (safe_app_r _ _ _ _ _ _ _ _ Hsafe Hr) as [Hso _].
  destruct (Hv1 p Hp) as [V [D1 D2]].
  assert (V' : vi i') by (eapply vi_step; eauto; now apply Hso).
  destruct (step_limits _ _ _ _ _ Hi) as [S1 S2]. unfold vi in V'. rewrite S1, S2, D1, D2 in V'.
  destruct (run_key L K E ops d0 d1 os1 Hr) as [_ Hk1]; [intros p' Hp'; congruence|].
  destruct (Hk1 p Hp) as (k & Hk & Hbk & HKp).
  pose proof (changed_announced _ _ _ _ _ Hi Hn) as Hcb.
  destruct (serve_inv _ _ _ _ _ _ _ _ _ _ Hp Hs) as (j & Hj & Hkey & Hrun & _ & Hfile).
  rewrite Hi in Hj. injection Hj as <-. specialize (Hfile Hcb).
  destruct Hw as (n & -> & Hlen). cbn [write_file fst] in Hfile. rewrite take_all in Hfile by exact Hlen.
  assert (HKk : K (cstr k) = K (p_key p)).
  { destruct (K (p_key p)) as [fp|] eqn:E1; [|contradiction]. eapply HK; eauto. }
  destruct (boot_good L K b (set_run None d2) (i_state i') k) as (q & Q1 & Q2 & Q3); auto.
  - cbn. congruence.
  - congruence.
  - exists q. split; [|split; [exact Q2|congruence]]. cbn [run step]. cbn [set_run d_run].
    change {| d_state := d_state d2; d_key := d_key d2; d_run := None |} with (set_run None d2). rewrite Q1. reflexivity.
Qed.
Print Assumptions C98_starts_again_partial.

Example C98_ex_starts : let d1 := at_ [Boot (start_with fine fine)] in
  safe_ops ex_strtod ex_keys ex_env fresh ([Boot (start_with fine fine)] ++ [Serve ex_x pair fine]) /\
  exists d2 os2 p i', d_run d1 = Some p /\ step ex_strtod ex_keys ex_env d1 (Serve ex_x pair fine) = Some (d2, os2) /\
  IamStateModel.step ex_env (p_iam p) (ex_x, op_of pair) = Some i' /\
  complete fine (state_dump (i_state i')) /\ good_start (start_with fine fine) d2.
Proof.
  assert (Hlt : forall n, Nat.leb n 2000 = true -> n <= 2000) by (intros n; apply Nat.leb_le).
  cbv zeta. split.
  - cbn [app safe_ops]. split; [exact I|]. intros d' os H. split; [|auto]. intros p Hp. vm_compute in H. injection H as <- <-.
    injection Hp as <-. split; [intros f Hf; injection Hf as <-; reflexivity|vm_compute; reflexivity].
  - do 4 eexists. split; [vm_compute; reflexivity|]. split; [vm_compute; reflexivity|]. split; [vm_compute; reflexivity|]. split.
    + exists 2000. split; [reflexivity|]. apply Hlt. vm_compute. reflexivity.
    + assert (R : forall f, Nat.leb (String.length f) 2000 = true -> reads_all all_of (Some f)).
      { intros f Hf. split; [reflexivity|]. split; [reflexivity|]. split; [reflexivity|]. intros t Ht. injection Ht as <-. now apply Hlt. }
      split; [reflexivity|]. split; [reflexivity|]. split; [reflexivity|]. split; [split; reflexivity|].
      split; [|split; [|reflexivity]]; apply R; vm_compute; reflexivity.
Qed.

(** ** The identity *)

(** The device has one identity: whenever it runs, its key has the fingerprint it
    had before. *)
Theorem C98_same_identity : forall L K E d0 ops d1 os1 more d2 os2 p q, keys_sane K -> d_run d0 = None ->
  run L K E d0 ops = Some (d1, os1) -> d_run d1 = Some p ->
  run L K E d1 more = Some (d2, os2) -> d_run d2 = Some q ->
  K (p_key p) <> None /\ K (p_key q) = K (p_key p).
Proof.
  intros L K E d0 ops d1 os1 more d2 os2 p q HK H0 H1 Hp H2 Hq.
  destruct (run_key L K E ops d0 d1 os1 H1) as [_ K1]; [intros p' Hp'; congruence|].
  destruct (run_key L K E more d1 d2 os2 H2 K1) as [A K2].
  destruct (K1 p Hp) as (k & B1 & B2 & B3). destruct (K2 q Hq) as (k' & C1 & C2 & C3). rewrite (A k B1) in C1. injection C1 as <-.
  split; [exact B3|]. eapply same_key; eauto.
Qed.
Print Assumptions C98_same_identity.

Example C98_ex_identity : exists d1 p d2 q,
  go fresh [Boot (start_with fine fine)] = Some (d1, [Started]) /\ d_run d1 = Some p /\
  go d1 [Stop; Boot (start_with fine fine)] = Some (d2, [Started]) /\ d_run d2 = Some q /\ ex_keys (p_key q) = Some 5%N.
Proof. do 4 eexists. repeat (split; [vm_compute; reflexivity|]). vm_compute. reflexivity. Qed.

(** ** What does not hold *)

(** The file is emptied before the new state is written: a power loss in a save
    leaves a device which never starts again. *)
Theorem C98_power_loss_refuted : exists L K E d0 ops d os, strtod_sane L /\ reads_versions L /\ keys_sane K /\ c_ops ops /\
  d_run d0 = None /\ run L K E d0 ops = Some (d, os) /\ In Started os /\
  forall more d' os', run L K E d more = Some (d', os') -> ~ In Started os'.
Proof.
  destruct (run ex_strtod ex_keys ex_env fresh [Boot (start_with fine fine); Serve ex_x pair (WLoss 0)]) as [[d os]|] eqn:H; [|vm_compute in H; discriminate].
  exists ex_strtod, ex_keys, ex_env, fresh, [Boot (start_with fine fine); Serve ex_x pair (WLoss 0)], d, os.
  split; [exact ex_sane|]. split; [exact ex_strtod_ok|]. split; [exact ex_keys_sane|].
  split; [constructor; [exact I|constructor; [exact (proj1 (ex_c _))|constructor]]|].
  split; [reflexivity|].
  split; [exact H|].
  assert (Hd : d_state d = Some "" /\ d_run d = None /\ In Started os).
  { vm_compute in H. injection H as <- <-. split; [reflexivity|]. split; [reflexivity|]. left. reflexivity. }
  destruct Hd as (D1 & D2 & D3). split; [exact D3|]. intros more d' os' Hr.
  refine (proj2 (stuck_truncated ex_strtod ex_keys ex_env empty_state "" more d d' os' ex_sane ex_strtod_ok empty_proper _ _ D1 D2 Hr)).
  - eexists. reflexivity.
  - vm_compute. discriminate.
Qed.
Print Assumptions C98_power_loss_refuted.

(** Nobody looks at the result of closing the file: when the disk is full the
    change is answered with success, no message is printed, and the device never
    starts again.  No power is lost. *)
Theorem C98_disk_full_refuted : exists L K E d0 ops d os, strtod_sane L /\ reads_versions L /\ keys_sane K /\ c_ops ops /\
  d_run d0 = None /\ run L K E d0 (ops ++ [Stop]) = Some (d, os) /\ os = [Started; Answered 201%N] /\
  forall more d' os', run L K E d more = Some (d', os') -> ~ In Started os'.
Proof.
  destruct (run ex_strtod ex_keys ex_env fresh ([Boot (start_with fine fine); Serve ex_x pair (WTaken 0)] ++ [Stop])) as [[d os]|] eqn:H; [|vm_compute in H; discriminate].
  exists ex_strtod, ex_keys, ex_env, fresh, [Boot (start_with fine fine); Serve ex_x pair (WTaken 0)], d, os.
  split; [exact ex_sane|]. split; [exact ex_strtod_ok|]. split; [exact ex_keys_sane|].
  split; [constructor; [exact I|constructor; [exact (proj1 (ex_c _))|constructor]]|].
  split; [reflexivity|].
  split; [exact H|].
  assert (Hd : d_state d = Some "" /\ d_run d = None /\ os = [Started; Answered 201%N]).
  { vm_compute in H. injection H as <- <-. repeat split. }
  destruct Hd as (D1 & D2 & D3). split; [exact D3|]. intros more d' os' Hr.
  refine (proj2 (stuck_truncated ex_strtod ex_keys ex_env empty_state "" more d d' os' ex_sane ex_strtod_ok empty_proper _ _ D1 D2 Hr)).
  - eexists. reflexivity.
  - vm_compute. discriminate.
Qed.
Print Assumptions C98_disk_full_refuted.

(** The answer is given before the state is saved: a change which was answered
    with success is gone when power is lost at that moment. *)
Theorem C98_promise_refuted : exists L K E d0 ops x e d1 p i' d2 os2 b d3 q, strtod_sane L /\ reads_versions L /\ keys_sane K /\
  run L K E d0 ops = Some (d1, [Started]) /\ d_run d1 = Some p /\
  IamStateModel.step E (p_iam p) (x, op_of e) = Some i' /\
  run L K E d1 [Serve x e WLossBefore] = Some (d2, os2) /\ In (Answered 201%N) os2 /\
  run L K E d2 [Boot b] = Some (d3, [Started]) /\ d_run d3 = Some q /\
  ~ same_state (i_state i') (i_state (p_iam q)) /\ same_state (i_state (p_iam p)) (i_state (p_iam q)).
Proof.
  exists ex_strtod, ex_keys, ex_env, fresh, [Boot (start_with fine fine)], ex_x, pair. do 5 eexists. exists (start_with fine fine). do 2 eexists.
  split; [exact ex_sane|]. split; [exact ex_strtod_ok|]. split; [exact ex_keys_sane|].
  split; [vm_compute; reflexivity|]. split; [vm_compute; reflexivity|]. split; [vm_compute; reflexivity|].
  split; [vm_compute; reflexivity|]. split; [left; reflexivity|]. split; [vm_compute; reflexivity|]. split; [vm_compute; reflexivity|]. split.
  - intros [_ H]. cbn in H. inversion H.
  - split; [reflexivity|]. cbn. constructor.
Qed.
Print Assumptions C98_promise_refuted.

(** A request which adds a fingerprint of another length is answered with success
    and saved; the device never starts again.  All writes are complete. *)
Theorem C98_odd_fingerprint_refuted : exists L K E d0 ops d os, strtod_sane L /\ reads_versions L /\ keys_sane K /\ c_ops ops /\
  d_run d0 = None /\ run L K E d0 (ops ++ [Stop]) = Some (d, os) /\ os = [Started; Answered 201%N; Answered 204%N] /\
  (forall x e w, In (Serve x e w) ops -> w = WTaken 2000) /\
  (forall t, d_state d = Some t -> String.length t <= 2000) /\
  forall more d' os', run L K E d more = Some (d', os') -> ~ In Started os'.
Proof.
  set (ops := [Boot (start_with fine fine); Serve ex_x create fine; Serve ex_x odd_fp fine]).
  assert (Hcs : c_ops ops).
  { constructor; [exact I|]. constructor; [exact (proj1 (proj2 (ex_c _)))|]. constructor; [exact (proj2 (proj2 (ex_c _)))|constructor]. }
  destruct (run ex_strtod ex_keys ex_env fresh ops) as [[d1 os1]|] eqn:H1; [|vm_compute in H1; discriminate].
  destruct (history_inv _ _ _ fresh _ _ _ ex_sane ex_strtod_ok eq_refl Hcs H1) as [_ Hp].
  destruct (d_run d1) as [p|] eqn:Hrun; [|vm_compute in H1; injection H1 as <- <-; discriminate].
  specialize (Hp p Hrun).
  exists ex_strtod, ex_keys, ex_env, fresh, ops, (set_run None d1), os1.
  split; [exact ex_sane|]. split; [exact ex_strtod_ok|]. split; [exact ex_keys_sane|]. split; [exact Hcs|]. split; [reflexivity|].
  split. { apply run_app. exists d1, os1, []. split; [exact H1|]. split; [reflexivity|now rewrite app_nil_r]. }
  assert (Hall : os1 = [Started; Answered 201%N; Answered 204%N] /\ d_state d1 = Some (state_dump (i_state (p_iam p))) /\
    Nat.leb (String.length (state_dump (i_state (p_iam p)))) 2000 = true /\ st_friendly (i_state (p_iam p)) <> None /\
    validate_state (i_lim iam_init) (i_cats iam_init) (i_state (p_iam p)) = false).
  { vm_compute in H1. injection H1 as <- <-. cbn in Hrun. injection Hrun as <-.
    split; [reflexivity|]. split; [vm_compute; reflexivity|]. split; [vm_compute; reflexivity|]. split; [vm_compute; discriminate|].
    vm_compute. reflexivity. }
  destruct Hall as (A1 & A2 & A3 & A4 & A5). split; [exact A1|]. split.
  { intros x e w [K|[K|[K|[]]]]; [discriminate K|injection K as _ _ <-; reflexivity..]. }
  split. { intros t Ht. cbn in Ht. rewrite A2 in Ht. injection Ht as <-. now apply Nat.leb_le. }
  intros more d' os' Hr. refine (proj2 (stuck_invalid ex_strtod ex_keys ex_env (i_state (p_iam p)) more (set_run None d1) d' os' ex_sane ex_strtod_ok Hp A4 _ A2 eq_refl Hr)).
  intros V. apply vstate_iff in V. rewrite A5 in V. discriminate V.
Qed.
Print Assumptions C98_odd_fingerprint_refuted.

(** A power loss while the private key is made: the device never starts. *)
Theorem C98_first_start_refuted : exists L K E d0 b d os, strtod_sane L /\ reads_versions L /\ keys_sane K /\
  d_run d0 = None /\ d_key d0 = None /\ run L K E d0 [Boot b] = Some (d, os) /\
  (exists b' d' , run L K E d0 [Boot b'] = Some (d', [Started])) /\
  forall more d' os', run L K E d more = Some (d', os') -> ~ In Started os'.
Proof.
  exists ex_strtod, ex_keys, ex_env, fresh, (start_with fine (WLoss 0)).
  destruct (run ex_strtod ex_keys ex_env fresh [Boot (start_with fine (WLoss 0))]) as [[d os]|] eqn:H; [|vm_compute in H; discriminate].
  exists d, os. split; [exact ex_sane|]. split; [exact ex_strtod_ok|]. split; [exact ex_keys_sane|]. split; [reflexivity|]. split; [reflexivity|].
  split; [reflexivity|]. split; [exists (start_with fine fine); eexists; vm_compute; reflexivity|].
  assert (Hd : d_key d = Some "" /\ d_run d = None). { vm_compute in H. injection H as <- <-. split; reflexivity. }
  destruct Hd as [D1 D2]. intros more d' os' Hr.
  refine (proj2 (stuck_key ex_strtod ex_keys ex_env "" more d d' os' _ D1 D2 Hr)).
  intros t [u Hu]. destruct t; [reflexivity|discriminate Hu].
Qed.
Print Assumptions C98_first_start_refuted.
