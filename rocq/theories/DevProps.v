(** Properties of the life of a device: C59, C60, C80. *)
From Coq Require Import String List Bool Arith Lia NArith.
From Verif Require Import DevModel DevSpec DevProofs DevMore DevLife DevConf DevFreeze DevAttach.
Import ListNotations.
Local Open Scope string_scope.
Local Open Scope list_scope.

Definition setup : list op := [SetStr Product "pr-1" false; SetStr Device "de-1" false; SetKey true].
Definition binds : list op := [Bound Ok; Bound Ok; Bound Ok].

(** ** C59 *)
(** Without two starts at the same time every future is resolved at most once, and only if it was given to a call. *)
Theorem C59_at_most_once_partial : forall h, lawful h -> orderly h -> forall f, let t := snd (run init h) in times f (outs t) <= 1 /\ (1 <= times f (outs t) -> In f (futures h)).
Proof.
  intros h L O f t. unfold t. split; [apply at_most_once; assumption|]. intros T. pose proof (reach_count h L O f) as K. destruct (in_dec Nat.eq_dec f (futures h)) as [I|I]; [exact I|]. exfalso.
  assert (Z : calls f h = 0). { unfold calls. clear -I. induction (futures h) as [|g l IH]; [reflexivity|]. cbn. destruct (Nat.eqb_spec f g) as [->|]; [destruct I; left; reflexivity|]. apply IH. intros X. apply I. right. exact X. } lia.
Qed.
Print Assumptions C59_at_most_once_partial.
(** Nothing waits for ever: when the platform has completed what it was asked for, every future has been resolved, exactly once. Left out are two starts at the
    same time, a start after a close, and a stop while client connections are being closed. *)
Theorem C59_exactly_once_partial : forall h c1 c2 c3 c4, lawful h -> orderly h -> one_life h -> calm h -> forall f, In f (futures h) -> times f (outs (snd (run init (h ++ settle c1 c2 c3 c4)))) = 1.
Proof. exact settle_counts. Qed.
Print Assumptions C59_exactly_once_partial.
(** No step of the life of a device finds a future missing. *)
Theorem C59_no_crash : forall h x, In x (snd (run init h)) -> In Crash (snd x) -> fst x = Attempt.
Proof. exact crash_attempts. Qed.
Print Assumptions C59_no_crash.
Definition life : list op := setup ++ [Start 1 Ok] ++ binds ++ [Close 2 true; ConnsClosed; AttachClosed].
Lemma lawful_by : forall h, NoDup (futures h) -> existsb is_stop h = false -> lawful h.
Proof. intros h N S. split; [exact N|]. intros h1 o h2 -> C. rewrite existsb_app in S. apply orb_false_elim in S as [S _]. exact S. Qed.
Lemma one_start : forall h f k l, existsb is_start h = false -> existsb is_start l = false -> (forall h1 g k' h2, h ++ Start f k :: l = h1 ++ Start g k' :: h2 -> h1 = h).
Proof.
  induction h as [|o h IH]; intros f k l N M h1 g k' h2 E.
  - destruct h1 as [|o h1]; [reflexivity|]. exfalso. cbn in E. injection E as <- ->. rewrite existsb_app in M. cbn in M. rewrite orb_true_r in M. discriminate.
  - cbn in N. apply orb_false_elim in N as [N1 N2]. destruct h1 as [|o' h1]; [cbn in E; injection E as -> _; discriminate|]. cbn in E. injection E as <- E. f_equal. eapply IH; eauto.
Qed.
Lemma orderly_by : forall h f k l, existsb is_start h = false -> existsb is_start l = false -> orderly (h ++ Start f k :: l).
Proof. intros h f k l N M h1 g k' h2 E g' k'' I. rewrite (one_start h f k l N M _ _ _ _ E) in I. exfalso. assert (X : existsb is_start h = true) by (apply existsb_exists; exists (Start g' k''); auto). congruence. Qed.
Lemma one_life_by : forall h f k l, existsb is_start h = false -> existsb is_start l = false -> existsb is_close h = false -> one_life (h ++ Start f k :: l).
Proof. intros h f k l N M C h1 g k' h2 E. rewrite (one_start h f k l N M _ _ _ _ E). exact C. Qed.
Example C59_ex : lawful life /\ orderly life /\ one_life life /\ calm life /\ futures life = [1; 2] /\ map snd (snd (run init (life ++ [PlatClosed Ok]))) =
  [[Returned Ok]; [Returned Ok]; [Returned Ok]; [Bind P2p 5593%N]; [Bind Local 5592%N]; [Bind Stun 0%N]; [Resolved 1 Ok]; []; []; []; [Resolved 2 Ok; News Closed]].
Proof.
  split; [apply lawful_by; [repeat constructor; cbn; intuition discriminate|reflexivity]|]. split; [apply (orderly_by setup 1 Ok); reflexivity|]. split; [apply (one_life_by setup 1 Ok); reflexivity|].
  split; [vm_compute; intuition discriminate|]. split; [reflexivity|vm_compute; reflexivity].
Qed.
(** A close while the start is in progress resolves both futures, the one of the close with STOPPED. *)
Example C59_ex_close : let h := setup ++ [Start 1 Ok; Close 2 false; Bound Ok] in map snd (snd (run init h)) = [[Returned Ok]; [Returned Ok]; [Returned Ok]; [Bind P2p 5593%N]; []; [Resolved 2 StoppedEc; News Closed; Resolved 1 StoppedEc]].
Proof. vm_compute. reflexivity. Qed.

(** A future which the device does not hold is not resolved. *)
Lemma step_absent : forall g o d, v_start_fut d <> Some g -> v_close_fut d <> Some g -> ~ In g (future o) -> times g (snd (step o d)) = 0 /\ v_start_fut (fst (step o d)) <> Some g /\ v_close_fut (fst (step o d)) <> Some g.
Proof.
  intros g o d A B. open_step o; cbn [fst snd future]; intros N; try (split; [reflexivity|split; assumption]).
  - cbn in N. unfold times. cbn. destruct (Nat.eqb_spec f g) as [->|]; [tauto|]. split; [reflexivity|]. split; [congruence|exact B].
  - cbn in N. unfold attacher_info. cbn. split; [reflexivity|]. destruct (a_module d); cbn; split; auto; intros X; injection X as ->; tauto.
  - clear - A B N. cbn in N. unfold times, resolves. crush d; try (destruct (Nat.eqb_spec f g)); cbn; repeat split; auto; intuition congruence.
  - clear - A B. unfold times, resolves. crush d; repeat split; auto.
  - clear - A B. unfold times, resolves. crush d; repeat split; auto.
  - clear - A B. unfold times, resolves. crush d; repeat split; auto.
  - clear - A B. unfold times, resolves. crush d; repeat split; auto.
  - clear - A B. unfold times, resolves. crush d; repeat split; auto.
  - clear - A B. unfold times, resolves. crush d; repeat split; auto.
  - clear - A B. unfold times, resolves. crush d; repeat split; auto.
  - clear - A B. unfold times, resolves. crush d; rewrite ?(proj2 (Nat.eqb_neq _ _)) by congruence; cbn; rewrite ?(proj2 (Nat.eqb_neq _ _)) by congruence; repeat split; auto; try discriminate.
  - clear - A B. unfold times, resolves. crush d; repeat split; auto.
  - clear - A B. unfold times, resolves. crush d; rewrite ?(proj2 (Nat.eqb_neq _ _)) by congruence; cbn; repeat split; auto; try discriminate.
  - clear - A B. unfold times, resolves. crush d; rewrite ?(proj2 (Nat.eqb_neq _ _)) by congruence; cbn; repeat split; auto; try discriminate.
  - split; [|auto]. unfold attempt. destruct (a_module d); try reflexivity. unfold times. cases; reflexivity.
Qed.
Lemma run_absent : forall g h d, v_start_fut d <> Some g -> v_close_fut d <> Some g -> ~ In g (futures h) -> times g (outs (snd (run d h))) = 0.
Proof.
  intros g. induction h as [|o h IH]; intros d A B N; [reflexivity|]. cbn [run]. change (futures (o :: h)) with (future o ++ futures h) in N. rewrite in_app_iff in N. destruct (step_absent g o d A B ltac:(tauto)) as (X & Y & Z). destruct (step o d) as [d1 l]. cbn [fst snd] in *. specialize (IH d1 Y Z ltac:(tauto)). destruct (run d1 h) as [d2 t]. cbn [snd] in *. change (outs ((o, l) :: t)) with (l ++ outs t). rewrite times_app. lia.
Qed.
(** A start while another one is in progress: the future of the first one is never resolved. *)
Theorem C59_overlap_refuted : exists h, lawful h /\ In 1 (futures h) /\ forall h2, ~ In 1 (futures h2) -> times 1 (outs (snd (run init (h ++ h2)))) = 0.
Proof.
  exists (setup ++ [Start 1 Ok; Start 2 Ok]). split; [apply lawful_by; [repeat constructor; cbn; intuition discriminate|reflexivity]|]. split; [cbn; auto|]. intros h2 N. rewrite run_app. cbn [snd]. rewrite outs_app, times_app. rewrite (run_absent 1 h2); [vm_compute; reflexivity|vm_compute; discriminate|vm_compute; discriminate|exact N].
Qed.
Print Assumptions C59_overlap_refuted.
(** And if the second one is refused its future is resolved a second time. *)
Theorem C59_twice_refuted : exists h, lawful h /\ times 2 (outs (snd (run init h))) = 2.
Proof. exists (setup ++ [Start 1 Ok; SetKey false; Start 2 Ok] ++ binds). split; [apply lawful_by; [repeat constructor; cbn; intuition discriminate|reflexivity]|vm_compute; reflexivity]. Qed.
Print Assumptions C59_twice_refuted.
(** nabto_device_stop while client connections are being closed: the future of the close is never resolved. *)
Record halted (d : dev) : Prop := { l_closing : v_closing d = true; l_conns : v_conns d = false; l_stage : v_stage d = None; l_plat : v_plat d = false; l_cb : a_cb d <> Some CbDevice }.
Lemma step_halted : forall o d, halted d -> halted (fst (step o d)) /\ forall g, times g (snd (step o d)) = 0.
Proof.
  intros o d [A B C D E]. destruct o as [f k|f active|active|b keep| | | |b|p l|fl v oom|c| | |c|]; cbn [step]; rewrite ?A; try (split; [constructor; assumption|reflexivity]).
  - unfold stop. rewrite A. split; [constructor; assumption|reflexivity].
  - unfold bound. rewrite C. split; [constructor; assumption|reflexivity].
  - rewrite B. split; [constructor; assumption|reflexivity].
  - unfold attach_closed. destruct (a_closing d); [|split; [constructor; assumption|reflexivity]]. destruct (a_cb d) as [[|]|] eqn:CB; [| congruence |]; (split; [constructor; cbn; auto; discriminate|reflexivity]).
  - rewrite D. split; [constructor; assumption|reflexivity].
  - split; [constructor; assumption|]. intros g. unfold attempt. destruct (a_module d); try reflexivity. unfold times. cases; reflexivity.
Qed.
Lemma run_halted : forall h d g, halted d -> times g (outs (snd (run d h))) = 0.
Proof.
  induction h as [|o h IH]; intros d g H; [reflexivity|]. cbn [run]. destruct (step_halted o d H) as [X Y]. destruct (step o d) as [d1 l]. cbn [fst snd] in *. specialize (IH d1 g X). destruct (run d1 h) as [d2 t]. cbn [snd] in *. change (outs ((o, l) :: t)) with (l ++ outs t). rewrite times_app, Y. exact IH.
Qed.
Theorem C59_stop_refuted : exists h, lawful h /\ orderly h /\ one_life h /\ In 2 (futures h) /\ forall h2, times 2 (outs (snd (run init (h ++ h2)))) = 0.
Proof.
  exists (setup ++ Start 1 Ok :: binds ++ [Close 2 true; Stop true]). split; [|split; [apply orderly_by; reflexivity|split; [apply one_life_by; reflexivity|split; [cbn; auto|]]]].
  - split; [repeat constructor; cbn; intuition discriminate|]. intros h1 o h2 E C. change (setup ++ Start 1 Ok :: binds ++ [Close 2 true; Stop true]) with ((setup ++ Start 1 Ok :: binds ++ [Close 2 true]) ++ [Stop true]) in E.
    destruct (split_events _ [Stop true] h1 o h2 eq_refl C E) as (h3 & E3). assert (X : existsb is_stop (setup ++ Start 1 Ok :: binds ++ [Close 2 true]) = false) by reflexivity. rewrite E3, existsb_app in X. apply orb_false_elim in X as [X _]. exact X.
  - intros h2. rewrite run_app. cbn [snd]. rewrite outs_app, times_app, (run_halted h2); [vm_compute; reflexivity|]. constructor; vm_compute; try reflexivity; discriminate.
Qed.
Print Assumptions C59_stop_refuted.

(** ** C60 *)
(** The strings: if none of them is set after the start, then every attempt to attach uses what was configured before it, and no freed memory is used. *)
Theorem C60_strings_partial : forall h1 f k h2, existsb is_start h1 = false -> existsb is_start h2 = false -> existsb is_set_str h2 = false ->
  let t1 := snd (run init h1) in let t := snd (run init (h1 ++ Start f k :: h2)) in ~ In Crash (outs t) /\
  forall ho p i a v, In (Attempted ho p i a v) (outs t) -> ho = or_empty (host t1) /\ p = or_empty (conf t1 Product) /\ i = or_empty (conf t1 Device) /\ a = or_empty (conf t1 App) /\ v = or_empty (conf t1 Version).
Proof.
  intros h1 f k h2 N1 N2 S t1 t. pose proof (frozen h1 f k h2 N1 N2 S) as F. split.
  - intros C. destruct (F _ C) as [X _]. congruence.
  - intros ho p i a v I. destruct (F _ I) as [_ X]. specialize (X eq_refl). cbv zeta in X. injection X as -> -> -> -> ->. repeat split; reflexivity.
Qed.
Print Assumptions C60_strings_partial.
Example C60_ex : let h1 := [SetStr Product "pr-0" false; SetStr App "app" false] ++ setup in let h2 := binds ++ [Attempt; SetAttach false false; Attempt; AttachClosed; SetAttach true false; Attempt] in
  existsb is_start h1 = false /\ existsb is_start h2 = false /\ existsb is_set_str h2 = false /\
  filter is_attempted (outs (snd (run init (h1 ++ Start 1 Ok :: h2)))) = [Attempted "pr-1.devices.nabto.net" "pr-1" "de-1" "app" ""; Attempted "pr-1.devices.nabto.net" "pr-1" "de-1" "app" ""].
Proof. vm_compute. auto. Qed.
(** After the sockets are being bound, the settings which select the modules are refused and change nothing. *)
Theorem C60_settings : forall h n, In (Bind P2p n) (outs (snd (run init h))) -> existsb is_stop h = false -> forall o, o = DisableRemote \/ o = EnableMdns ->
  step o (fst (run init h)) = (fst (run init h), [Returned InvalidState]).
Proof.
  intros h n B S o O. pose proof (bound_phase h n B) as P. pose proof (reach_closing h) as C. rewrite S in C. destruct O as [-> | ->]; cbn [step]; rewrite C; destruct (v_phase (fst (run init h))); congruence.
Qed.
Print Assumptions C60_settings.
(** The private key: setting it after the start changes nothing but the answer of a later start. *)
Definition is_set_key (o : op) : bool := match o with SetKey _ => true | _ => false end.
Ltac same := try reflexivity; try congruence; repeat match goal with H : ?x = Some ?a, K : ?x = Some ?b |- _ => rewrite H in K; injection K as <- end; reflexivity.
Lemma step_key : forall o d b, is_start o = false -> is_set_key o = false -> step o (set_key b d) = (set_key b (fst (step o d)), snd (step o d)).
Proof.
  intros o d b S K. destruct o as [f k|f active|active|bb keep| | | |bb|p l|fl v oom|c| | |c|]; try discriminate; clear S K; cbn [step].
  - crush d; same.
  - crush d; same.
  - crush d; same.
  - crush d; same.
  - crush d; same.
  - crush d; same.
  - crush d; same.
  - unfold assign. change (v_closing (set_key b d)) with (v_closing d). change (v_str (set_key b d)) with (v_str d). change (v_heap (set_key b d)) with (v_heap d). change (v_next (set_key b d)) with (v_next d). destruct (v_closing d); [reflexivity|]. destruct fl, oom; try reflexivity; destruct (Nat.ltb 32 (String.length v)); reflexivity.
  - crush d; same.
  - crush d; same.
  - crush d; same.
  - crush d; same.
  - reflexivity.
Qed.
Theorem C60_key : forall h1 b h2, existsb is_start h2 = false -> existsb is_set_key h2 = false -> snd (run (fst (run init (h1 ++ [SetKey b]))) h2) = snd (run (fst (run init h1)) h2).
Proof.
  intros h1 b h2 S K. rewrite run_snoc. cbn [fst]. set (d := fst (run init h1)). cbn [step]. destruct (v_closing d); [reflexivity|]. cbn [fst]. clearbody d. revert d. induction h2 as [|o h2 IH]; intros d; [reflexivity|]. cbn [existsb] in S, K. apply orb_false_elim in S as [S1 S2]. apply orb_false_elim in K as [K1 K2].
  cbn [run]. rewrite step_key by assumption. destruct (step o d) as [d1 l]. cbn [fst snd]. specialize (IH S2 K2 d1). destruct (run (set_key b d1) h2), (run d1 h2). cbn [snd] in *. congruence.
Qed.
Print Assumptions C60_key.
(** The ports: each socket is bound to the port which is configured when its turn comes. *)
Theorem C60_ports_partial : forall h o n, let t := snd (run init h) in (In (Bind P2p n) (snd (step o (fst (run init h)))) -> n = fst (ports t)) /\ (In (Bind Local n) (snd (step o (fst (run init h)))) -> n = snd (ports t)).
Proof.
  intros h o n t. unfold t. rewrite <- reach_ports. generalize (fst (run init h)). intros d. split; [intros B; apply (step_bind _ _ _ B)|].
  open_step o; cbn [fst snd]; try (cbn; intuition discriminate).
  - crush d; intuition discriminate.
  - crush d; intuition discriminate.
  - crush d; intuition discriminate.
  - crush d; intuition discriminate.
  - crush d; intuition discriminate.
  - crush d; intuition discriminate.
  - crush d; intuition discriminate.
  - crush d; intuition discriminate.
  - crush d; intuition congruence.
  - crush d; intuition discriminate.
  - crush d; intuition discriminate.
  - crush d; intuition discriminate.
  - cbn. unfold attempt. destruct (a_module d); cbn; try tauto. cases; cbn; intuition discriminate.
Qed.
Print Assumptions C60_ports_partial.
Theorem C60_ports_refuted : exists h, outs (snd (run init (setup ++ Start 1 Ok :: SetPorts 1 2 :: h))) = [Returned Ok; Returned Ok; Returned Ok; Bind P2p 5593%N; Returned Ok; Bind Local 2%N].
Proof. exists [Bound Ok]. vm_compute. reflexivity. Qed.
Print Assumptions C60_ports_refuted.
(** The product id is accepted while the device is attached; the attacher then uses freed memory. *)
Theorem C60_use_after_free_refuted : exists h, map snd (snd (run init (setup ++ Start 1 Ok :: binds ++ h))) = [[Returned Ok]; [Returned Ok]; [Returned Ok]; [Bind P2p 5593%N]; [Bind Local 5592%N]; [Bind Stun 0%N]; [Resolved 1 Ok]; [Attempted "pr-1.devices.nabto.net" "pr-1" "de-1" "" ""]; [Returned Ok]; [Crash]].
Proof. exists [Attempt; SetStr Product "pr-2" false; Attempt]. vm_compute. reflexivity. Qed.
Print Assumptions C60_use_after_free_refuted.
(** The root certificates are refused while the device attaches, but not when attach was disabled at the start. *)
Lemma step_module : forall o d, a_module d <> MSetup -> a_module (fst (step o d)) <> MSetup.
Proof.
  intros o d P. open_step o; cbn [fst snd]; auto.
  - unfold attacher_info. cbn. destruct (a_module d) eqn:M; cbn; congruence.
  - crush d; congruence.
  - crush d; congruence.
  - crush d; congruence.
  - crush d; congruence.
  - crush d; congruence.
  - crush d; congruence.
  - crush d; congruence.
  - crush d; congruence.
  - crush d; congruence.
  - crush d; congruence.
  - crush d; congruence.
  - crush d; congruence.
Qed.
Theorem C60_root_certs_partial : forall h ho p i a v, In (Attempted ho p i a v) (outs (snd (run init h))) -> existsb is_stop h = false -> step RootCerts (fst (run init h)) = (fst (run init h), [Returned InvalidState]).
Proof.
  intros h ho p i a v I S. pose proof (reach_closing h) as C. rewrite S in C. cbn [step]. rewrite C. enough (X : a_module (fst (run init h)) <> MSetup) by (destruct (a_module (fst (run init h))); congruence). clear C S.
  induction h as [|o h IH] using rev_ind; [destruct I|]. rewrite run_snoc in *. cbn [fst snd] in *. rewrite outs_snoc, in_app_iff in I. apply step_module. destruct I as [I|I]; [auto|]. destruct (attempts _ _ _ I eq_refl) as [-> X]. unfold attempt in X. destruct (a_module (fst (run init h))); [destruct X|discriminate|discriminate].
Qed.
Print Assumptions C60_root_certs_partial.
Theorem C60_root_certs_refuted : exists h, In (Resolved 1 Ok) (outs (snd (run init h))) /\ snd (step RootCerts (fst (run init h))) = [Returned Ok].
Proof. exists (DisableRemote :: setup ++ Start 1 Ok :: binds). vm_compute. split; [auto 10|reflexivity]. Qed.
Print Assumptions C60_root_certs_refuted.
(** A start which fails leaves its server url behind: a later start with another product id attaches to the host of the first one. *)
Definition long : string := "pr-aaaaaaaaaaaaaaaaaaaaaaaaaaaaaaaaaaaaaaaaaaaaaaaaaaaaaaaaaaaaaaaaaa".
Theorem C60_host_refuted : exists h1 h2, conf (snd (run init (h1 ++ h2))) Product = Some "pr-1" /\ conf (snd (run init (h1 ++ h2))) Url = None /\
  In (Resolved 1 InvalidState) (outs (snd (run init h1))) /\ In (Attempted (long ++ ".devices.nabto.net")%string "pr-1" "de-1" "" "") (outs (snd (run init (h1 ++ h2)))).
Proof. exists (setup ++ [SetStr Product long false; Start 1 Ok]), ([SetStr Product "pr-1" false; Start 2 Ok] ++ binds ++ [Attempt]). vm_compute. repeat split; auto 20. Qed.
Print Assumptions C60_host_refuted.

(** ** C80 *)
(** Once a start has succeeded, and until the device is closed, it attaches exactly when attach is enabled. Left out: the setting is changed while a start is
    in progress. *)
Theorem C80_attaches_partial : forall h f, lawful h -> orderly h -> unhurried h -> existsb is_close h = false -> existsb is_stop h = false ->
  let t := snd (run init h) in In (Resolved f Ok) (outs t) -> ~ starting t -> (snd (step Attempt (fst (run init h))) <> [] <-> enabled t = true).
Proof.
  intros h f L O U C S t R NS. assert (K : existsb is_ok (outs t) = true) by (apply existsb_exists; exists (Resolved f Ok); auto). pose proof (attaching h L O U C S K NS) as A. fold t in A. rewrite <- A. cbn [step snd]. unfold attempt. destruct (a_module (fst (run init h))); try (split; [congruence|discriminate]). split; [reflexivity|]. intros _. cases; discriminate.
Qed.
Print Assumptions C80_attaches_partial.
Theorem C80_not_before : forall h, existsb is_start h = false -> existsb is_attempted (outs (snd (run init h))) = false.
Proof.
  induction h as [|o h IH] using rev_ind; intros N; [reflexivity|]. rewrite existsb_app in N. apply orb_false_elim in N as [N1 _]. rewrite run_snoc. cbn [snd]. rewrite outs_snoc, existsb_app, (IH N1). cbn. destruct (existsb is_attempted (snd (step o (fst (run init h))))) eqn:E; [|reflexivity]. apply existsb_exists in E as (x & I & A). destruct (attempts _ _ _ I A) as [_ X]. unfold attempt in X. rewrite (u_module _ (reach_idle h N1)) in X. destruct X.
Qed.
Print Assumptions C80_not_before.
(** After nabto_device_stop, and after a close which succeeded, it does not attach. *)
Lemma no_attempt : forall d, a_module d <> MRunning -> snd (step Attempt d) = [].
Proof. intros d M. cbn [step snd]. unfold attempt. destruct (a_module d); congruence. Qed.
Theorem C80_stopped : forall h, existsb is_stop h = true -> snd (step Attempt (fst (run init h))) = [].
Proof. intros h S. apply no_attempt. apply reach_stopped. exact S. Qed.
Print Assumptions C80_stopped.
Theorem C80_closed_partial : forall h g a, lawful h -> one_life h -> In (Close g a) h -> In (Resolved g Ok) (outs (snd (run init h))) -> snd (step Attempt (fst (run init h))) = [].
Proof. intros h g a L O I R. apply no_attempt. destruct (reach_quiet h O) as [[_ _ _ D] _]. apply D. eapply closed_done; eauto. Qed.
Print Assumptions C80_closed_partial.
Example C80_ex_closed : let h := life ++ [PlatClosed Ok] in In (Close 2 true) h /\ In (Resolved 2 Ok) (outs (snd (run init h))) /\ snd (step Attempt (fst (run init (setup ++ Start 1 Ok :: binds)))) <> [].
Proof. vm_compute. split; [auto 20|]. split; [auto 20|discriminate]. Qed.
Definition toggle : list op := setup ++ Start 1 Ok :: binds ++ [SetAttach false false; AttachClosed; SetAttach true false; Attempt; SetAttach false false].
Lemma not_starting : forall t, (forall f k, In (Start f k) (map fst t) -> times f (outs t) <> 0) -> ~ starting t.
Proof. intros t H (f & k & I & Z). exact (H f k I Z). Qed.
Example C80_ex : lawful toggle /\ orderly toggle /\ existsb is_close toggle = false /\ existsb is_stop toggle = false /\ In (Resolved 1 Ok) (outs (snd (run init toggle))) /\ ~ starting (snd (run init toggle)) /\
  enabled (snd (run init toggle)) = false /\ snd (step Attempt (fst (run init toggle))) = [] /\ filter is_attempted (outs (snd (run init toggle))) = [Attempted "pr-1.devices.nabto.net" "pr-1" "de-1" "" ""].
Proof.
  split; [apply lawful_by; [repeat constructor; cbn; intuition discriminate|reflexivity]|]. split; [apply orderly_by; reflexivity|]. do 2 (split; [reflexivity|]). split; [vm_compute; auto 20|]. split; [|vm_compute; auto].
  apply not_starting. rewrite map_fst_run. intros f k I. vm_compute in I. repeat (destruct I as [I|I]; [try discriminate I; injection I as <- <-; vm_compute; discriminate|]). destruct I.
Qed.
Lemma cut3 : forall (a : list op) x b h1 y h2, a ++ x :: b = h1 ++ y :: h2 -> (exists c, a = h1 ++ y :: c) \/ (h1 = a /\ y = x) \/ exists c, h1 = a ++ x :: c.
Proof.
  induction a as [|z a IH]; intros x b h1 y h2 E.
  - destruct h1 as [|w h1]; cbn in E; injection E as <- E; [auto|]. right. right. exists h1. reflexivity.
  - destruct h1 as [|w h1]; cbn in E; injection E as <- E; [left; exists a; reflexivity|]. destruct (IH _ _ _ _ _ E) as [(c & ->)|[[-> ->]|(c & ->)]]; [left; exists c; reflexivity|auto|right; right; exists c; reflexivity].
Qed.
Example C80_ex_unhurried : unhurried (setup ++ Start 1 Ok :: binds ++ [SetAttach false false]).
Proof.
  intros h1 b k h2 E. change (setup ++ Start 1 Ok :: binds ++ [SetAttach false false]) with ((setup ++ Start 1 Ok :: binds) ++ SetAttach false false :: []) in E. destruct (cut3 _ _ _ _ _ _ E) as [(c & X)|[[-> _]|(c & ->)]].
  - exfalso. assert (Y : existsb is_set_attach (setup ++ Start 1 Ok :: binds) = false) by reflexivity. rewrite X, existsb_app in Y. cbn in Y. rewrite orb_true_r in Y. discriminate.
  - apply not_starting. rewrite map_fst_run. intros f kk I. vm_compute in I. repeat (destruct I as [I|I]; [try discriminate I; injection I as <- <-; vm_compute; discriminate|]). destruct I.
  - exfalso. assert (Y := f_equal (@length op) E). rewrite ?app_length in Y. cbn [length] in Y. rewrite ?app_length in Y. cbn [length] in Y. lia.
Qed.
(** Attach disabled while the start is in progress: accepted, and the device attaches nevertheless. *)
Theorem C80_disabled_refuted : exists h, let t := snd (run init h) in lawful h /\ In (Resolved 1 Ok) (outs t) /\ enabled t = false /\ existsb is_attempted (outs t) = true.
Proof. exists (setup ++ [Start 1 Ok; SetAttach false false] ++ binds ++ [AttachClosed; Attempt]). cbv zeta. split; [apply lawful_by; [repeat constructor; cbn; intuition discriminate|reflexivity]|]. vm_compute. auto 20. Qed.
Print Assumptions C80_disabled_refuted.
(** Attach enabled while the start is in progress: accepted, but the start fails at the end, and the device attaches although it does not receive. *)
Theorem C80_enabled_refuted : exists h, let t := snd (run init h) in lawful h /\ In (Resolved 1 InvalidState) (outs t) /\ enabled t = true /\ existsb is_attempted (outs t) = true /\ v_recv (fst (run init h)) = false.
Proof. exists (DisableRemote :: setup ++ [Start 1 Ok; SetAttach true false] ++ binds ++ [Attempt]). cbv zeta. split; [apply lawful_by; [repeat constructor; cbn; intuition discriminate|reflexivity]|]. vm_compute. auto 20. Qed.
Print Assumptions C80_enabled_refuted.
