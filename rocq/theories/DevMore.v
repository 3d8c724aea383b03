From Coq Require Import String List Bool Arith Lia.
From Verif Require Import DevModel DevSpec DevProofs.
Import ListNotations.

(** A call which finds no other start in progress adds one future, and every future which is resolved is one in progress. *)
Definition b2c (o : op) (d : dev) (f : nat) : nat := if v_closing d then 0 else length (filter (Nat.eqb f) (future o)).
Definition kept (g : nat) (d : dev) (r : dev * list out) : Prop := times g (snd r) + inflight g (fst r) = inflight g d.
Lemma device_closed_count : forall g c d, v_close_fut d <> None -> kept g d (device_closed c d).
Proof. intros g c d H. unfold kept, device_closed, inflight, times. destruct (v_close_fut d) as [f|] eqn:E; [|congruence]. cbn. destruct (Nat.eqb f g); cbn; lia. Qed.
Lemma core_closed_count : forall g c d, v_close_fut d <> None -> kept g d (core_closed c d).
Proof. intros g c d H. unfold core_closed. destruct c; try (apply device_closed_count; exact H). reflexivity. Qed.
Lemma core_closed_start : forall c d, v_start_fut (fst (core_closed c d)) = v_start_fut d /\ v_start_cb (fst (core_closed c d)) = v_start_cb d.
Proof. intros c d. unfold core_closed, device_closed. destruct c, (v_close_fut d); auto. Qed.
Lemma resolve_both_count : forall g c d, (v_start_cb d = true -> v_start_fut d <> None) -> (v_close_cb d = true -> v_close_fut d <> None) -> kept g d (resolve_both c d).
Proof.
  intros g c d A C. unfold resolve_both. set (d1 := set_start false (v_start_fut d) (set_close false (v_close_fut d) d)).
  assert (X : exists d2 l, (if v_close_cb d then core_closed c d1 else (d1, [])) = (d2, l) /\ kept g d1 (d2, l) /\ v_start_fut d2 = v_start_fut d).
  { destruct (v_close_cb d).
    - pose proof (core_closed_count g c d1 (C eq_refl)) as K. pose proof (core_closed_start c d1) as [S _]. destruct (core_closed c d1) as [d2 l]. exists d2, l. auto.
    - exists d1, []. repeat split. }
  destruct X as (d2 & l & -> & K & S). unfold kept in *. cbn [fst snd] in *. rewrite times_app. unfold started. rewrite S.
  assert (Y : inflight g d = inflight g d1 + b2n (v_start_cb d && is_fut g (v_start_fut d))) by (unfold inflight; cbn; lia).
  assert (Z : times g (if v_start_cb d then match v_start_fut d with Some f => [Resolved f c] | None => [Crash] end else []) = b2n (v_start_cb d && is_fut g (v_start_fut d))).
  { destruct (v_start_cb d); [|reflexivity]. destruct (v_start_fut d) as [f|]; [|destruct (A eq_refl eq_refl)]. unfold times. cbn. destruct (Nat.eqb f g); reflexivity. }
  lia.
Qed.
Lemma attacher_start_count : forall g d, inflight g (fst (attacher_start d)) = inflight g d /\ v_start_cb (fst (attacher_start d)) = v_start_cb d /\ v_start_fut (fst (attacher_start d)) = v_start_fut d /\ v_close_cb (fst (attacher_start d)) = v_close_cb d /\ v_close_fut (fst (attacher_start d)) = v_close_fut d.
Proof. intros g d. unfold attacher_start. destruct (a_module d); auto. Qed.
Lemma sockets_bound_count : forall g d, (v_start_cb d = true -> v_start_fut d <> None) -> (v_close_cb d = true -> v_close_fut d <> None) -> kept g d (sockets_bound d).
Proof.
  intros g d A C. unfold sockets_bound. assert (X : exists d1 c, (if v_attach d then attacher_start d else (d, Ok)) = (d1, c) /\ inflight g d1 = inflight g d /\ v_start_cb d1 = v_start_cb d /\ v_start_fut d1 = v_start_fut d /\ v_close_cb d1 = v_close_cb d /\ v_close_fut d1 = v_close_fut d).
  { destruct (v_attach d); [|exists d, Ok; repeat split; reflexivity]. pose proof (attacher_start_count g d) as K. destruct (attacher_start d) as [d1 c]. exists d1, c. cbn [fst] in K. split; [reflexivity|exact K]. }
  destruct X as (d1 & c & -> & I & S1 & S2 & S3 & S4). unfold kept. rewrite <- I. destruct c; [apply (resolve_both_count g Ok (set_recv true (v_mdns d1 || v_published d1) d1))|apply resolve_both_count..]; cbn; rewrite ?S1, ?S2, ?S3, ?S4; auto.
Qed.
Lemma step_count : forall o d g, good d -> (is_start o = true -> v_start_cb d = false) -> times g (snd (step o d)) + inflight g (fst (step o d)) = inflight g d + b2c o d g.
Proof.
  intros o d g [A B C D] S. open_step o; unfold b2c; cbn [fst snd future filter length resolves is_start] in *; rewrite ?Nat.add_0_r; try (unfold inflight, times; destruct (v_closing d); cbn; lia).
  - unfold inflight, times. cbn. rewrite (S eq_refl). cbn. rewrite (Nat.eqb_sym g f). destruct (v_closing d); [congruence|]. destruct (Nat.eqb f g); cbn; lia.
  - unfold attacher_info, inflight, times. rewrite (S eq_refl), Heqb. cbn. rewrite (Nat.eqb_sym g f). destruct (a_module d); cbn; destruct (Nat.eqb f g); cbn; lia.
  - clear S. rewrite (Nat.eqb_sym g f). unfold close, inflight, times. destruct (v_closing d); [cbn; lia|]. destruct (v_close_fut d) as [f1|] eqn:F; [cbn; rewrite F; destruct (Nat.eqb f g); cbn; lia|].
    destruct (v_phase d); cbn; rewrite ?F; destruct active; cbn; destruct (Nat.eqb f g); cbn; rewrite ?F; cbn; lia.
  - unfold stop, inflight, times. destruct (v_closing d); [cbn; lia|]. destruct active; cbn; lia.
  - unfold basestation_attach, attacher_restart, attacher_start, attacher_close, do_close, inflight, times. destruct (v_closing d); [cbn; lia|]. destruct (v_phase d), b; cbn; try lia; destruct (v_attach d), (a_module d); cbn; lia.
  - unfold inflight, times. destruct (v_closing d); [cbn; lia|]. destruct (v_phase d); cbn; lia.
  - unfold inflight, times. destruct (v_closing d); [cbn; lia|]. destruct (v_phase d); cbn; lia.
  - replace (if v_closing d then 0 else 0) with 0 by (destruct (v_closing d); reflexivity). rewrite Nat.add_0_r. unfold bound. destruct (v_stage d) as [s|] eqn:ST; [|reflexivity].
    assert (SC : v_close_cb d = true -> v_close_fut d <> None) by (intros X; apply C; auto).
    change (v_phase (set_stage None d)) with (v_phase d). destruct (v_phase d) eqn:P; [| |apply (resolve_both_count g StoppedEc (set_stage None d)); auto]; destruct c; try (apply (resolve_both_count g _ (set_phase Stopped (set_stage None d))); auto); destruct s; try reflexivity; apply (sockets_bound_count g (set_stage None d)); auto.
  - unfold inflight, times. destruct (v_closing d), (v_conns d); cbn; lia.
  - replace (if v_closing d then 0 else 0) with 0 by (destruct (v_closing d); reflexivity). rewrite Nat.add_0_r. unfold attach_closed. destruct (a_closing d); [|reflexivity]. destruct (a_cb d) as [[]|]; [reflexivity| |reflexivity]. cbn [v_close_cb set_recv set_att]. destruct (v_close_cb d) eqn:CB; [|reflexivity].
    exact (core_closed_count g Ok (set_close false (v_close_fut d) (set_recv false (v_published d) (set_att (a_module d) false None d))) (proj2 C (or_introl eq_refl))).
  - replace (if v_closing d then 0 else 0) with 0 by (destruct (v_closing d); reflexivity). rewrite Nat.add_0_r. destruct (v_plat d) eqn:PL; [|reflexivity]. apply (device_closed_count g c (set_plat false d)). apply C. auto.
  - unfold attempt, times. destruct (v_closing d), (a_module d); cbn; try lia; repeat match goal with |- context [match text ?a ?b with _ => _ end] => destruct (text a b) end; cbn; lia.
Qed.
Lemma times_nil : forall g, times g [] = 0.
Proof. reflexivity. Qed.
Lemma futures_app : forall a b, futures (a ++ b) = futures a ++ futures b.
Proof. intros. apply flat_map_app. Qed.
Lemma calls_snoc : forall g h o, calls g (h ++ [o]) = calls g h + length (filter (Nat.eqb g) (future o)).
Proof. intros. unfold calls. rewrite futures_app, filter_app, app_length. unfold futures at 2. cbn. rewrite app_nil_r. reflexivity. Qed.
Lemma nodup_app_l : forall A (a b : list A), NoDup (a ++ b) -> NoDup a.
Proof. induction a as [|x a IH]; intros b H; [constructor|]. inversion H; subst. constructor; [|eauto]. intros X. apply H2. apply in_app_iff. auto. Qed.
Lemma count_nodup : forall g l, NoDup l -> length (filter (Nat.eqb g) l) <= 1 /\ (In g l -> length (filter (Nat.eqb g) l) = 1).
Proof.
  intros g l H. induction H as [|x l N H [IH1 IH2]]; cbn; [split; [lia|tauto]|]. destruct (Nat.eqb_spec g x) as [->|NE]; cbn.
  - assert (Z : length (filter (Nat.eqb x) l) = 0). { clear -N. induction l as [|y l IH]; [reflexivity|]. cbn. destruct (Nat.eqb_spec x y) as [->|]; [destruct N; left; reflexivity|]. apply IH. intros X. apply N. right. exact X. }
    split; [lia|]. intros _. lia.
  - split; [exact IH1|]. intros [->|X]; [congruence|auto].
Qed.
Lemma lawful_snoc : forall h o, lawful (h ++ [o]) -> lawful h /\ (is_call o = true -> existsb is_stop h = false).
Proof.
  intros h o [N L]. split; [split|].
  - rewrite futures_app in N. eapply nodup_app_l; eauto.
  - intros h1 x h2 -> C. apply (L h1 x (h2 ++ [o])); [rewrite <- app_assoc; reflexivity|exact C].
  - intros C. apply (L h o []); auto.
Qed.
Lemma orderly_snoc : forall h o, orderly (h ++ [o]) -> orderly h.
Proof. intros h o H h1 f k h2 -> g k' I. apply (H h1 f k (h2 ++ [o]) ltac:(rewrite <- app_assoc; reflexivity) g k' I). Qed.
Lemma one_life_snoc : forall h o, one_life (h ++ [o]) -> one_life h.
Proof. intros h o H h1 f k h2 ->. apply (H h1 f k (h2 ++ [o]) ltac:(rewrite <- app_assoc; reflexivity)). Qed.

Lemma step_closing : forall o d, v_closing (fst (step o d)) = v_closing d || is_stop o.
Proof.
  intros o d. open_step o; cbn [fst snd is_stop]; rewrite ?orb_false_r.
  - auto.
  - cbn. auto.
  - unfold attacher_info. cbn. destruct (a_module d); cbn; auto.
  - crush d; reflexivity.
  - rewrite orb_true_r. crush d; reflexivity.
  - crush d; reflexivity.
  - crush d; reflexivity.
  - crush d; reflexivity.
  - crush d; reflexivity.
  - crush d; reflexivity.
  - crush d; reflexivity.
  - auto.
  - cbn. auto.
  - crush d; reflexivity.
  - crush d; reflexivity.
  - crush d; reflexivity.
  - crush d; reflexivity.
  - reflexivity.
Qed.
Lemma reach_closing : forall h, v_closing (fst (run init h)) = existsb is_stop h.
Proof. induction h as [|o h IH] using rev_ind; [reflexivity|]. rewrite run_snoc. cbn [fst]. rewrite step_closing, IH, existsb_app. cbn. rewrite orb_false_r. reflexivity. Qed.

(** The future of the start in progress is the one of a call. *)
Definition from (h : list op) (d : dev) : Prop := v_start_cb d = true -> exists f k, v_start_fut d = Some f /\ In (Start f k) h.
Lemma step_start : forall o d, v_start_cb (fst (step o d)) = true -> (v_start_cb d = true /\ v_start_fut (fst (step o d)) = v_start_fut d) \/ exists f k, o = Start f k /\ v_start_fut (fst (step o d)) = Some f.
Proof.
  intros o d. open_step o; cbn [fst snd].
  - auto.
  - cbn. intros _. right. eauto.
  - unfold attacher_info. cbn. intros _. right. exists f, k. destruct (a_module d); cbn; auto.
  - crush d; auto.
  - crush d; auto.
  - crush d; auto.
  - crush d; auto.
  - crush d; auto.
  - crush d; auto.
  - crush d; auto.
  - crush d; auto.
  - auto.
  - cbn. auto.
  - crush d; auto.
  - crush d; auto.
  - crush d; auto.
  - crush d; auto.
  - auto.
Qed.
Lemma reach_from : forall h, from h (fst (run init h)).
Proof.
  induction h as [|o h IH] using rev_ind; [discriminate|]. rewrite run_snoc. cbn [fst]. intros S. destruct (step_start o _ S) as [[S1 S2]|(f & k & -> & F)].
  - rewrite S2. destruct (IH S1) as (f & k & F & I). exists f, k. split; [exact F|]. apply in_app_iff. auto.
  - exists f, k. split; [exact F|]. apply in_app_iff. right. left. reflexivity.
Qed.
Lemma in_future : forall f k h, In (Start f k) h -> In f (futures h).
Proof. intros f k h I. apply in_flat_map. exists (Start f k). split; [exact I|left; reflexivity]. Qed.
Lemma reach_count : forall h, lawful h -> orderly h -> forall g, times g (outs (snd (run init h))) + inflight g (fst (run init h)) = calls g h.
Proof.
  induction h as [|o h IH] using rev_ind; intros L O g; [reflexivity|]. pose proof (lawful_snoc _ _ L) as [L1 L2]. pose proof (orderly_snoc _ _ O) as O1. specialize (IH L1 O1). rewrite run_snoc. cbn [fst snd]. rewrite outs_snoc, times_app, calls_snoc.
  pose proof (step_count o (fst (run init h)) g (reach_good h)) as K. unfold b2c in K. rewrite reach_closing in K.
  assert (X : (if existsb is_stop h then 0 else length (filter (Nat.eqb g) (future o))) = length (filter (Nat.eqb g) (future o))).
  { destruct o; try (rewrite (L2 eq_refl); reflexivity); destruct (existsb is_stop h); reflexivity. }
  rewrite X in K. rewrite <- IH, <- Nat.add_assoc. rewrite K; [lia|].
  intros S. destruct o as [f k| | | | | | | | | | | | | |]; try discriminate. destruct (v_start_cb (fst (run init h))) eqn:SC; [|reflexivity]. exfalso.
  destruct (reach_from h SC) as (f1 & k1 & F & I). specialize (O h f k [] eq_refl f1 k1 I). specialize (IH f1). unfold inflight in IH. rewrite SC, F in IH. cbn in IH. rewrite Nat.eqb_refl in IH. cbn in IH.
  destruct L1 as [N _]. destruct (count_nodup f1 _ N) as [C1 _]. fold (calls f1 h) in C1. lia.
Qed.

(** A close in progress is on its way. *)
Definition live (d : dev) : Prop := v_close_cb d = true -> v_phase d <> Running /\ (v_conns d = true \/ a_closing d = true /\ a_cb d = Some CbDevice).
Lemma step_live : forall o d, live d -> o <> Stop true -> (is_start o = true -> v_close_cb d = false) -> live (fst (step o d)).
Proof.
  intros o d L NS S. unfold live in *. open_step o; cbn [fst snd is_start] in *.
  - auto.
  - cbn. rewrite S by reflexivity. discriminate.
  - unfold attacher_info. cbn. destruct (a_module d); cbn; rewrite S by reflexivity; discriminate.
  - clear S NS. crush d; auto; intros X; split; try discriminate; auto.
  - clear S. destruct active; [congruence|]. clear NS. crush d; auto; intros X; destruct (L X) as [L1 [L2|[L2 L3]]]; split; try discriminate; auto.
  - clear S NS. crush d; auto; intros X; destruct (L X); try congruence; auto.
  - clear S NS. crush d; auto.
  - clear S NS. crush d; auto.
  - clear S NS. crush d; auto.
  - clear S NS. crush d; auto.
  - clear S NS. crush d; auto.
  - auto.
  - cbn. auto.
  - clear S NS. crush d; auto; intros X; destruct (L X) as [L1 [L2|[L2 L3]]]; split; try congruence; auto.
  - clear S NS. crush d; auto; intros X; destruct (L X) as [L1 [L2|[L2 L3]]]; split; try congruence; auto.
  - clear S NS. crush d; auto; intros X; destruct (L X) as [L1 [L2|[L2 L3]]]; split; try congruence; auto.
  - clear S NS. crush d; auto.
  - auto.
Qed.
Lemma step_close_cb : forall o d, v_close_cb (fst (step o d)) = true -> v_close_cb d = true \/ is_close o = true.
Proof.
  intros o d. open_step o; cbn [fst snd is_close]; auto.
  - unfold attacher_info. cbn. destruct (a_module d); cbn; auto.
  - crush d; auto.
  - crush d; auto.
  - crush d; auto.
  - crush d; auto.
  - crush d; auto.
  - crush d; auto.
  - crush d; auto.
  - crush d; auto.
  - crush d; auto.
  - crush d; auto.
  - crush d; auto.
Qed.
Lemma reach_close_cb : forall h, v_close_cb (fst (run init h)) = true -> existsb is_close h = true.
Proof.
  induction h as [|o h IH] using rev_ind; [discriminate|]. rewrite run_snoc. cbn [fst]. intros S. rewrite existsb_app. destruct (step_close_cb o _ S) as [X|X]; [rewrite (IH X); reflexivity|]. cbn. rewrite X. apply orb_true_r.
Qed.
Lemma reach_live : forall h, one_life h -> calm h -> live (fst (run init h)).
Proof.
  induction h as [|o h IH] using rev_ind; intros O C; [discriminate|]. rewrite run_snoc. cbn [fst]. apply step_live.
  - apply IH; [apply (one_life_snoc _ _ O)|]. intros X. apply C. apply in_app_iff. auto.
  - intros ->. apply C. apply in_app_iff. right. left. reflexivity.
  - intros S. destruct o as [f k| | | | | | | | | | | | | |]; try discriminate. destruct (v_close_cb (fst (run init h))) eqn:E; [|reflexivity]. rewrite <- (O h f k [] eq_refl). symmetry. exact (reach_close_cb h E).
Qed.

(** What the completions do. *)
Definition rank (d : dev) : nat := match v_stage d with None => 0 | Some Stun => 1 | Some Local => 2 | Some P2p => 3 end.
Lemma bound_rank : forall c d, rank (fst (bound c d)) <= pred (rank d).
Proof. intros c d. unfold rank. crush d; auto. Qed.
Lemma event_keeps : forall o d, (o = ConnsClosed \/ o = AttachClosed \/ exists c, o = PlatClosed c) ->
  v_stage (fst (step o d)) = v_stage d /\ (v_conns d = false -> v_conns (fst (step o d)) = false) /\
  (o <> ConnsClosed -> a_closing d = false -> a_closing (fst (step o d)) = false) /\ (v_close_cb d = false -> v_close_cb (fst (step o d)) = false).
Proof. intros o d [->|[->|[c ->]]]; cbn [step]; crush d; repeat split; auto; congruence. Qed.
