(** Proofs for the properties C37 to C41: from steps to histories. *)
From Coq Require Import List Bool Arith Lia.
From Verif Require Import AttachModel AttachSpec AttachProofs AttachMore AttachTurns AttachClose AttachLive AttachRank AttachTokens.
Import ListNotations.

Lemma run_app : forall h1 h2 s, run s (h1 ++ h2) = let (s1, t1) := run s h1 in let (s2, t2) := run s1 h2 in (s2, t1 ++ t2).
Proof.
  induction h1 as [|[o e] h1 IH]; intros h2 s; cbn; [destruct (run s h2); reflexivity|].
  destruct (step e o s) as [s1 l]. rewrite IH. destruct (run s1 h1) as [s2 t1]. destruct (run s2 h2). reflexivity.
Qed.
Lemma obeys_app : forall h1 h2 s w, obeys s w (h1 ++ h2) <-> obeys s w h1 /\ obeys (fst (run s h1)) (fold_left see (snd (run s h1)) w) h2.
Proof.
  induction h1 as [|[o e] h1 IH]; intros h2 s w; cbn; [tauto|].
  destruct (step e o s) as [s1 l]. rewrite IH. destruct (run s1 h1) as [s2 t1]. cbn. tauto.
Qed.
Lemma trace_split : forall h s t1 m l t2, snd (run s h) = t1 ++ (m, l) :: t2 ->
  exists h1 h2, h = h1 ++ m :: h2 /\ snd (run s h1) = t1 /\ l = snd (step (snd m) (fst m) (fst (run s h1))) /\
    t2 = snd (run (fst (step (snd m) (fst m) (fst (run s h1)))) h2).
Proof.
  induction h as [|[o e] h IH]; intros s t1 m l t2 H; [destruct t1; discriminate|].
  cbn in H. destruct (step e o s) as [s1 l0] eqn:ST. destruct (run s1 h) as [s2 t] eqn:R. cbn in H.
  destruct t1 as [|x t1]; cbn in H.
  - injection H as <- <- <-. exists [], h. cbn. rewrite ST. cbn. rewrite R. auto.
  - injection H as <- H. specialize (IH s1 t1 m l t2). rewrite R in IH. destruct (IH H) as (h1 & h2 & -> & H1 & H2 & H3).
    exists ((o, e) :: h1), h2. cbn. rewrite ST. destruct (run s1 h1) as [s3 t3]. cbn in *. subst. auto.
Qed.
Lemma outs_app : forall a b, outs (a ++ b) = outs a ++ outs b.
Proof. intros. apply flat_map_app. Qed.

Lemma reached_inv : forall h, reached h -> inv (fst (run init h)) (world_of (snd (run init h))).
Proof. intros h H. apply run_inv; auto. apply inv_init. Qed.
Lemma all_true : forall h : list move, forallb (fun _ => true) h = true.
Proof. intros h. apply forallb_forall. auto. Qed.

(** C37 *)
Lemma hops_fold : forall t n, fold_left (fun g x => hops g (snd x)) t n = hops n (outs t).
Proof. induction t as [|x t IH]; intros n; [reflexivity|]. cbn. rewrite IH, <- hops_app. reflexivity. Qed.
Lemma reached_hops : forall h, reached h -> hops 0 (outs (snd (run init h))) <= 4 /\ redirect_ok (fst (run init h)) (hops 0 (outs (snd (run init h)))).
Proof.
  intros h H. rewrite <- hops_fold.
  apply (run_keeps nat (fun g x => hops g (snd x)) (fun s w n => n <= 4 /\ redirect_ok s n) (fun _ => true)) with (w := outside); auto.
  - intros e o s w n _ I A K [L R]. destruct (step_redirect e o s w n I K L R) as [X Y]. cbn [snd]. split; [|exact Y]. apply bounded_last. exact X.
  - apply all_true.
  - apply inv_init.
  - split; [lia|cbn; auto].
Qed.
Lemma hops_bound : forall h l1 l2, reached h -> outs (snd (run init h)) = l1 ++ l2 -> hops 0 l1 <= 4.
Proof.
  intros h. induction h as [|m h IH] using rev_ind; intros l1 l2 H E.
  - destruct l1; [cbn; lia|discriminate].
  - unfold reached in H. rewrite obeys_app in H. destruct H as [H1 H2].
    destruct (reached_hops h H1) as [X Y]. pose proof (reached_inv h H1) as I. unfold world_of in I.
    rewrite run_app in E. destruct (run init h) as [s t] eqn:R. cbn [fst snd] in *. destruct m as [o e]. cbn [run] in E.
    destruct H2 as [A _]. pose proof (step_redirect e o s _ _ I (what_is_known _ _ _ I A) X Y) as [B _].
    destruct (step e o s) as [s1 l]. cbn [snd fst] in *. rewrite outs_app in E. unfold outs at 2 in E. cbn in E. rewrite app_nil_r in E.
    assert (C : (exists r, outs t = l1 ++ r) \/ exists r, l1 = outs t ++ r /\ l = r ++ l2).
    { clear -E. revert l1 E. induction (outs t) as [|x ts IHt]; intros l1 E; [right; exists l1; auto|].
      destruct l1 as [|y l1]; [left; eexists; reflexivity|]. injection E as -> E. destruct (IHt _ E) as [[r ->]|(r & -> & ->)]; [left|right]; exists r; auto. }
    destruct C as [[r C]|(r & -> & C)]; [eapply IH; eauto|]. rewrite hops_app. eapply bounded_prefix; eauto.
Qed.

Definition resolves (x : out) : bool := match x with Resolve _ => true | _ => false end.
Definition from_goto (s : st) (g : option nat) : Prop :=
  forall n, p_host s = Some (Other n) -> g = Some n.
Definition to_other (s : st) : Prop := p_state s = Redirect -> exists n, p_host s = Some (Other n).
Definition goto_of (g : option nat) (x : move * list out) : option nat := last_goto g [x].
Lemma goto_fold : forall t g, fold_left goto_of t g = last_goto g t.
Proof.
  induction t as [|[[o e] l] t IH]; intros g; [reflexivity|]. cbn [fold_left]. rewrite IH. unfold goto_of.
  destruct o; try reflexivity. destruct a; reflexivity.
Qed.
Lemma step_goto : forall e o s w g, inv s w -> known s w o -> from_goto s g -> from_goto (fst (step e o s)) (goto_of g ((o, e), snd (step e o s))).
Proof.
  intros e o s w g I K F. unfold from_goto, goto_of in *. destruct o; cbn [last_goto].
  all: try solve [open_step; split_step; auto; try discriminate; intros n0; rewrite ?Heqo; auto; try discriminate; congruence].
  destruct a; cbn [last_goto]; try solve [open_step; split_step; auto; try discriminate].
  intros n0 H. destruct (K ltac:(discriminate)) as (c & K1 & K2 & K3 & K4).
  assert (PS : p_start s <> None) by (destruct I as ([B1 B2 B3 B4 B5 B6] & _); rewrite B2, K4; discriminate).
  revert H. open_step; split_step; auto; try discriminate; intros X; try congruence.
Qed.
Lemma step_other_host : forall e o s w, known s w o -> to_other s -> to_other (fst (step e o s)).
Proof.
  intros e o s w K T. unfold to_other in *. destruct o; open_step; split_step; auto; try discriminate; try congruence; eauto.
  all: cbn in K; try solve [intros X; rewrite X in *; destruct (K ltac:(discriminate)) as (c & K1 & K2 & K3 & K4); congruence].
  all: try solve [intros X; rewrite X in *; destruct (K ltac:(reflexivity)) as (c & K1 & K2 & K3 & K4); congruence].
  destruct (K Heqm). congruence.
Qed.
Lemma step_resolve : forall e o s w x, known s w o -> to_other s -> In (Resolve x) (snd (step e o s)) ->
  (x = Configured /\ (o = Start \/ o = Restart \/ o = Timer)) \/
  (exists n c, x = Other n /\ o = Dtls c DtlsClosed /\ p_host s = Some (Other n)).
Proof.
  intros e o s w x K T. unfold to_other in *.
  destruct o; open_step; split_step; intros H; cbn in H; try solve [intuition discriminate].
  all: repeat match type of H with _ \/ _ => destruct H as [H|H] end; try discriminate; try contradiction.
  all: try (injection H as <-); auto.
  all: destruct (T eq_refl) as [n1 E]; injection E as ->; right; exists n1; eexists; repeat split; assumption.
Qed.
Lemma reached_goto : forall h, reached h -> from_goto (fst (run init h)) (last_goto None (snd (run init h))) /\ to_other (fst (run init h)).
Proof.
  intros h H. rewrite <- goto_fold.
  apply (run_keeps (option nat) goto_of (fun s w g => from_goto s g /\ to_other s) (fun _ => true)) with (w := outside); auto.
  - intros e o s w g _ I A K [F T]. split; [eapply step_goto; eauto|eapply step_other_host; eauto].
  - apply all_true.
  - apply inv_init.
  - split; [intros n X; discriminate|intros X; discriminate].
Qed.
Lemma reached_step : forall h1 o e h2, reached (h1 ++ (o, e) :: h2) ->
  reached h1 /\ inv (fst (run init h1)) (world_of (snd (run init h1))) /\ allowed (world_of (snd (run init h1))) o /\
  known (fst (run init h1)) (world_of (snd (run init h1))) o.
Proof.
  intros h1 o e h2 H. unfold reached in H. rewrite obeys_app in H. destruct H as [H1 H2]. pose proof (reached_inv h1 H1) as I. unfold world_of in *.
  destruct (run init h1) as [s t]. cbn [fst snd] in *. destruct H2 as [A _]. split; [auto|split; [auto|split; [auto|]]]. apply what_is_known; auto.
Qed.
Lemma resolve_from : forall h t1 m l t2 x, reached h -> snd (run init h) = t1 ++ (m, l) :: t2 -> In (Resolve x) l ->
  (x = Configured /\ (fst m = Start \/ fst m = Restart \/ fst m = Timer)) \/
  (exists n c, x = Other n /\ fst m = Dtls c DtlsClosed /\ last_goto None t1 = Some n).
Proof.
  intros h t1 [o e] l t2 x H E X. destruct (trace_split _ _ _ _ _ _ E) as (h1 & h2 & -> & E1 & E2 & _). cbn [fst snd] in *.
  destruct (reached_step h1 o e h2 H) as (H1 & I & A & K). destruct (reached_goto h1 H1) as [F T]. rewrite E2 in X.
  destruct (step_resolve e o _ _ x K T X) as [D|(n & c & -> & -> & Y)]; [left; exact D|right].
  exists n, c. repeat split. rewrite <- E1. apply F. exact Y.
Qed.
(** After the redirect number five the device waits. *)
Lemma not_stopped : forall h s, p_mod s <> Stopped -> forallb (fun m => negb (closes m)) h = true -> p_mod (fst (run s h)) <> Stopped.
Proof.
  induction h as [|[o e] h IH]; intros s M C; [exact M|]. cbn in C. apply andb_prop in C. destruct C as [C1 C2].
  cbn [run]. assert (X : p_mod (fst (step e o s)) <> Stopped).
  { destruct o; try discriminate; open_step; split_step; congruence. }
  destruct (step e o s) as [s1 l]. specialize (IH s1 X C2). destruct (run s1 h). exact IH.
Qed.
Lemma goto_step : forall e n s c, p_mod s = Running -> p_start s <> None -> p_dtls s = Some c ->
  let s1 := fst (step e (StartAnswer (Goto n)) s) in
  p_state s1 = Redirect /\ p_mod s1 = Running /\ p_redirects s1 = (p_redirects s + 1) mod 256.
Proof.
  intros e n s c M PS D. cbn zeta. cbn [step]. destruct (p_start s); [|congruence]. unfold start_answer, andthen. cbn [set_start set_host fst snd]. rewrite M.
  unfold close_dtls. cbn [set_state set_redirects fst snd p_dtls]. rewrite D. cbn. auto.
Qed.
Lemma fifth_step : forall e c s, p_state s = Redirect -> p_mod s = Running -> 5 <= p_redirects s ->
  In (Wait 10) (snd (step e (Dtls c DtlsClosed) s)) /\ forall y, ~ In (Resolve y) (snd (step e (Dtls c DtlsClosed) s)).
Proof.
  intros e c s S M R. open_step. rewrite M, S. assert (X : Nat.leb max_redirect (p_redirects s) = true) by (apply Nat.leb_le; exact R).
  rewrite X. destruct (p_dtls s); red_step; rewrite ?S; cbn; (split; [tauto|intros y; intuition discriminate]).
Qed.
Lemma gives_up : forall h n c e1 e2, reached (h ++ [(StartAnswer (Goto n), e1); (Dtls c DtlsClosed, e2)]) ->
  forallb (fun m => negb (closes m)) h = true -> hops 0 (outs (snd (run init h))) = 4 ->
  forall t x, snd (run init (h ++ [(StartAnswer (Goto n), e1); (Dtls c DtlsClosed, e2)])) = t ++ [x] ->
  In (Wait 10) (snd x) /\ forall y, ~ In (Resolve y) (snd x).
Proof.
  intros h n c e1 e2 H C P t x E.
  destruct (reached_step h _ _ _ H) as (H1 & I & A & K). destruct (reached_hops h H1) as [L R].
  assert (M : p_mod (fst (run init h)) <> Stopped) by (apply not_stopped; [discriminate|exact C]).
  rewrite run_app in E. destruct (run init h) as [s t0]. cbn [fst snd] in *. rewrite P in *.
  destruct (K ltac:(discriminate)) as (c0 & K1 & K2 & K3 & K4).
  assert (PS : p_start s <> None) by (destruct I as ([B1 B2 B3 B4 B5 B6] & _); rewrite B2, K4; discriminate).
  assert (PM : p_mod s = Running) by (destruct (p_mod s); congruence).
  unfold redirect_ok in R. rewrite PM, K3 in R.
  destruct (goto_step e1 n s c0 PM PS K1) as (G1 & G2 & G3). cbn [run] in E.
  destruct (step e1 (StartAnswer (Goto n)) s) as [s1 l1]. cbn [fst] in *.
  assert (X : 5 <= p_redirects s1) by (rewrite G3, Nat.mod_small by lia; lia).
  pose proof (fifth_step e2 c s1 G1 G2 X) as F. destruct (step e2 (Dtls c DtlsClosed) s1) as [s2 l2]. cbn [fst snd] in *.
  change [(StartAnswer (Goto n), e1, l1); (Dtls c DtlsClosed, e2, l2)] with ([(StartAnswer (Goto n), e1, l1)] ++ [(Dtls c DtlsClosed, e2, l2)]) in E.
  rewrite app_assoc in E. apply app_inj_tail in E. destruct E as [_ <-]. exact F.
Qed.

(** C38 *)
Lemma turns_fold : forall h, reached h -> turns false (events (snd (run init h))) /\ attached (fst (run init h)) = is_attached false (events (snd (run init h))).
Proof.
  intros h. induction h as [|[o e] h IH] using rev_ind; intros H; [cbn; auto|].
  destruct (reached_step h o e [] H) as (H1 & I & A & K). destruct (IH H1) as [T1 T2]. destruct (step_turns e o _ _ K) as [S1 S2].
  rewrite run_app. destruct (run init h) as [s t]. cbn [fst snd run] in *. destruct (step e o s) as [s1 l]. cbn [fst snd] in *.
  unfold events in *. rewrite flat_map_app. cbn. rewrite app_nil_r. rewrite turns_app, is_attached_app, <- T2. auto.
Qed.
Lemma no_disable : forall h s, p_cb s <> Some Disable -> forallb (fun m => negb (disables m)) h = true -> events (snd (run s h)) = outs (snd (run s h)).
Proof.
  induction h as [|[o e] h IH]; intros s C D; [reflexivity|]. cbn in D. apply andb_prop in D. destruct D as [D1 D2].
  cbn [run]. destruct (step_cb e o s C) as [S1 S2]; [destruct (disables (o, e)); [discriminate|auto]|].
  destruct (step e o s) as [s1 l]. specialize (IH s1 S1 D2). destruct (run s1 h) as [s2 t]. unfold events, outs in *. cbn in *. congruence.
Qed.
Lemma believes : forall h, reached h -> is_attached false (outs (snd (run init h))) = true -> p_state (fst (run init h)) = Attached.
Proof.
  intros h H X. assert (G : is_attached false (outs (snd (run init h))) = true -> attached (fst (run init h)) = true).
  { clear X. induction h as [|[o e] h IH] using rev_ind; [discriminate|].
    destruct (reached_step h o e [] H) as (H1 & I & A & K). specialize (IH H1).
    rewrite run_app. destruct (run init h) as [s t]. cbn [fst snd run] in *.
    pose proof (step_believes e o s _ _ K IH) as B. destruct (step e o s) as [s1 l]. cbn [fst snd] in *.
    rewrite outs_app, is_attached_app. unfold outs at 2. cbn. rewrite app_nil_r. exact B. }
  specialize (G X). unfold attached in G. destruct (p_state _); congruence.
Qed.

(** C39 *)
Lemma answered_app : forall k (a b : trace), answered k (a ++ b) = answered k a + answered k b.
Proof. intros. unfold answered. rewrite outs_app, filter_app, app_length. reflexivity. Qed.
Lemma asked_app : forall k (a b : trace), asked k (a ++ b) = asked k a + asked k b.
Proof. intros. unfold asked. rewrite filter_app, app_length. reflexivity. Qed.
Lemma counts : forall h k, answered k (snd (run init h)) + held k (fst (run init h)) <= asked k (snd (run init h)).
Proof.
  intros h k. induction h as [|[o e] h IH] using rev_ind; [cbn; lia|].
  rewrite run_app. destruct (run init h) as [s t]. cbn [fst snd run] in *. pose proof (step_count e o s k) as C.
  destruct (step e o s) as [s1 l]. cbn [fst snd] in *. rewrite answered_app, asked_app.
  assert (G : forall a b c d x y, a + b <= c -> x + y <= d + b -> a + x + y <= c + d) by (intros; lia). exact (G _ _ _ _ _ _ IH C).
Qed.
Lemma quiet : forall h s w, inv s w -> obeys s w h -> p_mod s <> Running -> forallb (fun m => negb (begins m)) h = true ->
  existsb attempt (outs (snd (run s h))) = false /\ p_mod (fst (run s h)) <> Running.
Proof.
  induction h as [|[o e] h IH]; intros s w I O M B; [auto|]. cbn in B. apply andb_prop in B. destruct B as [B1 B2]. destruct O as [O1 O2].
  destruct (step_quiet e o s w (what_is_known _ _ _ I O1) I M) as [Q1 Q2]; [destruct (begins (o, e)); [discriminate|auto]|].
  pose proof (step_inv e o s w I O1) as I1. cbn [run]. destruct (step e o s) as [s1 l]. cbn [fst snd] in *.
  destruct (IH s1 _ I1 O2 Q2 B2) as [X Y]. destruct (run s1 h) as [s2 t]. cbn [fst snd] in *. split; auto.
  unfold outs in *. cbn. rewrite existsb_app, X, orb_false_r. clear -Q1. induction l as [|x l IH]; [reflexivity|].
  cbn in *. apply andb_prop in Q1. destruct Q1 as [Q1 Q2]. destruct (attempt x); [discriminate|auto].
Qed.
Lemma closes_stop : forall e o s, closes (o, e) = true -> p_mod (fst (step e o s)) <> Running.
Proof. intros e o s C. destruct o; try discriminate; open_step; split_step; congruence. Qed.
