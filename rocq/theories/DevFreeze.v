(** Lemmas about the configuration of a device after its start. *)
From Coq Require Import String List Bool Arith Lia NArith.
From Verif Require Import DevModel DevSpec DevProofs DevMore DevLife DevConf.
Import ListNotations.

Lemma shows_same : forall t d e, v_str e = v_str d -> v_heap e = v_heap d -> shows t d -> shows t e.
Proof. intros t d e S H [A B]. unfold shows, text, deref in *. rewrite S, H. split; [exact A|exact B]. Qed.
Lemma holds_text : forall t d f, holds t d -> text (v_str d f) d = Some (or_empty (conf t f)).
Proof. intros t d f H. specialize (H f). destruct (conf t f) as [s|]; cbn; [destruct H as (p & -> & E); exact E|rewrite H; reflexivity]. Qed.
Lemma core_start_fixed : forall t d, heap_ok d -> holds t d -> a_module d = MSetup -> v_phase d <> Running -> v_stage d = None ->
  let r := core_start d in (snd (fst r) <> Ok /\ ~ busy (fst (fst r))) \/ (snd (fst r) = Ok /\ shows t (fst (fst r)) /\ (forall f, f <> Url -> a_str (fst (fst r)) f = v_str (fst (fst r)) f) /\ a_module (fst (fst r)) = MSetup).
Proof.
  intros t d H C M P S. unfold core_start.
  assert (NB : forall x y z, ~ busy (set_str x y z d)) by (intros; unfold busy; cbn; intuition congruence).
  assert (ND : ~ busy d) by (unfold busy; intuition congruence).
  destruct (v_str d Product) as [p|] eqn:VP; [|left; split; [discriminate|exact ND]]. destruct (v_str d Device) as [i|] eqn:VI; [|left; split; [discriminate|exact ND]].
  assert (CP : exists s, conf t Product = Some s /\ deref p d = Some s). { pose proof (C Product) as X. destruct (conf t Product) as [s|]; [|congruence]. destruct X as (q & X1 & X2). exists s. split; [reflexivity|]. congruence. }
  destruct CP as (ps & CP & DP). rewrite DP.
  set (d1 := match v_str d Url with Some _ => d | None => _ end).
  assert (X : exists x y z, d1 = set_str x y z d). { unfold d1. destruct (v_str d Url); [exists (v_str d), (v_heap d), (v_next d); rewrite same_str; auto|]. destruct (assign_str Url (ps ++ suffix) false d) as (x & y & z & c & ->). exists x, y, z. reflexivity. }
  assert (Y : shows t d1).
  { unfold d1. destruct (v_str d Url) as [u|] eqn:U.
    - split; [|intros f _; apply holds_text; exact C]. unfold host. pose proof (C Url) as CU. pose proof (holds_text t d Url C) as T. rewrite U in T, CU. rewrite U. destruct (conf t Url); [exact T|discriminate].
    - destruct (assign_heap Url (ps ++ suffix) false d H) as (A1 & A2 & A3). destruct (assign Url (ps ++ suffix) false d) as [e c]. cbn [fst] in *. split.
      + destruct A3 as (q & Q1 & Q2). rewrite Q1. cbn. rewrite Q2. unfold host. pose proof (C Url) as CU. destruct (conf t Url) as [s|]; [destruct CU as (? & ? & _); congruence|]. rewrite CP. reflexivity.
      + intros f NU. destruct (A2 f NU) as [B1 B2]. rewrite B1. rewrite <- (holds_text t d f C). unfold text. destruct (v_str d f) eqn:E; [apply B2; reflexivity|reflexivity]. }
  clearbody d1. destruct (mdns_ok d1); [|left; split; [discriminate|]; destruct X as (x & y & z & ->); apply NB]. right.
  split; [reflexivity|]. assert (M1 : a_module d1 = MSetup) by (destruct X as (x & y & z & ->); exact M). cbn [fst snd]. unfold attacher_info. cbn [a_module set_phase]. rewrite M1. cbn. split; [|split; [|exact M1]].
  - apply (shows_same t d1); auto.
  - intros f NU. destruct f; try reflexivity. congruence.
Qed.
Lemma start_fixed : forall f k t d, heap_ok d -> holds t d -> idle d -> fixed (shows t (fst (step (Start f k) d))) (fst (step (Start f k) d)).
Proof.
  intros f k t d H C [U1 U2 U3 U4]. cbn [step].
  assert (ND : forall P e, ~ busy e -> fixed P e). { intros P e B. split; [tauto|]. intros M. destruct B. unfold busy. auto. }
  destruct (v_closing d); [apply ND; unfold busy; intuition congruence|]. unfold start. set (d0 := set_start (v_start_cb d) (Some f) d).
  assert (N0 : ~ busy d0) by (unfold busy, d0; cbn; intuition congruence).
  destruct (v_key d0); [|apply ND; exact N0]. destruct (match a_module d0 with MSetup => k | _ => InvalidState end); try (apply ND; exact N0).
  assert (H0 : heap_ok d0) by (destruct H; constructor; auto). assert (C0 : holds t d0) by exact C.
  pose proof (core_start_fixed t d0 H0 C0 U3 U2 U4) as R. destruct (core_start d0) as [[e c] l]. cbn [fst snd] in R. destruct R as [[R1 R2]|(-> & R2 & R3 & R4)].
  - destruct c; cbn [fst]; try (apply ND; exact R2).
  - cbn [fst]. split; [intros _; split; [exact R2|exact R3]|]. congruence.
Qed.
Lemma run_fixed : forall t h d, existsb is_start h = false -> existsb is_set_str h = false -> fixed (shows t d) d -> fixed (shows t (fst (run d h))) (fst (run d h)).
Proof.
  intros t h. induction h as [|o h IH]; intros d N S F; [exact F|]. cbn [existsb] in N, S. apply orb_false_elim in N as [N1 N2]. apply orb_false_elim in S as [S1 S2]. rewrite run_one. apply IH; auto.
  destruct (step_str o d N1 S1) as (A & B & _). destruct (step_fixed _ o d N1 S1 F) as [X Y]. split; [|exact Y]. intros Z. destruct (X Z) as [X1 X2]. split; [|exact X2]. eapply shows_same; eauto.
Qed.
Lemma attempt_fixed : forall t d, fixed (shows t d) d -> attempt d = [] \/ attempt d = [Attempted (or_empty (host t)) (or_empty (conf t Product)) (or_empty (conf t Device)) (or_empty (conf t App)) (or_empty (conf t Version))].
Proof.
  intros t d [F1 F2]. unfold attempt. destruct (a_module d) eqn:M; auto. right. destruct F1 as [[S1 S2] A]; [unfold busy; intuition congruence|]. rewrite (F2 ltac:(congruence)), !A by discriminate. rewrite S1, !S2 by discriminate. reflexivity.
Qed.

(** Only an attempt uses memory of the application's strings; the futures are there when they are resolved. *)
Lemma step_no_crash : forall o d, good d -> o <> Attempt -> ~ In Crash (snd (step o d)).
Proof.
  intros o d [A B C D]. open_step o; intros NA; cbn [fst snd]; try (cbn; intuition discriminate).
  - clear NA. crush d; intuition congruence.
  - clear NA. crush d; intuition congruence.
  - clear NA. crush d; intuition congruence.
  - clear NA. crush d; intuition congruence.
  - clear NA. crush d; intuition congruence.
  - clear NA. crush d; intuition congruence.
  - clear NA. crush d; intuition congruence.
  - clear NA. crush d; intuition congruence.
  - clear NA. crush d; intuition congruence.
  - clear NA. crush d; intuition congruence.
  - clear NA. crush d; intuition congruence.
  - clear NA. crush d; intuition congruence.
Qed.
Lemma crash_attempts : forall h x, In x (snd (run init h)) -> In Crash (snd x) -> fst x = Attempt.
Proof.
  induction h as [|o h IH] using rev_ind; intros x I C; [destruct I|]. rewrite run_snoc in I. cbn [snd] in I. apply in_app_iff in I as [I|[<-|[]]]; [auto|]. cbn [fst snd] in *. destruct o; try reflexivity; exfalso; revert C; apply step_no_crash; try apply reach_good; discriminate.
Qed.
Definition is_attempted (x : out) : bool := match x with Attempted _ _ _ _ _ => true | _ => false end.
Lemma attempts : forall o d x, In x (snd (step o d)) -> is_attempted x = true -> o = Attempt /\ In x (attempt d).
Proof.
  intros o d x. open_step o; cbn [fst snd]; try (cbn; intuition (subst; discriminate)); auto.
  - crush d; intuition (subst; discriminate).
  - crush d; intuition (subst; discriminate).
  - crush d; intuition (subst; discriminate).
  - crush d; intuition (subst; discriminate).
  - crush d; intuition (subst; discriminate).
  - crush d; intuition (subst; discriminate).
  - crush d; intuition (subst; discriminate).
  - crush d; intuition (subst; discriminate).
  - crush d; intuition (subst; discriminate).
  - crush d; intuition (subst; discriminate).
  - crush d; intuition (subst; discriminate).
  - crush d; intuition (subst; discriminate).
Qed.
Lemma frozen : forall h1 f k h2, existsb is_start h1 = false -> existsb is_start h2 = false -> existsb is_set_str h2 = false ->
  forall x, In x (outs (snd (run init (h1 ++ Start f k :: h2)))) -> x <> Crash /\
  (is_attempted x = true -> let t := snd (run init h1) in x = Attempted (or_empty (host t)) (or_empty (conf t Product)) (or_empty (conf t Device)) (or_empty (conf t App)) (or_empty (conf t Version))).
Proof.
  intros h1 f k h2 N1 N2 S. induction h2 as [|o h2 IH] using rev_ind; intros x I.
  - rewrite run_snoc in I. cbn [snd] in I. rewrite outs_snoc, in_app_iff in I. destruct I as [I|I].
    + split.
      * intros ->. unfold outs in I. apply in_flat_map in I as (y & I1 & I2). pose proof (crash_attempts h1 y I1 I2) as E. revert I1 I2 E. clear S N2. induction h1 as [|o h1 IH] using rev_ind; [intros []|]. rewrite existsb_app in N1. apply orb_false_elim in N1 as [N1 _]. rewrite run_snoc. cbn [snd]. rewrite in_app_iff. intros [I1|[<-|[]]] I2 E; [auto|]. cbn [fst snd] in *. subst o. cbn [step snd] in I2. unfold attempt in I2. rewrite (u_module _ (reach_idle h1 N1)) in I2. destruct I2.
      * intros A. exfalso. unfold outs in I. apply in_flat_map in I as (y & I1 & I2). revert I1 I2 A. clear S N2. induction h1 as [|o h1 IH] using rev_ind; [intros []|]. rewrite existsb_app in N1. apply orb_false_elim in N1 as [N1 _]. rewrite run_snoc. cbn [snd]. rewrite in_app_iff. intros [I1|[<-|[]]] I2 E; [auto|]. cbn [fst snd] in *. destruct (attempts o _ x I2 E) as [-> I3]. unfold attempt in I3. rewrite (u_module _ (reach_idle h1 N1)) in I3. destruct I3.
    + split; [intros ->; revert I; apply step_no_crash; [apply reach_good|discriminate]|]. intros A. destruct (attempts _ _ _ I A) as [E _]. discriminate.
  - rewrite existsb_app in N2, S. apply orb_false_elim in N2 as [N2 _]. apply orb_false_elim in S as [S _]. change (h1 ++ Start f k :: h2 ++ [o]) with (h1 ++ (Start f k :: h2) ++ [o]) in I. rewrite app_assoc, run_snoc in I. cbn [snd] in I. rewrite outs_snoc, in_app_iff in I. destruct I as [I|I]; [auto|]. 
    assert (F : fixed (shows (snd (run init h1)) (fst (run init (h1 ++ Start f k :: h2)))) (fst (run init (h1 ++ Start f k :: h2)))).
    { rewrite run_app. cbn [fst]. rewrite run_one. apply run_fixed; auto. destruct (reach_holds h1 N1) as [A B]. apply start_fixed; auto. apply reach_idle. exact N1. }
    split.
    + intros ->. assert (E : o = Attempt). { destruct o; try reflexivity; exfalso; revert I; apply step_no_crash; try apply reach_good; discriminate. } subst o. cbn [step snd] in I. destruct (attempt_fixed _ _ F) as [E|E]; rewrite E in I; cbn in I; intuition discriminate.
    + intros A. destruct (attempts _ _ _ I A) as [-> I1]. destruct (attempt_fixed _ _ F) as [E|E]; rewrite E in I1; cbn in I1; intuition (subst; auto).
Qed.

(** The phase never returns to the setup. *)
Lemma step_phase : forall o d, v_phase d <> Setup -> v_phase (fst (step o d)) <> Setup.
Proof.
  intros o d P. open_step o; cbn [fst snd]; auto.
  - unfold attacher_info. cbn. destruct (a_module d); discriminate.
  - crush d; congruence.
  - crush d; congruence.
  - crush d; congruence.
  - crush d; congruence.
  - crush d; congruence.
  - crush d; congruence.
  - crush d; congruence.
  - crush d; congruence.
  - crush d; congruence.
  - crush d; congruence.
  - crush d; congruence.
  - crush d; congruence.
Qed.
Lemma step_bind : forall o d n, In (Bind P2p n) (snd (step o d)) -> v_phase (fst (step o d)) <> Setup /\ is_start o = true /\ n = fst (v_ports d).
Proof.
  intros o d n. open_step o; cbn [fst snd is_start]; try (cbn; intuition discriminate).
  - unfold attacher_info. cbn. intros [E|[]]. injection E as ->. destruct (a_module d); cbn; repeat split; discriminate.
  - crush d; intuition discriminate.
  - crush d; intuition discriminate.
  - crush d; intuition discriminate.
  - crush d; intuition discriminate.
  - crush d; intuition discriminate.
  - crush d; intuition discriminate.
  - crush d; intuition discriminate.
  - crush d; intuition discriminate.
  - crush d; intuition discriminate.
  - crush d; intuition discriminate.
  - crush d; intuition discriminate.
  - crush d; intuition discriminate.
  - cbn. unfold attempt. destruct (a_module d); cbn; try tauto. cases; cbn; intuition discriminate.
Qed.
Lemma bound_phase : forall h p, In (Bind P2p p) (outs (snd (run init h))) -> v_phase (fst (run init h)) <> Setup.
Proof.
  induction h as [|o h IH] using rev_ind; intros p I; [destruct I|]. rewrite run_snoc in *. cbn [fst snd] in *. rewrite outs_snoc, in_app_iff in I. destruct I as [I|I]; [apply step_phase; eauto|]. apply (step_bind _ _ _ I).
Qed.
