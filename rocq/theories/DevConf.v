(** Lemmas about the configuration of a device: its strings, ports and settings. *)
From Coq Require Import String List Bool Arith Lia NArith.
From Verif Require Import DevModel DevSpec DevProofs DevMore DevLife.
Import ListNotations.

(** The heap. *)
Record heap_ok (d : dev) : Prop := {
  h_in : forall f p, v_str d f = Some p -> deref p d <> None;
  h_next : forall p, deref p d <> None -> p < v_next d;
  h_inj : forall f g p, v_str d f = Some p -> v_str d g = Some p -> f = g }.
Lemma field_eqb_spec : forall a b, reflect (a = b) (field_eqb a b).
Proof. destruct a, b; constructor; congruence. Qed.
Lemma deref_release : forall h p q, find (fun x : ptr * string => Nat.eqb (fst x) q) (release (Some p) h) = if Nat.eqb p q then None else find (fun x => Nat.eqb (fst x) q) h.
Proof.
  induction h as [|[a s] h IH]; intros p q; cbn [release find filter fst]; [destruct (Nat.eqb p q); reflexivity|]. cbn [release] in IH. destruct (Nat.eqb_spec a p) as [->|N]; cbn [negb find fst].
  - rewrite IH. destruct (Nat.eqb p q); reflexivity.
  - rewrite IH. destruct (Nat.eqb_spec a q) as [->|M]; [|reflexivity]. destruct (Nat.eqb_spec p q); [congruence|reflexivity].
Qed.
Lemma deref_free : forall d f x n p, heap_ok d -> deref p (set_str x (release (v_str d f) (v_heap d)) n d) = match v_str d f with Some q => if Nat.eqb q p then None else deref p d | None => deref p d end.
Proof. intros d f x n p H. unfold deref. cbn [v_heap set_str]. destruct (v_str d f) as [q|]; [rewrite deref_release; destruct (Nat.eqb q p); reflexivity|reflexivity]. Qed.
Lemma assign_heap : forall f v oom d, heap_ok d -> let e := fst (assign f v oom d) in heap_ok e /\
  (forall g, g <> f -> v_str e g = v_str d g /\ forall p, v_str d g = Some p -> deref p e = deref p d) /\
  (if oom then v_str e f = None else exists p, v_str e f = Some p /\ deref p e = Some v).
Proof.
  intros f v oom d H. unfold assign. destruct oom; cbn [fst].
  - split; [|split].
    + constructor.
      * cbn [v_str set_str]. unfold upd. intros g p. destruct (field_eqb_spec g f) as [->|N]; [discriminate|]. intros S. rewrite deref_free by exact H. destruct (v_str d f) as [q|] eqn:Q; [|eapply h_in; eauto]. destruct (Nat.eqb_spec q p) as [->|]; [|eapply h_in; eauto]. destruct N. eapply h_inj; eauto.
      * intros p. rewrite deref_free by exact H. cbn [v_next set_str]. intros D. apply (h_next _ H). destruct (v_str d f); [destruct (Nat.eqb p0 p); congruence|exact D].
      * cbn [v_str set_str]. unfold upd. intros a b p. destruct (field_eqb_spec a f), (field_eqb_spec b f); try discriminate. eapply h_inj; eauto.
    + intros g N. cbn [v_str set_str]. unfold upd. destruct (field_eqb_spec g f) as [->|_]; [congruence|]. split; [reflexivity|]. intros p S. rewrite deref_free by exact H. destruct (v_str d f) as [q|] eqn:Q; [|reflexivity]. destruct (Nat.eqb_spec q p) as [->|]; [|reflexivity]. destruct N. eapply h_inj; eauto.
    + cbn [v_str set_str]. unfold upd. destruct (field_eqb_spec f f); congruence.
  - assert (DF : forall x n p, deref p (set_str x ((v_next d, v) :: release (v_str d f) (v_heap d)) n d) = if Nat.eqb (v_next d) p then Some v else match v_str d f with Some q => if Nat.eqb q p then None else deref p d | None => deref p d end).
    { intros x n p. unfold deref at 1. cbn [v_heap set_str find fst]. destruct (Nat.eqb (v_next d) p); [reflexivity|]. apply (deref_free d f x n p H). }
    split; [|split].
    + constructor.
      * cbn [v_str set_str]. unfold upd. intros g p. rewrite DF. destruct (field_eqb_spec g f) as [->|N]; [intros S; injection S as <-; rewrite Nat.eqb_refl; discriminate|]. intros S. destruct (Nat.eqb (v_next d) p); [discriminate|]. destruct (v_str d f) as [q|] eqn:Q; [|eapply h_in; eauto]. destruct (Nat.eqb_spec q p) as [->|]; [|eapply h_in; eauto]. destruct N. eapply h_inj; eauto.
      * intros p. rewrite DF. cbn [v_next set_str]. destruct (Nat.eqb_spec (v_next d) p) as [<-|]; [lia|]. intros D. apply Nat.lt_lt_succ_r. apply (h_next _ H). destruct (v_str d f); [destruct (Nat.eqb p0 p); congruence|exact D].
      * cbn [v_str set_str]. unfold upd. assert (NX : forall g, v_str d g <> Some (v_next d)). { intros g S. pose proof (h_next _ H _ (h_in _ H _ _ S)). lia. }
        intros a b p. destruct (field_eqb_spec a f), (field_eqb_spec b f); subst; auto; intros X Y; try (eapply h_inj; eauto); exfalso; [apply (NX b)|apply (NX a)]; congruence.
    + intros g N. cbn [v_str set_str]. unfold upd. destruct (field_eqb_spec g f) as [->|_]; [congruence|]. split; [reflexivity|]. intros p S. rewrite DF. pose proof (h_next _ H _ (h_in _ H _ _ S)). destruct (Nat.eqb_spec (v_next d) p); [lia|]. destruct (v_str d f) as [q|] eqn:Q; [|reflexivity]. destruct (Nat.eqb_spec q p) as [->|]; [|reflexivity]. destruct N. eapply h_inj; eauto.
    + exists (v_next d). cbn [v_str set_str]. unfold upd. destruct (field_eqb_spec f f); [|congruence]. split; [reflexivity|]. rewrite DF, Nat.eqb_refl. reflexivity.
Qed.
(** The strings change only by the calls which set them, and by a start. *)
Lemma step_str : forall o d, is_start o = false -> is_set_str o = false -> v_str (fst (step o d)) = v_str d /\ v_heap (fst (step o d)) = v_heap d /\ v_next (fst (step o d)) = v_next d.
Proof.
  intros o d. destruct o as [f k|f active|active|b keep| | | |b|p l|fl v oom|c| | |c|]; cbn [is_start is_set_str]; try discriminate; intros _ _; cbn [step].
  - crush d; auto.
  - crush d; auto.
  - crush d; auto.
  - crush d; auto.
  - crush d; auto.
  - crush d; auto.
  - crush d; auto.
  - crush d; auto.
  - crush d; auto.
  - crush d; auto.
  - crush d; auto.
  - crush d; auto.
  - auto.
Qed.
Lemma step_ports : forall o d, v_ports (fst (step o d)) = ports1 (v_ports d) (o, snd (step o d)).
Proof.
  intros o d. open_step o; cbn [fst snd ports1].
  - auto.
  - auto.
  - unfold attacher_info. cbn. destruct (a_module d); reflexivity.
  - crush d; auto.
  - crush d; auto.
  - crush d; auto.
  - crush d; auto.
  - crush d; auto.
  - crush d; auto.
  - crush d; auto.
  - crush d; auto.
  - auto.
  - auto.
  - crush d; auto.
  - crush d; auto.
  - crush d; auto.
  - crush d; auto.
  - auto.
Qed.
Lemma reach_ports : forall h, v_ports (fst (run init h)) = ports (snd (run init h)).
Proof. induction h as [|o h IH] using rev_ind; [reflexivity|]. rewrite run_snoc. cbn [fst snd]. unfold ports. rewrite fold_left_app. cbn [fold_left]. rewrite step_ports, IH. reflexivity. Qed.
Lemma conf_snoc : forall t x f, conf (t ++ [x]) f = conf1 f x (conf t f).
Proof. intros. unfold conf. rewrite fold_left_app. reflexivity. Qed.
Definition holds (t : trace) (d : dev) : Prop := forall f, match conf t f with Some s => exists p, v_str d f = Some p /\ deref p d = Some s | None => v_str d f = None end.
Lemma step_holds : forall o d t, is_start o = false -> heap_ok d -> holds t d -> heap_ok (fst (step o d)) /\ holds (t ++ [(o, snd (step o d))]) (fst (step o d)).
Proof.
  intros o d t S H C. destruct (is_set_str o) eqn:E.
  - destruct o as [| | | | | | | | |f v oom| | | | |]; try discriminate.
    cut (heap_ok (fst (step (SetStr f v oom) d)) /\ forall g, match conf1 g (SetStr f v oom, snd (step (SetStr f v oom) d)) (conf t g) with Some s => exists p, v_str (fst (step (SetStr f v oom) d)) g = Some p /\ deref p (fst (step (SetStr f v oom) d)) = Some s | None => v_str (fst (step (SetStr f v oom) d)) g = None end).
    { intros [X Y]. split; [exact X|]. intros g. rewrite conf_snoc. apply Y. }
    clear E S. cbn [step]. destruct (v_closing d); [split; [exact H|]; exact C|].
    assert (X : let e := fst (assign f v oom d) in heap_ok e /\ forall g, match conf1 g (SetStr f v oom, [Returned (snd (assign f v oom d))]) (conf t g) with Some s => exists p, v_str e g = Some p /\ deref p e = Some s | None => v_str e g = None end).
    { destruct (assign_heap f v oom d H) as (A1 & A2 & A3). cbv zeta. split; [exact A1|]. intros g. destruct (field_eqb_spec f g) as [<-|N].
      - destruct oom; cbn in *; destruct (field_eqb_spec f f); try congruence.
      - assert (Y : conf1 g (SetStr f v oom, [Returned (snd (assign f v oom d))]) (conf t g) = conf t g). { cbn. destruct (snd _); auto; destruct (field_eqb_spec f g); congruence. }
        rewrite Y. destruct (A2 g ltac:(congruence)) as [B1 B2]. specialize (C g). destruct (conf t g) as [s|]; [|congruence]. destruct C as (p & P1 & P2). exists p. split; [congruence|]. rewrite (B2 p P1). exact P2. }
    cbv zeta in X. destruct (assign f v oom d) as [d1 c]. cbn [fst snd] in X.
    destruct f; cbn [fst snd]; try exact X; destruct (32 <? String.length v); cbn [fst snd]; try exact X; (split; [exact H|exact C]).
  - destruct (step_str o d S E) as (A1 & A2 & A3). split.
    + constructor; unfold deref; rewrite ?A1, ?A2, ?A3; apply H.
    + intros f. rewrite conf_snoc. assert (Y : forall v, conf1 f (o, snd (step o d)) v = v) by (intros; destruct o; try discriminate; reflexivity). rewrite Y. specialize (C f). unfold deref. rewrite A1, A2. exact C.
Qed.
Lemma heap_init : heap_ok init.
Proof. constructor; cbn; try discriminate. intros p N. destruct N. reflexivity. Qed.
Lemma reach_holds : forall h, existsb is_start h = false -> heap_ok (fst (run init h)) /\ holds (snd (run init h)) (fst (run init h)).
Proof.
  induction h as [|o h IH] using rev_ind; intros N; [split; [apply heap_init|intros f; reflexivity]|]. rewrite existsb_app in N. apply orb_false_elim in N as [N1 N2]. cbn in N2. rewrite orb_false_r in N2. rewrite run_snoc. cbn [fst snd]. destruct (IH N1) as [A B]. apply step_holds; auto.
Qed.

(** Before a start the attacher is idle. *)
Record idle (d : dev) : Prop := { u_phase : v_closing d = true \/ v_phase d = Setup; u_running : v_phase d <> Running; u_module : a_module d = MSetup; u_stage : v_stage d = None }.
Lemma step_idle : forall o d, is_start o = false -> idle d -> idle (fst (step o d)).
Proof.
  intros o d S [A A1 B C]. open_step o; cbn [fst snd is_start] in *; try discriminate; try (constructor; assumption).
  - clear S. crush d; constructor; cbn; auto; try congruence; destruct A; congruence.
  - clear S. crush d; constructor; cbn; auto; try congruence; destruct A; congruence.
  - clear S. crush d; constructor; cbn; auto; try congruence; destruct A; congruence.
  - clear S. crush d; constructor; cbn; auto; try congruence; destruct A; congruence.
  - clear S. crush d; constructor; cbn; auto; try congruence; destruct A; congruence.
  - clear S. crush d; constructor; cbn; auto; try congruence; destruct A; congruence.
  - clear S. crush d; constructor; cbn; auto; try congruence; destruct A; congruence.
  - clear S. crush d; constructor; cbn; auto; try congruence; destruct A; congruence.
  - clear S. crush d; constructor; cbn; auto; try congruence; destruct A; congruence.
  - clear S. constructor; cbn; auto. destruct A; [discriminate|auto].
  - clear S. crush d; constructor; cbn; auto; try congruence; destruct A; congruence.
  - clear S. crush d; constructor; cbn; auto; try congruence; destruct A; congruence.
  - clear S. crush d; constructor; cbn; auto; try congruence; destruct A; congruence.
  - clear S. crush d; constructor; cbn; auto; try congruence; destruct A; congruence.
Qed.
Lemma reach_idle : forall h, existsb is_start h = false -> idle (fst (run init h)).
Proof.
  induction h as [|o h IH] using rev_ind; intros N; [constructor; cbn; auto; discriminate|]. rewrite existsb_app in N. apply orb_false_elim in N as [N1 N2]. cbn in N2. rewrite orb_false_r in N2. rewrite run_snoc. cbn [fst snd]. apply step_idle; auto.
Qed.

(** After the start the attacher uses the strings of the device. *)
Definition busy (d : dev) : Prop := v_phase d = Running \/ v_stage d <> None \/ a_module d <> MSetup.
Definition shows (t : trace) (d : dev) : Prop := text (v_str d Url) d = Some (or_empty (host t)) /\ forall f, f <> Url -> text (v_str d f) d = Some (or_empty (conf t f)).
Definition fixed (P : Prop) (d : dev) : Prop := (busy d -> P /\ forall f, f <> Url -> a_str d f = v_str d f) /\ (a_module d <> MSetup -> a_str d Url = v_str d Url).
Ltac fx A B := split; intros X;
  [ first [ exfalso; solve [intuition congruence] |
      let A1 := fresh in let A2 := fresh in let f := fresh in let NU := fresh in
      destruct A as [A1 A2]; [solve [intuition congruence | right; left; discriminate]|]; split; [exact A1|]; intros f NU; specialize (A2 f NU); destruct f; cbn; first [exact A2 | congruence] ]
  | first [ solve [apply B; congruence] | reflexivity | congruence ] ].
Lemma step_fixed : forall P o d, is_start o = false -> is_set_str o = false -> fixed P d -> fixed P (fst (step o d)).
Proof.
  intros P o d S S1 [A B]. open_step o; cbn [fst snd is_start is_set_str] in *; try discriminate; clear S S1.
  all: try (split; assumption).
  all: unfold fixed, busy in *.
  - crush d; auto; fx A B.
  - crush d; auto; fx A B.
  - crush d; auto; fx A B.
  - crush d; auto.
  - crush d; auto.
  - crush d; auto.
  - crush d; auto.
  - crush d; auto.
  - crush d; auto; fx A B.
  - crush d; auto; fx A B.
  - crush d; auto; fx A B.
  - crush d; auto; fx A B.
Qed.
