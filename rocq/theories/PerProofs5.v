(** * Histories of the device *)
From Coq Require Import String Ascii List Bool Arith NArith ZArith Lia.
From Verif Require Import JsonModel JsonProofs IamPolicyModel IamStateModel IamStateSpec IamStateProofs IamStateFrame IamStateInv IamStateReload
  IamJsonModel IamJsonSpec IamJsonProofs PerModel PerSpec PerProofs PerProofs2 PerProofs3 PerProofs4.
Import ListNotations.
Open Scope string_scope.
Open Scope list_scope.
Open Scope nat_scope.

Lemma run_app : forall L K E l l' d d' os, run L K E d (l ++ l') = Some (d', os) <->
  exists d1 o1 o2, run L K E d l = Some (d1, o1) /\ run L K E d1 l' = Some (d', o2) /\ os = o1 ++ o2.
Proof.
  intros L K E. induction l as [|o l IH]; intros l' d d' os; cbn [run app].
  - split; [intros H; exists d, [], os; auto|]. intros (d1 & o1 & o2 & H1 & H2 & ->). injection H1 as <- <-. exact H2.
  - destruct (step L K E d o) as [[d1 o1]|].
    + split.
      * destruct (run L K E d1 (l ++ l')) as [[d2 o2]|] eqn:Hr; [|discriminate]. intros H. injection H as <- <-.
        apply IH in Hr. destruct Hr as (d3 & o3 & o4 & H1 & H2 & ->). exists d3, (o1 ++ o3), o4.
        rewrite H1. repeat split; auto. now rewrite app_assoc.
      * intros (d3 & o3 & o4 & H1 & H2 & ->). destruct (run L K E d1 l) as [[d4 o5]|] eqn:Hr; [|discriminate].
        injection H1 as <- <-. assert (Hx : run L K E d1 (l ++ l') = Some (d', o5 ++ o4)) by (apply IH; eauto 6).
        rewrite Hx. now rewrite app_assoc.
    + split; [discriminate|]. intros (d3 & o3 & o4 & H1 & _). discriminate.
Qed.

(** An event on a running device. *)
Lemma serve_inv : forall L K E d p x e w d' os, d_run d = Some p -> step L K E d (Serve x e w) = Some (d', os) ->
  exists i', IamStateModel.step E (p_iam p) (x, op_of e) = Some i' /\ d_key d' = d_key d /\
    (d_run d' = None \/ d_run d' = Some {| p_iam := i'; p_key := p_key p |}) /\
    (d_state d' = d_state d \/ exists g, d_state d' = Some g /\ begins g (state_dump (i_state i'))) /\
    (i_callbacks (p_iam p) < i_callbacks i' -> d_state d' = fst (write_file w (d_state d) (state_dump (i_state i')))).
Proof.
  intros L K E d p x e w d' os Hp H. cbn [step] in H. rewrite Hp in H.
  destruct (IamStateModel.step E (p_iam p) (x, op_of e)) as [i'|]; [|discriminate]. exists i'. split; [reflexivity|].
  destruct (Nat.ltb (i_callbacks (p_iam p)) (i_callbacks i')) eqn:Hc.
  - unfold user_changed in H. cbn [d_state set_run] in H.
    destruct (write_file w (d_state d) (state_dump (i_state i'))) as [g res] eqn:Hw.
    assert (Hg : d_state d' = g /\ d_key d' = d_key d /\ (d_run d' = None \/ d_run d' = Some {| p_iam := i'; p_key := p_key p |})).
    { destruct res as [[|]|]; injection H as <- <-; cbn; auto. }
    destruct Hg as (-> & Hk & Hr). repeat split; auto.
    apply write_begins in Hw. destruct Hw as [-> |(t & -> & Hb)]; eauto.
  - injection H as <- <-. cbn. repeat split; auto. intros Hlt. apply Nat.ltb_ge in Hc. lia.
Qed.

(** ** The states of a history *)
Lemma had_app : forall L K E d0 ops more s, had L K E d0 ops s -> had L K E d0 (ops ++ more) s.
Proof.
  intros L K E d0 ops more s [H|(pre & o & post & d & os & -> & Hr & Hs)]; [now left|]. right.
  exists pre, o, (post ++ more), d, os. rewrite <- app_assoc. auto.
Qed.

(** the file at the beginning is still there, or it is one of a state of the
    history *)
Definition from_history (L : strtod_t) K E (d0 : dev) (ops : list op) (d : dev) : Prop :=
  d_state d = d_state d0 \/
  exists o f, had L K E d0 ops o /\ proper_state o /\ d_state d = Some f /\ of_state o f.
Definition run_proper (d : dev) : Prop := forall p, d_run d = Some p -> pi (p_iam p).

Lemma same_user_proper : forall u v, same_user u v -> proper_user u -> proper_user v.
Proof.
  intros [i1 n1 d1 f1 p1 r1 s1 t1 q1 c1 o1] [i2 n2 d2 f2 p2 r2 s2 t2 q2 c2 o2] H.
  pose proof (H FName) as A1. pose proof (H FDisplay) as A2. pose proof (H FFps) as A3. pose proof (H FPassword) as A4.
  pose proof (H FRole) as A5. pose proof (H FSct) as A6. pose proof (H FFcmToken) as A7. pose proof (H FFcmProject) as A8.
  pose proof (H FCats) as A9. pose proof (H FOauth) as A10. cbn in *.
  assert (f1 = f2) by (apply fps_inj; congruence).
  assert (n1 = n2 /\ d1 = d2 /\ p1 = p2 /\ r1 = r2 /\ s1 = s2 /\ t1 = t2 /\ q1 = q2 /\ c1 = c2 /\ o1 = o2)
    by (repeat split; congruence).
  destruct H1 as (-> & -> & -> & -> & -> & -> & -> & -> & ->). subst. auto.
Qed.
Lemma same_proper : forall a b, same_state a b -> proper_state a -> proper_state b.
Proof.
  intros [a1 a2 a3 a4 a5 a6 a7 a8 a9 a10] [b1 b2 b3 b4 b5 b6 b7 b8 b9 b10] [H1 H2].
  unfold settings in H1. cbn in H1, H2. injection H1 as -> -> -> -> -> -> -> -> ->.
  intros (A & B & C & D & F & G). unfold proper_state in *. cbn in *.
  repeat match goal with |- _ /\ _ => split end; auto.
  clear - H2 G. induction H2 as [|x y l l' Hxy Hl IH]; [intros ? []|]. intros u [<-|Hu].
  - eapply same_user_proper; eauto. apply G. now left.
  - apply IH; auto. intros; apply G; now right.
Qed.

(** A start in a history. *)
Lemma boot_history : forall L K E b d0 ops d d' os, strtod_sane L -> reads_versions L ->
  from_history L K E d0 ops d -> boot L K b d = (d', os) -> d_run d = None ->
  from_history L K E d0 ops d' /\
  (forall p, d_run d' = Some p -> exists o, had L K E d0 ops o /\ proper_state o /\ same_state (named o) (i_state (p_iam p))).
Proof.
  intros L K E b d0 ops d d' os HL HR Hh H Hr.
  destruct Hh as [Hd|(o & f & Ho & Hp & Hf & Hof)].
  - destruct (boot_inv _ _ _ _ _ _ H Hr) as [-> |(g & ph & Hne & Hl & Hg & Hrun)].
    { split; [now left|]. intros p E'. congruence. }
    destruct (d_state d) as [f|] eqn:Hf; [|contradiction].
    apply tunnel_state_inv in Hl. destruct Hl as [[-> ->]|(t & s & Hb & Hs & Hgo & Hfile)].
    { split; [left; congruence|]. intros p E'. destruct Hrun as [E''|(s & k & i1 & i2 & E'' & _)]; [congruence|discriminate]. }
    assert (Hhad : had L K E d0 ops s).
    { left. exists f. split; [congruence|]. unfold stands_for. eapply load_begins; eauto. }
    pose proof (load_proper _ _ _ _ Hs) as Hsp. split.
    + destruct Hfile as [-> |(Hn & g' & -> & Hg')]; [left; congruence|]. right. exists s, g'. split; [exact Hhad|]. split; [exact Hsp|]. split; [exact Hg|]. right. exact Hg'.
    + intros p E'. destruct Hrun as [E''|(s' & k & i1 & i2 & -> & _ & Hi & _ & E'')]; [congruence|].
      rewrite (Hgo s' eq_refl) in Hi. apply load_state_same in Hi.
      assert (p_iam p = i2) by (rewrite E'' in E'; now injection E' as <-). subst i2. eauto.
  - destruct (boot_of_state _ _ _ _ _ _ _ _ HL HR Hp H Hr Hf Hof) as [(f' & Hf' & Hof') Hrun]. split.
    + right. exists o, f'. auto.
    + intros p Ep. exists o. auto.
Qed.

Lemma history_inv : forall L K E d0 ops d os, strtod_sane L -> reads_versions L -> d_run d0 = None -> c_ops ops ->
  run L K E d0 ops = Some (d, os) -> from_history L K E d0 ops d /\ run_proper d.
Proof.
  intros L K E d0 ops d os HL HR H0. revert d os. induction ops as [|o ops IH] using rev_ind; intros d os Hc H.
  - injection H as <- <-. split; [now left|]. intros p Hp. congruence.
  - apply run_app in H. destruct H as (d1 & o1 & o2 & H1 & H2 & ->).
    apply Forall_app in Hc. destruct Hc as [Hc Ho]. inversion Ho as [|? ? Ho' _]; subst.
    destruct (IH _ _ Hc H1) as [Hh Hp]. cbn [run] in H2.
    destruct (step L K E d1 o) as [[d2 o3]|] eqn:Hs; [|discriminate]. injection H2 as <- <-.
    assert (Hext : from_history L K E d0 (ops ++ [o]) d1).
    { destruct Hh as [Hh|(s & f & A & B)]; [now left|]. right. exists s, f. split; auto. now apply had_app. }
    destruct o as [b|x e w|].
    + cbn [step] in Hs. destruct (d_run d1) as [p|] eqn:Hr; [injection Hs as <- <-; auto|].
      destruct (boot L K b d1) as [d3 o4] eqn:Hb. injection Hs as <- <-.
      destruct (boot_history L K E b d0 (ops ++ [Boot b]) _ _ _ HL HR Hext Hb Hr) as [A B]. split; auto.
      intros p Ep. destruct (B p Ep) as (s & _ & Hsp & Hsame). unfold pi. eapply same_proper; eauto.
      now apply named_proper.
    + destruct (d_run d1) as [p|] eqn:Hr; [|cbn [step] in Hs; rewrite Hr in Hs; injection Hs as <- <-; auto].
      destruct (serve_inv _ _ _ _ _ _ _ _ _ _ Hr Hs) as (i' & Hi & Hk & Hrun & Hfile & _).
      assert (Hpi : pi i') by (eapply pi_serve; eauto). split.
      * destruct Hfile as [Hf|(g & Hg & Hb)].
        -- destruct Hext as [He|(s & f & A & B & C & D)]; [left; congruence|]. right. exists s, f. split; [exact A|]. split; [exact B|]. split; [congruence|exact D].
        -- right. exists (i_state i'), g. split.
           { right. exists ops, (Serve x e w), [], d1, o1. repeat split; auto. exists p, x, e, w, i'. auto. }
           split; [exact Hpi|]. split; [exact Hg|now left].
      * intros q Eq. destruct Hrun as [E'|E']; [congruence|]. rewrite E' in Eq. injection Eq as <-. exact Hpi.
    + cbn [step] in Hs. injection Hs as <- <-. split.
      * destruct Hext as [He|He]; [now left|now right].
      * intros p Ep. discriminate.
Qed.

(** Only starts and stops after a file of [o]. *)
Lemma restarts_of_state : forall L K E ops d d' os o f, strtod_sane L -> reads_versions L -> proper_state o ->
  Forall starts_again ops -> run L K E d ops = Some (d', os) -> d_state d = Some f -> of_state o f ->
  (forall p, d_run d = Some p -> same_state (named o) (named (i_state (p_iam p)))) ->
  (exists f', d_state d' = Some f' /\ of_state o f') /\
  (forall p, d_run d' = Some p -> same_state (named o) (named (i_state (p_iam p)))).
Proof.
  intros L K E. induction ops as [|op ops IH]; intros d d' os o f HL HR Hp Hops H Hf Ho Hrun.
  - injection H as <- <-. eauto.
  - inversion Hops as [|? ? Hop Hops']; subst. cbn [run] in H.
    destruct (step L K E d op) as [[d1 o1]|] eqn:Hs; [|discriminate].
    destruct (run L K E d1 ops) as [[d2 o2]|] eqn:Hr; [|discriminate]. injection H as <- <-.
    destruct op as [b|x e w|]; [|destruct Hop|].
    + cbn [step] in Hs. destruct (d_run d) as [p|] eqn:Hd.
      * injection Hs as <- <-. eapply IH; eauto. intros q Hq. apply Hrun. congruence.
      * destruct (boot L K b d) as [d3 o3] eqn:Hb. injection Hs as <- <-.
        destruct (boot_of_state _ _ _ _ _ _ _ _ HL HR Hp Hb Hd Hf Ho) as [(f' & Hf' & Ho') Hq].
        eapply IH; eauto. intros q Eq. rewrite <- (named_twice o). apply named_same. auto.
    + cbn [step] in Hs. injection Hs as <- <-. eapply IH; [exact HL|exact HR|exact Hp|exact Hops'|exact Hr|exact Hf|exact Ho|].
      intros q Eq. discriminate.
Qed.
