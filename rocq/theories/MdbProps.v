(** * C96: descriptors of the mDNS sockets *)
From Coq Require Import List Arith Bool Lia.
From Verif Require UdpModel UdpProps.
From Verif Require Import MdbModel MdbSpec.
Import ListNotations.

Lemma runs_app : forall p a b s,
  runs p s (a ++ b) = let (s1, x) := runs p s a in let (s2, y) := runs p s1 b in (s2, x ++ y).
Proof.
  induction a as [|o a IH]; intros b s; cbn [runs app].
  - destruct (runs p s b); reflexivity.
  - destruct (step p s o) as [s1 x]. rewrite IH. destruct (runs p s1 a) as [s2 y].
    destruct (runs p s2 b) as [s3 z]. rewrite app_assoc. reflexivity.
Qed.

Lemma count_app : forall f a b, count f (a ++ b) = count f a + count f b.
Proof. intros. unfold count. rewrite filter_app, app_length. reflexivity. Qed.

(** The descriptor of the socket is its own, and only that one is. *)
Record Inv (s : st) (o : list out) : Prop := {
  I_own : forall k, look k (fds s) = Some Ours <-> sk s = Some k;
  I_harm : Harmless o;
  I_bal : forall k, count (is_opened k) o =
            count (is_closed k) o + match sk s with Some j => if j =? k then 1 else 0 | None => 0 end;
  I_tried : tried s = false -> sk s = None /\ (forall k, ~ In (Opened k) o) /\ (forall e, ~ In (Bound e) o) }.

Definition Late (o : list out) : Prop :=
  (exists k, In (Opened k) o) /\ (exists e, In (Bound e) o /\ e <> EOk).

Lemma inv_init : Inv init [].
Proof.
  constructor; cbn; intros; auto; try (split; discriminate).
  intros k. repeat split; intros [].
Qed.

Lemma harmless_app : forall a b, Harmless a -> Harmless b -> Harmless (a ++ b).
Proof.
  intros a b Ha Hb k. destruct (Ha k) as (A1 & A2 & A3), (Hb k) as (B1 & B2 & B3).
  repeat split; intros H; apply in_app_or in H; tauto.
Qed.

Lemma look_cons_other : forall k j w t, k <> j -> look k ((j, w) :: t) = look k t.
Proof. intros. cbn. destruct (Nat.eqb_spec j k); congruence. Qed.

Definition Quietly (s s1 : st) (x : list out) : Prop :=
  fds s1 = fds s /\ sk s1 = sk s /\ tried s1 = tried s /\ Harmless x /\
  (forall k, ~ In (Opened k) x /\ ~ In (Closed k) x) /\ (forall e, ~ In (Bound e) x).

Lemma filter_none : forall (f : out -> bool) x, (forall y, In y x -> f y = false) -> filter f x = [].
Proof.
  induction x as [|y x IH]; intros H; [reflexivity|]. cbn. rewrite (H y (or_introl eq_refl)).
  apply IH. intros z Hz. apply H. right. exact Hz.
Qed.

Lemma inv_quiet : forall s s1 o x, Inv s o -> Quietly s s1 x -> Inv s1 (o ++ x).
Proof.
  intros s s1 o x [I1 I2 I3 I4] (E1 & E2 & E3 & Hx & Hn & Hb).
  constructor.
  - intros k. rewrite E1, E2. apply I1.
  - apply harmless_app; auto.
  - intros k. rewrite !count_app, E2, I3.
    assert (F1 : count (is_opened k) x = 0).
    { unfold count. rewrite filter_none; auto. intros y Hy. destruct y; cbn; auto.
      exfalso. eapply (proj1 (Hn _)). exact Hy. }
    assert (F2 : count (is_closed k) x = 0).
    { unfold count. rewrite filter_none; auto. intros y Hy. destruct y; cbn; auto.
      exfalso. eapply (proj2 (Hn _)). exact Hy. }
    lia.
  - rewrite E3, E2. intros Ht. destruct (I4 Ht) as (A & B & C). split; auto. split.
    + intros k Hk. apply in_app_or in Hk. destruct Hk as [Hk|Hk]; [apply (B k Hk)|apply (proj1 (Hn k) Hk)].
    + intros e Hk. apply in_app_or in Hk. destruct Hk as [Hk|Hk]; [apply (C e Hk)|apply (Hb e Hk)].
Qed.

Lemma inv_foreign : forall s o t, Inv s o ->
  (forall k, look k t = Some Ours <-> look k (fds s) = Some Ours) -> Inv (set_fds s t) o.
Proof.
  intros s o t [I1 I2 I3 I4] H. constructor; cbn; auto. intros k. rewrite H. apply I1.
Qed.

Lemma inv_step : forall p s o i, Inv s o ->
  Inv (fst (step p s i)) (o ++ snd (step p s i)) \/ Late (o ++ snd (step p s i)).
Proof.
  intros p s o i I. destruct i as [w prep evok| | | |k|k].
  - cbn [step]. destruct (live s) eqn:El; [|left; rewrite app_nil_r; exact I].
    destruct (tried s) eqn:Et; [left; rewrite app_nil_r; exact I|].
    destruct (I_tried _ _ I Et) as (Hs & Ho & Hb).
    unfold bind. destruct (aborted s) eqn:Ea.
    + left. cbn [fst snd app]. destruct I as [I1 I2 I3 I4]. constructor; cbn; auto.
      * apply harmless_app; auto. intros k. repeat split; intros [H|[]]; discriminate.
      * intros k. rewrite !count_app. cbn. rewrite !Nat.add_0_r. apply I3.
      * discriminate.
    + destruct (UdpModel.sys_socket w (fds s)) as [k|] eqn:Es.
      2:{ left. cbn [fst snd app]. destruct I as [I1 I2 I3 I4]. constructor; cbn; auto.
          - apply harmless_app; auto. intros k. repeat split; intros [H|[]]; discriminate.
          - intros k. rewrite !count_app. cbn. rewrite !Nat.add_0_r. apply I3.
          - discriminate. }
      assert (Hk : look k (fds s) = None).
      { unfold UdpModel.sys_socket in Es. destruct w as [j|]; [|discriminate].
        destruct (look j (fds s)) eqn:E; [discriminate|]. congruence. }
      assert (HG : Inv (mk ((k, Ours) :: fds s) (live s) (Some k) (aborted s) true) (o ++ [Opened k; Bound EOk])).
      { destruct I as [I1 I2 I3 I4]. constructor.
        - cbn [fds sk]. intros j. cbn. destruct (Nat.eqb_spec k j) as [->|Hn].
          + split; auto.
          + rewrite I1, Hs. split; [discriminate|intros E; congruence].
        - apply harmless_app; auto. intros j. repeat split; intros [H|[H|[]]]; discriminate.
        - intros j. rewrite !count_app, I3, Hs. unfold count. cbn. destruct (k =? j); cbn; lia.
        - discriminate. }
      destruct prep.
      * destruct p; [left; exact HG|]. destruct evok; [left; exact HG|]. right.
        unfold close_sk. cbn [sk set_sk set_fds fds look UdpModel.look]. rewrite Nat.eqb_refl. cbn.
        split; [exists k; apply in_or_app; right; cbn; auto|]. exists ENoMem. split; [apply in_or_app; right; cbn; auto|discriminate].
      * right. unfold close_sk. cbn [sk set_sk set_fds fds look UdpModel.look]. rewrite Nat.eqb_refl. cbn.
        split; [exists k; apply in_or_app; right; cbn; auto|]. exists ECreation. split; [apply in_or_app; right; cbn; auto|discriminate].
  - left. cbn [step]. destruct (live s); [|rewrite app_nil_r; exact I]. unfold send.
    assert (Q : forall x, (forall k, ~ In (SentOther k) x) ->
      (forall y, In y x -> match y with SentOn _ | SendDone _ => True | _ => False end) -> Quietly s s x).
    { intros x H1 H2. repeat split; auto; try (intros H; apply H2 in H; exact H). intros e H; apply H2 in H; exact H. }
    destruct (aborted s); [apply inv_quiet with s; auto; apply Q; cbn; intuition (subst; auto; discriminate)|].
    destruct (sk s) as [k|] eqn:Es; [|apply inv_quiet with s; auto; apply Q; cbn; intuition (subst; auto; discriminate)].
    rewrite (proj2 (I_own _ _ I k) Es).
    apply inv_quiet with s; auto; apply Q; cbn; intuition (subst; auto; discriminate).
  - left. cbn [step]. destruct (live s); [|rewrite app_nil_r; exact I].
    apply inv_quiet with s; auto. repeat split; auto; intros [].
  - left. cbn [step]. destruct (live s); [|rewrite app_nil_r; exact I]. unfold close_sk.
    destruct (sk s) as [k|] eqn:Es.
    + rewrite (proj2 (I_own _ _ I k) Es). cbn [fst snd]. destruct I as [I1 I2 I3 I4]. constructor.
      * cbn [fds sk set_fds]. intros j. split; [|discriminate].
        destruct (Nat.eq_dec j k) as [->|Hn]; [rewrite UdpProps.look_drop_same; discriminate|].
        rewrite UdpProps.look_drop_other by auto. intros H. apply I1 in H. congruence.
      * apply harmless_app; auto. intros j. repeat split; intros [H|[]]; discriminate.
      * intros j. rewrite !count_app, I3, Es. unfold count. cbn. destruct (k =? j); cbn; lia.
      * discriminate.
    + cbn [fst snd]. rewrite app_nil_r. destruct I as [I1 I2 I3 I4]. constructor; auto.
      * cbn [fds sk]. intros j. rewrite I1, Es. tauto.
      * intros j. cbn [sk]. rewrite I3, Es. reflexivity.
      * discriminate.
  - left. cbn [step fst snd]. rewrite app_nil_r. destruct (look k (fds s)) eqn:E; [exact I|].
    apply inv_foreign; auto. intros j. cbn. destruct (Nat.eqb_spec k j) as [->|]; [|tauto].
    rewrite E. split; discriminate.
  - left. cbn [step fst snd]. rewrite app_nil_r. destruct (look k (fds s)) as [[]|] eqn:E; try exact I.
    apply inv_foreign; auto. intros j. destruct (Nat.eq_dec j k) as [->|Hn].
    + rewrite UdpProps.look_drop_same, E. split; discriminate.
    + rewrite UdpProps.look_drop_other by auto. tauto.
Qed.

Lemma tried_keep : forall p s i, tried s = true -> tried (fst (step p s i)) = true /\ forall e, ~ In (Bound e) (snd (step p s i)).
Proof.
  intros p s i H. destruct i as [w prep evok| | | |k|k]; cbn [step]; try (destruct (live s); [|split; auto; intros e []]).
  - rewrite H. split; auto.
  - unfold send. destruct (aborted s); [|destruct (sk s) as [k|]; [destruct (look k (fds s)) as [[]|]|]];
      cbn; split; auto; intros e; intuition discriminate.
  - cbn. auto.
  - unfold close_sk. destruct (sk s) as [k|]; [destruct (look k (fds s)) as [[]|]|]; cbn; split; auto; intros e; intuition discriminate.
  - destruct (look k (fds s)); cbn; auto.
  - destruct (look k (fds s)) as [[]|]; cbn; auto.
Qed.

(** A failed bind is the only bind. *)
Lemma bind_tries : forall p s i e, In (Bound e) (snd (step p s i)) -> tried (fst (step p s i)) = true /\
  (forall e', In (Bound e') (snd (step p s i)) -> e' = e).
Proof.
  intros p s i e. destruct (tried s) eqn:Et.
  { intros H. exfalso. eapply (proj2 (tried_keep p s i Et)). exact H. }
  destruct i as [w prep evok| | | |k|k]; cbn [step]; try (destruct (live s); [|intros []]).
  - rewrite Et. unfold bind, close_sk. destruct (aborted s); cbn; [intros [H|[]]; split; auto; intros e' [H'|[]]; congruence|].
    destruct (UdpModel.sys_socket w (fds s)) as [k|]; cbn; [|intros [H|[]]; split; auto; intros e' [H'|[]]; congruence].
    rewrite Nat.eqb_refl. destruct prep, p, evok; cbn; intuition (subst; try congruence).
  - unfold send. destruct (aborted s); [|destruct (sk s) as [k|]; [destruct (look k (fds s)) as [[]|]|]];
      cbn; intuition discriminate.
  - intros [].
  - unfold close_sk. destruct (sk s) as [k|]; [destruct (look k (fds s)) as [[]|]|]; cbn; intuition discriminate.
  - intros [].
  - intros [].
Qed.

Lemma run_cases : forall p l,
  let s := fst (runs p init l) in let o := snd (runs p init l) in
  (forall e e', In (Bound e) o -> In (Bound e') o -> e = e') /\
  (forall e, In (Bound e) o -> tried s = true) /\
  (Inv s o \/ Late o).
Proof.
  intros p l. induction l as [|i l IH] using rev_ind.
  - cbn. split; [intros e e' []|]. split; [intros e []|]. left. exact inv_init.
  - rewrite runs_app. destruct (runs p init l) as [s o]. cbn [fst snd] in IH. destruct IH as (U & T & K).
    cbn [runs]. destruct (step p s i) as [s1 x] eqn:E. cbn [fst snd]. rewrite app_nil_r.
    assert (TK := tried_keep p s i). assert (BT := bind_tries p s i).
    assert (IS := inv_step p s o i). rewrite E in TK, BT, IS. cbn [fst snd] in *.
    split; [|split].
    + intros e e' H H'. apply in_app_or in H. apply in_app_or in H'.
      destruct H as [H|H], H' as [H'|H'].
      * eauto.
      * exfalso. eapply (proj2 (TK (T _ H))). exact H'.
      * exfalso. eapply (proj2 (TK (T _ H'))). exact H.
      * exact (eq_sym (proj2 (BT _ H) _ H')).
    + intros e H. apply in_app_or in H. destruct H as [H|H]; [apply (proj1 (TK (T _ H)))|apply (proj1 (BT _ H))].
    + destruct K as [K|K]; [auto|]. right. destruct K as ((k & Hk) & (e & He & Hn)).
      split; [exists k|exists e; split; auto]; apply in_or_app; auto.
Qed.

Lemma dead_keep : forall p s i, live s = false -> live (fst (step p s i)) = false /\ sk (fst (step p s i)) = sk s.
Proof.
  intros p s i H. destruct i as [w prep evok| | | |k|k]; cbn [step]; rewrite ?H; auto;
  [destruct (look k (fds s)); auto|destruct (look k (fds s)) as [[]|]; auto].
Qed.

Lemma destroyed : forall p l s, In Destroy l -> (live s = false -> sk s = None) ->
  sk (fst (runs p s l)) = None.
Proof.
  induction l as [|i l IH]; intros s H Hs; [destruct H|]. cbn [runs].
  assert (D : forall l s, live s = false -> sk (fst (runs p s l)) = sk s).
  { clear. induction l as [|i l IH]; intros s H; [reflexivity|]. cbn [runs].
    destruct (dead_keep p s i H) as (A & B). destruct (step p s i) as [s1 x]. cbn [fst] in *.
    specialize (IH s1 A). destruct (runs p s1 l). cbn [fst] in *. congruence. }
  destruct (live s) eqn:El.
  - destruct i; try (destruct H as [H|H]; [discriminate|]; destruct (step p s _) as [s1 x] eqn:E;
      specialize (IH s1 H); destruct (runs p s1 l); cbn [fst] in *; apply IH; intros Hl).
    4:{ cbn [step]. rewrite El. destruct (close_sk s) as [s1 x]. 
        assert (Dl := D l (mk (fds s1) false None true true) eq_refl). destruct (runs p _ l). exact Dl. }
    + exfalso. revert E Hl. cbn [step]. rewrite El. destruct (tried s); [intros E; injection E; intros; subst; congruence|].
      unfold bind, close_sk. destruct (aborted s); [intros E; injection E; intros _ <-; cbn; congruence|].
      destruct (UdpModel.sys_socket o (fds s)); [|intros E; injection E; intros _ <-; cbn; congruence].
      cbn. rewrite Nat.eqb_refl. destruct prep, p, evok; intros E; injection E; intros _ <-; cbn; congruence.
    + exfalso. revert E Hl. cbn [step]. rewrite El. unfold send.
      destruct (aborted s); [|destruct (sk s) as [k|]; [destruct (look k (fds s)) as [[]|]|]]; intros E; injection E; intros; subst; congruence.
    + exfalso. revert E Hl. cbn [step]. rewrite El. intros E; injection E; intros _ <-. discriminate.
    + exfalso. revert E Hl. cbn [step]. destruct (look k (fds s)); intros E; injection E; intros; subst; cbn in *; congruence.
    + exfalso. revert E Hl. cbn [step]. destruct (look k (fds s)) as [[]|]; intros E; injection E; intros; subst; cbn in *; congruence.
  - destruct (dead_keep p s i El) as (A & B). destruct (step p s i) as [s1 x]. cbn [fst] in *.
    assert (Dl := D l s1 A). destruct (runs p s1 l). cbn [fst] in *. rewrite Dl, B. apply Hs. reflexivity.
Qed.

(** Unless a bind fails after its socket has been created: nothing foreign
    is closed or sent on, and once the socket is destroyed every descriptor
    it opened has been closed exactly once. *)
Theorem C96_descriptor_partial : forall p l,
  NoLateFailure (trace p l) ->
  Harmless (trace p l) /\
  (In Destroy l -> forall k, count (is_opened k) (trace p l) = count (is_closed k) (trace p l)).
Proof.
  intros p l H. unfold trace in *. destruct (run_cases p l) as (U & _ & K).
  assert (D := destroyed p l init).
  destruct (runs p init l) as [s o]. cbn [fst snd] in *.
  destruct K as [K|((k & Hk) & (e & He & Hn))].
  - split; [exact (I_harm _ _ K)|]. intros Hd k. rewrite (I_bal _ _ K), (D Hd) by discriminate. lia.
  - exfalso. apply Hn. apply (U e EOk He). apply H. exists k. exact Hk.
Qed.
Print Assumptions C96_descriptor_partial.

(** On both platforms a bind which fails after socket() succeeded leaves the
    number of the closed descriptor in the socket.  If the rest of the
    process has been given that number since, the goodbye is sent on the
    foreign descriptor and destroying the mDNS server closes it. *)
Theorem C96_descriptor_refuted : forall p k,
  exists l, l = [Bind (Some k) false true; FOpen k; Send; Destroy] /\
  In (Bound ECreation) (trace p l) /\ In (SentOther k) (trace p l) /\ In (ClosedOther k) (trace p l).
Proof.
  intros p k. eexists. split; [reflexivity|]. unfold trace. cbn [runs step init live tried bind aborted UdpModel.sys_socket UdpModel.look fds].
  unfold close_sk, send; cbn. repeat (rewrite Nat.eqb_refl; cbn). auto 10.
Qed.
Print Assumptions C96_descriptor_refuted.

Example C96_ex_descriptor :
  let l := [FOpen 3; Bind (Some 4) true true; FOpen 5; Send; FClose 3; Destroy; FOpen 4] in
  NoLateFailure (trace Libevent l) /\ trace Libevent l = [Opened 4; Bound EOk; SentOn 4; SendDone EOk; Closed 4].
Proof. split; [|vm_compute; reflexivity]. intros _. vm_compute. auto. Qed.
