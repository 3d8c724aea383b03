From Coq Require Import String List Bool Arith Lia.
From Verif Require Import IamPolicyModel IamPolicySpec IamStateModel IamStateSpec IahModel IahSpec IahProofs.
From Verif Require ListenerModel AuthModel.
Import ListNotations.
Open Scope list_scope. Open Scope nat_scope.

Lemma rec_inj : forall g h, rec g = rec h -> g = h.
Proof. destruct g, h; cbn; intros H; inversion H; subst; reflexivity. Qed.

Lemma inv_change : forall s s' r g',
  Inv s -> (r < next s' /\ next s <= next s' /\ (forall x, x < next s' -> x <> r -> x < next s)) ->
  (forall x, x < next s' -> exists k, asks s' x = Some k) -> (forall x, next s' <= x -> asks s' x = None) ->
  (forall x, AuthModel.a_reqs (dev s') x = if Nat.eqb x r then Some (rec g') else AuthModel.a_reqs (dev s) x) ->
  AuthModel.a_gone (dev s') = false -> Lis s' ->
  (h_phase s' = Resolved ListenerModel.ok \/ h_phase s' = Answered -> exists r, h_slot s' = Some r /\ r < next s') ->
  holding (h_phase s') (h_slot s') r g' ->
  (forall x gx, x <> r -> x < next s -> AuthModel.a_reqs (dev s) x = Some (rec gx) -> holding (h_phase s) (h_slot s) x gx ->
     holding (h_phase s') (h_slot s') x gx) ->
  NoDup (queue (dev s')) -> (forall x, x <> r -> (In x (queue (dev s')) <-> In x (queue (dev s)))) ->
  (In r (queue (dev s')) <-> g' = Queued) -> Inv s'.
Proof.
  intros s s' r g' I (H1 & H2 & H3) Hk1 Hk2 Hq Hg HL HS Hh Ho Hd Hi Hir.
  constructor; auto.
  - intros x Hx. split; [|auto]. rewrite Hq. destruct (Nat.eqb_spec x r); [lia|]. apply (J_new _ I). lia.
  - intros x Hx. rewrite Hq. destruct (Nat.eqb_spec x r) as [->|Hne].
    + exists g'. auto.
    + assert (Hx' : x < next s) by auto.
      destruct (J_req _ I x Hx') as (g & G1 & G2 & G3). exists g. split; [exact G1|]. split; [eauto|].
      rewrite Hi by exact Hne. exact G3.
  - intros x Hx. destruct (Nat.eq_dec x r) as [->|Hne]; [exact H1|].
    rewrite Hi in Hx by exact Hne. apply (J_less _ I) in Hx. lia.
Qed.

(** The request in the handler's hands. *)
Lemma held_stage : forall s r, Inv s -> h_phase s = Resolved ListenerModel.ok -> h_slot s = Some r ->
  r < next s /\ AuthModel.a_reqs (dev s) r = Some (rec Held) /\ ~ In r (queue (dev s)).
Proof.
  intros s r I Hp Hs. destruct (J_slot _ I) as (r' & H1 & H2); [auto|]. rewrite Hs in H1. injection H1 as <-.
  destruct (J_req _ I r H2) as (g & G1 & G2 & G3). rewrite Hp, Hs in G2.
  destruct g; cbn in G2; try (exfalso; apply G2; auto; fail); try (destruct G2; discriminate).
  split; [exact H2|]. split; [exact G1|]. intros H. apply G3 in H. discriminate.
Qed.
Lemma answered_stage : forall s r, Inv s -> h_phase s = Answered -> h_slot s = Some r ->
  r < next s /\ (exists b, AuthModel.a_reqs (dev s) r = Some (rec (AnsPosted b)) \/ AuthModel.a_reqs (dev s) r = Some (rec (AnsTold b))) /\
  ~ In r (queue (dev s)).
Proof.
  intros s r I Hp Hs. destruct (J_slot _ I) as (r' & H1 & H2); [auto|]. rewrite Hs in H1. injection H1 as <-.
  destruct (J_req _ I r H2) as (g & G1 & G2 & G3). rewrite Hp, Hs in G2.
  destruct g; cbn in G2; try (exfalso; apply G2; auto; fail); try (destruct G2; discriminate).
  all: split; [exact H2|]; split; [exists b; auto|]; intros H; apply G3 in H; discriminate.
Qed.

(** Each operation, with what it does. *)
Definition one (s s' : st) (r : nat) (g' : stage) : Prop :=
  (forall x, AuthModel.a_reqs (dev s') x = if Nat.eqb x r then Some (rec g') else AuthModel.a_reqs (dev s) x).

Lemma run_ok : forall s r, Inv s ->
  (call s (AuthModel.RunVerdict r) = Some (s, []) /\
     (forall b, AuthModel.a_reqs (dev s) r <> Some (rec (AnsPosted b)) /\ AuthModel.a_reqs (dev s) r <> Some (rec (Posted b)))) \/
  (exists b g s', call s (AuthModel.RunVerdict r) = Some (s', [Told r b]) /\ r < next s /\
     (AuthModel.a_reqs (dev s) r = Some (rec (AnsPosted b)) /\ g = AnsTold b \/
      AuthModel.a_reqs (dev s) r = Some (rec (Posted b)) /\ g = Gone b) /\
     one s s' r g /\ Inv s' /\ iamst s' = iamst s /\ asks s' = asks s /\ next s' = next s /\
     AuthModel.a_listener (dev s') = AuthModel.a_listener (dev s) /\ h_phase s' = h_phase s /\ h_slot s' = h_slot s).
Proof.
  intros s r I. destruct (le_lt_dec (next s) r) as [Hge|Hlt].
  - left. unfold call. cbn [AuthModel.step]. unfold AuthModel.run_verdict.
    destruct (J_new _ I r Hge) as (-> & _). destruct s; cbn. split; [reflexivity|]. intros b; split; discriminate.
  - destruct (J_req _ I r Hlt) as (g & G1 & G2 & G3).
    destruct g as [| | |b|b|b|b].
    1-3,5,7: left; unfold call; cbn [AuthModel.step]; unfold AuthModel.run_verdict; rewrite G1; cbn;
      (split; [destruct s; reflexivity|]; intros c; split; intros H; injection H; discriminate).
    + right. exists b, (AnsTold b). eexists. split.
      { unfold call. cbn [AuthModel.step]. unfold AuthModel.run_verdict. rewrite G1. cbn [rec AuthModel.q_posted].
        unfold AuthModel.handle_verdict, AuthModel.get. rewrite reqs_set, Nat.eqb_refl. cbn [AuthModel.q_freed].
        cbn [AuthModel.q_checked]. unfold AuthModel.ref_dec, AuthModel.get. rewrite reqs_set, Nat.eqb_refl. cbn. reflexivity. }
      assert (O : forall x, (if x =? r then Some (AuthModel.Build_req 1 true b false true false)
                             else if x =? r then Some (AuthModel.Build_req 2 true b false true false) else AuthModel.a_reqs (dev s) x) =
                            if x =? r then Some (rec (AnsTold b)) else AuthModel.a_reqs (dev s) x).
      { intros x. destruct (x =? r); reflexivity. }
      split; [exact Hlt|]. split; [auto|]. split; [exact O|]. split; [|cbn; auto 10].
      apply (inv_change s _ r (AnsTold b) I); cbn.
      * auto.
      * exact (J_ask _ I).
      * intros x Hx. apply (J_new _ I); exact Hx.
      * exact O.
      * exact (J_gone _ I).
      * exact (J_lis _ I).
      * exact (J_slot _ I).
      * exact G2.
      * auto.
      * exact (J_nodup _ I).
      * intros x _. reflexivity.
      * split; [intros H; apply G3 in H; discriminate|discriminate].
    + right. exists b, (Gone b). eexists. split.
      { unfold call. cbn [AuthModel.step]. unfold AuthModel.run_verdict. rewrite G1. cbn [rec AuthModel.q_posted].
        unfold AuthModel.handle_verdict, AuthModel.get. rewrite reqs_set, Nat.eqb_refl. cbn [AuthModel.q_freed].
        cbn [AuthModel.q_checked]. unfold AuthModel.ref_dec, AuthModel.get. rewrite reqs_set, Nat.eqb_refl. cbn. reflexivity. }
      assert (O : forall x, (if x =? r then Some (AuthModel.Build_req 0 true b false true true)
                             else if x =? r then Some (AuthModel.Build_req 1 true b false true false) else AuthModel.a_reqs (dev s) x) =
                            if x =? r then Some (rec (Gone b)) else AuthModel.a_reqs (dev s) x).
      { intros x. destruct (x =? r); reflexivity. }
      split; [exact Hlt|]. split; [auto|]. split; [exact O|]. split; [|cbn; auto 10].
      apply (inv_change s _ r (Gone b) I); cbn.
      * auto.
      * exact (J_ask _ I).
      * intros x Hx. apply (J_new _ I); exact Hx.
      * exact O.
      * exact (J_gone _ I).
      * exact (J_lis _ I).
      * exact (J_slot _ I).
      * exact G2.
      * auto.
      * exact (J_nodup _ I).
      * intros x _. reflexivity.
      * split; [intros H; apply G3 in H; discriminate|discriminate].
Qed.

(** The handler listens. *)
Lemma listen_ok : forall s l, Inv (set_phase s Released) -> AuthModel.a_listener (dev s) = Some l ->
  exists s', start_listen s = Some (s', []) /\ Inv s' /\ iamst s' = iamst s /\ asks s' = asks s /\ next s' = next s /\
   (exists l', AuthModel.a_listener (dev s') = Some l' /\ ListenerModel.l_ec l' = ListenerModel.l_ec l) /\
   ((ListenerModel.l_ec l <> ListenerModel.ok /\ dev s' = dev s /\ h_phase s' = Resolved ListenerModel.stopped) \/
    (ListenerModel.l_ec l = ListenerModel.ok /\ ListenerModel.l_events l = [] /\ h_phase s' = Waiting /\
       queue (dev s') = [] /\ forall x, AuthModel.a_reqs (dev s') x = AuthModel.a_reqs (dev s) x) \/
    (exists e q, ListenerModel.l_ec l = ListenerModel.ok /\ ListenerModel.l_events l = e :: q /\
       h_phase s' = Resolved ListenerModel.ok /\ h_slot s' = Some e /\ queue (dev s') = q /\ one s s' e Held)).
Proof.
  intros s l I Hl. assert (L := J_lis _ I). unfold Lis in L. cbn [dev set_phase h_phase] in L. rewrite Hl in L.
  assert (G := J_gone _ I). cbn in G.
  destruct L as (L1 & [(L2 & L3 & L4)|(L2 & L3 & L4 & L5 & L6)]).
  - destruct (ListenerModel.l_events l) as [|e q] eqn:Ev.
    + eexists. split.
      { unfold start_listen, call. cbn [AuthModel.step dev set_phase]. rewrite G, Hl.
        unfold ListenerModel.new_future, ListenerModel.init_future. rewrite L1, L2. cbn. rewrite L4. cbn.
        unfold ListenerModel.try_resolve. cbn. rewrite Ev. cbn. reflexivity. }
      split; [|cbn; rewrite Ev; split; [reflexivity|]; split; [reflexivity|]; split; [reflexivity|]; split; [eexists; split; [reflexivity|]; cbn; auto|]; right; left; auto 10].
      constructor; cbn; auto.
      * unfold Lis. cbn. rewrite Ev. split; [exact L1|]. left. auto 10.
      * intros [H|H]; discriminate.
      * exact (J_new _ I).
      * intros r Hr. destruct (J_req _ I r Hr) as (g & G1 & G2 & G3). exists g. split; [exact G1|].
        cbn in G2, G3. unfold queue in *. cbn. cbn in G3. rewrite Hl in G3. split; [|exact G3].
        destruct g; cbn in *; try (destruct G2; discriminate); intros [H|H]; discriminate.
      * exact (J_ask _ I).
      * unfold queue. cbn. rewrite Ev. constructor.
      * unfold queue. cbn. rewrite Ev. intros r [].
    + assert (Hin : In e (queue (dev s))) by (unfold queue; rewrite Hl, Ev; now left).
      assert (Hlt := J_less _ I e Hin). cbn in Hlt.
      destruct (J_req _ I e Hlt) as (g & G1 & G2 & G3). apply G3 in Hin. subst g. cbn in G1.
      assert (ND := J_nodup _ I). unfold queue in ND. cbn in ND. rewrite Hl, Ev in ND. inversion ND as [|? ? N1 N2]; subst.
      eexists. split.
      { unfold start_listen, call. cbn [AuthModel.step dev set_phase]. rewrite G, Hl.
        unfold ListenerModel.new_future, ListenerModel.init_future. rewrite L1, L2. cbn. rewrite L4. cbn.
        unfold ListenerModel.try_resolve. cbn. rewrite Ev. cbn. rewrite L3. cbn.
        unfold AuthModel.listen. cbn. rewrite ref_inc_queued by exact G1. cbn. reflexivity. }
      split; [|cbn; split; [reflexivity|]; split; [reflexivity|]; split; [reflexivity|]; split; [eexists; split; [reflexivity|]; cbn; auto|]; right; right; exists e, q;
               split; [exact L2|]; split; [reflexivity|]; split; [reflexivity|]; split; [reflexivity|]; split; [reflexivity|];
               intros x; reflexivity].
      apply (inv_change _ _ e Held I); cbn.
      * auto.
      * exact (J_ask _ I).
      * intros x Hx. apply (J_new _ I); exact Hx.
      * reflexivity.
      * exact G.
      * unfold Lis. cbn. split; [exact L1|]. left. auto 10.
      * intros _. exists e. auto.
      * auto.
      * intros x gx Hx Hx' Hg Hh. destruct gx; cbn in *; try (destruct Hh; discriminate); intros _ H; injection H as H; congruence.
      * exact N2.
      * intros x Hx. unfold queue. cbn. rewrite Hl, Ev. split; [now right|intros [H|H]; [congruence|exact H]].
      * unfold queue. cbn. split; [intros H; contradiction|discriminate].
  - eexists. split.
    { unfold start_listen, call. cbn [AuthModel.step dev set_phase]. rewrite G, Hl.
      unfold ListenerModel.new_future. rewrite L1, L2. cbn. reflexivity. }
    cbn.
    assert (D : AuthModel.set_listener (dev s) l = dev s).
    { destruct (dev s) as [rq li go]. cbn in *. unfold AuthModel.set_listener. cbn. now rewrite Hl. }
    split; [|rewrite L2, D; split; [reflexivity|]; split; [reflexivity|]; split; [reflexivity|]; split; [exists l; auto|]; left; split; [discriminate|auto]].
    rewrite D. constructor; cbn; auto.
    + unfold Lis. cbn. rewrite Hl. split; [exact L1|]. right. repeat split; auto; discriminate.
    + intros [H|H]; discriminate.
    + exact (J_new _ I).
    + intros r Hr. destruct (J_req _ I r Hr) as (g & G1 & G2 & G3). exists g. split; [exact G1|]. split; [|exact G3].
      destruct g; cbn in *; try (destruct G2; discriminate); intros [H|H]; discriminate.
    + exact (J_ask _ I).
    + exact (J_nodup _ I).
    + exact (J_less _ I).
Qed.
