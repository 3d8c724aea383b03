From Coq Require Import String List Bool Arith Lia.
From Verif Require Import IamPolicyModel IamPolicySpec IamStateModel IamStateSpec IahModel IahSpec IahProofs IahProofs2.
From Verif Require ListenerModel AuthModel.
Import ListNotations.
Open Scope list_scope. Open Scope nat_scope.

Lemma nodup_snoc : forall (q : list nat) x, NoDup q -> ~ In x q -> NoDup (q ++ [x]).
Proof.
  induction q as [|a q IH]; intros x Hq Hx; cbn; [repeat constructor; intros []|].
  inversion Hq; subst. constructor; [|apply IH; auto; intros H; apply Hx; now right].
  rewrite in_app_iff. intros [H|[H|[]]]; [contradiction|]. subst. apply Hx. now left.
Qed.

Definition same_rest (s s' : st) : Prop := iamst s' = iamst s /\ asks s' = asks s /\ next s' = next s.

(** The handler gives its verdict. *)
Lemma verdict_ok : forall s r v, Inv s -> h_phase s = Resolved ListenerModel.ok -> h_slot s = Some r ->
  exists s', call (set_phase s Answered) (AuthModel.Verdict r v) = Some (s', []) /\ Inv s' /\ same_rest s s' /\
    one s s' r (AnsPosted v) /\ h_phase s' = Answered /\ h_slot s' = Some r /\
    AuthModel.a_listener (dev s') = AuthModel.a_listener (dev s).
Proof.
  intros s r v I Hp Hs. destruct (held_stage s r I Hp Hs) as (Hlt & G1 & Hq).
  eexists. split.
  { unfold call. cbn [AuthModel.step dev set_phase]. rewrite do_verdict_held by exact G1. cbn. reflexivity. }
  split; [|split; [repeat split|]; split; [intros x; reflexivity|]; cbn; auto].
  assert (L := J_lis _ I).
  apply (inv_change s _ r (AnsPosted v) I); cbn.
  - auto.
  - exact (J_ask _ I).
  - intros x Hx. apply (J_new _ I); exact Hx.
  - reflexivity.
  - exact (J_gone _ I).
  - unfold Lis in *. cbn. rewrite Hp in L. destruct (AuthModel.a_listener (dev s)) as [l|].
    + destruct L as (L1 & [(L2 & L3 & L4 & L5)|(L2 & L3 & L4 & _)]); split; auto.
      right. repeat split; auto; discriminate.
    + destruct L; discriminate.
  - intros _. exists r. auto.
  - auto.
  - intros x gx Hx Hx' Hg Hh. rewrite Hp, Hs in Hh. rewrite Hs. destruct gx; cbn in *; try (destruct Hh as [? Hh]; congruence); auto.
  - exact (J_nodup _ I).
  - intros x _. reflexivity.
  - split; [intros H; contradiction|discriminate].
Qed.

(** It frees the request. *)
Lemma free_ok : forall s r, Inv s -> h_phase s = Answered -> h_slot s = Some r ->
  exists s' g, call (set_phase s Released) (AuthModel.FreeReq r) = Some (s', []) /\ Inv s' /\ same_rest s s' /\
    (exists b, AuthModel.a_reqs (dev s) r = Some (rec (AnsPosted b)) /\ g = Posted b \/
               AuthModel.a_reqs (dev s) r = Some (rec (AnsTold b)) /\ g = Gone b) /\
    one s s' r g /\ h_phase s' = Released /\
    AuthModel.a_listener (dev s') = AuthModel.a_listener (dev s).
Proof.
  intros s r I Hp Hs. destruct (answered_stage s r I Hp Hs) as (Hlt & (b & G1) & Hq).
  assert (L := J_lis _ I).
  assert (K : forall s' g, same_rest s s' -> one s s' r g -> h_phase s' = Released -> h_slot s' = Some r ->
     AuthModel.a_listener (dev s') = AuthModel.a_listener (dev s) -> AuthModel.a_gone (dev s') = AuthModel.a_gone (dev s) ->
     (g = Posted b \/ g = Gone b) -> Inv s').
  { intros s' g (S1 & S2 & S3) O P1 P2 P3 P4 Hg.
    apply (inv_change s _ r g I).
    - rewrite S3. auto.
    - rewrite S2, S3. exact (J_ask _ I).
    - rewrite S2, S3. intros x Hx. apply (J_new _ I); exact Hx.
    - exact O.
    - rewrite P4. exact (J_gone _ I).
    - unfold Lis in *. rewrite P1, P3. rewrite Hp in L. destruct (AuthModel.a_listener (dev s)) as [l|].
      + destruct L as (L1 & [(L2 & L3 & L4)|(L2 & L3 & L4 & _)]); split; auto.
        right. repeat split; auto; discriminate.
      + destruct L; discriminate.
    - rewrite P1. intros [H|H]; discriminate.
    - rewrite P1. destruct Hg; subst g; cbn; intros [H|H]; discriminate.
    - intros x gx Hx Hx' Hg' Hh. rewrite Hp, Hs in Hh. rewrite P1. destruct gx; cbn in *; try (intros [H|H]; discriminate).
      + destruct Hh. discriminate.
      + destruct Hh. congruence.
      + destruct Hh. congruence.
    - unfold queue. rewrite P3. exact (J_nodup _ I).
    - intros x _. unfold queue. rewrite P3. reflexivity.
    - unfold queue. rewrite P3. split; [intros H; contradiction|destruct Hg; subst; discriminate]. }
  destruct G1 as [G1|G1].
  - eexists. exists (Posted b). split.
    { unfold call. cbn [AuthModel.step dev set_phase]. unfold AuthModel.do_verdict, AuthModel.get. rewrite G1. cbn [rec AuthModel.q_freed AuthModel.q_done].
      unfold AuthModel.ref_dec, AuthModel.get. rewrite G1. cbn. reflexivity. }
    match goal with |- Inv ?x /\ _ => set (s' := x) end.
    assert (O : one s s' r (Posted b)) by (intros x; reflexivity).
    split; [apply (K s' (Posted b)); auto; repeat split|]. split; [repeat split|]. split; [exists b; auto|]. auto.
  - eexists. exists (Gone b). split.
    { unfold call. cbn [AuthModel.step dev set_phase]. unfold AuthModel.do_verdict, AuthModel.get. rewrite G1. cbn [rec AuthModel.q_freed AuthModel.q_done].
      unfold AuthModel.ref_dec, AuthModel.get. rewrite G1. cbn. reflexivity. }
    match goal with |- Inv ?x /\ _ => set (s' := x) end.
    assert (O : one s s' r (Gone b)) by (intros x; reflexivity).
    split; [apply (K s' (Gone b)); auto; repeat split|]. split; [repeat split|]. split; [exists b; auto|]. auto.
Qed.

(** A question is asked. *)
Lemma check_ok : forall s k, Inv s ->
  exists s' g, calls (set_ask s k) [AuthModel.Create (next s); AuthModel.Check (next s)] = Some (s', []) /\ Inv s' /\
    iamst s' = iamst s /\ next s' = S (next s) /\ (forall x, asks s' x = if Nat.eqb x (next s) then Some k else asks s x) /\
    one s s' (next s) g /\
    match AuthModel.a_listener (dev s) with
    | Some l => exists l', AuthModel.a_listener (dev s') = Some l' /\ ListenerModel.l_ec l' = ListenerModel.l_ec l
    | None => AuthModel.a_listener (dev s') = None
    end /\
    match AuthModel.a_listener (dev s) with
    | Some l => if Nat.eqb (ListenerModel.l_ec l) ListenerModel.ok
                then match h_phase s with
                     | Waiting => g = Held /\ h_phase s' = Resolved ListenerModel.ok /\ h_slot s' = Some (next s)
                     | _ => g = Queued /\ h_phase s' = h_phase s /\ h_slot s' = h_slot s
                     end
                else g = Posted false /\ h_phase s' = h_phase s /\ h_slot s' = h_slot s
    | None => g = Posted false /\ h_phase s' = h_phase s /\ h_slot s' = h_slot s
    end.
Proof.
  intros s k I. assert (L := J_lis _ I). assert (G := J_gone _ I).
  destruct (J_new _ I (next s) (le_n _)) as (N1 & N2).
  assert (Nq : ~ In (next s) (queue (dev s))) by (intros H; apply (J_less _ I) in H; lia).
  assert (Nx : next s < S (next s) /\ next s <= S (next s) /\ (forall x, x < S (next s) -> x <> next s -> x < next s)).
  { repeat split; lia. }
  assert (K1 : forall x, x < S (next s) -> exists k', (if Nat.eqb x (next s) then Some k else asks s x) = Some k').
  { intros x Hx. destruct (Nat.eqb_spec x (next s)); [eauto|]. apply (J_ask _ I). lia. }
  assert (K2 : forall x, S (next s) <= x -> (if Nat.eqb x (next s) then Some k else asks s x) = None).
  { intros x Hx. destruct (Nat.eqb_spec x (next s)); [lia|]. apply (J_new _ I). lia. }
  assert (Sl : h_phase s = Resolved ListenerModel.ok \/ h_phase s = Answered -> h_slot s <> Some (next s)).
  { intros H H'. destruct (J_slot _ I H) as (r & R1 & R2). rewrite H' in R1. injection R1 as <-. lia. }
  assert (Sl2 : h_phase s = Resolved ListenerModel.ok \/ h_phase s = Answered -> exists r, h_slot s = Some r /\ r < S (next s)).
  { intros H. destruct (J_slot _ I H) as (r & R1 & R2). exists r. split; auto. }
  unfold Lis in L. destruct (AuthModel.a_listener (dev s)) as [l|] eqn:Hl.
  - destruct L as (L1 & [(L2 & L3 & L4)|(L2 & L3 & L4 & L5 & L6)]); rewrite L2; cbn [Nat.eqb ListenerModel.ok ListenerModel.stopped].
    + destruct (ListenerModel.l_fut l) as [f|] eqn:Fu.
      * destruct (h_phase s) eqn:Hp; try contradiction; try discriminate.
        2:{ destruct L4. discriminate. }
        destruct L4 as (L4 & L5 & L6).
        eexists. exists Held. split.
        { unfold calls, call. cbn [AuthModel.step dev set_ask]. unfold AuthModel.create. rewrite N1. cbn.
          unfold AuthModel.check, AuthModel.get. rewrite reqs_set, Nat.eqb_refl. cbn. rewrite Hl, G.
          unfold ListenerModel.add_event. rewrite L1, L2. cbn. rewrite L6. cbn. unfold ListenerModel.try_resolve. cbn. rewrite Fu. cbn.
          rewrite L3. cbn. unfold ListenerModel.deliver. cbn. rewrite L5. cbn.
          unfold AuthModel.listen. cbn. unfold AuthModel.ref_inc, AuthModel.get. cbn. rewrite Nat.eqb_refl. cbn. reflexivity. }
        match goal with |- Inv ?x /\ _ => set (s' := x) end.
        assert (O : one s s' (next s) Held) by (intros x; cbn; destruct (x =? next s); reflexivity).
        split; [|repeat (split; [first [reflexivity | exact O | intros x; reflexivity | eexists; split; [reflexivity|cbn; auto]]|]); reflexivity].
        apply (inv_change s s' (next s) Held I); auto.
        -- unfold Lis. cbn. split; [exact L1|]. left. auto.
        -- intros _. exists (next s). cbn. auto.
        -- cbn. auto.
        -- intros x gx Hx Hx' Hg Hh. rewrite Hp in Hh. destruct gx; cbn in *; try (destruct Hh; discriminate); intros _ H; injection H as H; congruence.
        -- cbn. constructor.
        -- intros x Hx. unfold queue. cbn. rewrite Hl, L6. reflexivity.
        -- unfold queue. cbn. split; [intros []|discriminate].
      * destruct (h_phase s) eqn:Hp; try contradiction.
        1:{ destruct L4. discriminate. }
        all: eexists; exists Queued; split;
        [ unfold calls, call; cbn [AuthModel.step dev set_ask]; unfold AuthModel.create; rewrite N1; cbn;
          unfold AuthModel.check, AuthModel.get; rewrite reqs_set, Nat.eqb_refl; cbn; rewrite Hl, G;
          unfold ListenerModel.add_event; rewrite L1, L2; cbn; unfold ListenerModel.try_resolve; cbn; rewrite Fu; cbn; reflexivity |].
        all: match goal with |- Inv ?x /\ _ => set (s' := x) end.
        all: assert (O : one s s' (next s) Queued) by (intros x; cbn; destruct (x =? next s); reflexivity).
        all: split; [|repeat (split; [first [reflexivity | exact O | intros x; reflexivity | eexists; split; [reflexivity|cbn; auto] | cbn; exact Hl]|]); cbn; auto].
        all: apply (inv_change s s' (next s) Queued I); auto.
        all: try (cbn; rewrite Hp; assumption).
        all: try (cbn; rewrite Hp; exact Sl2).
        all: try (cbn; rewrite Hp; exact Sl).
        all: try (intros x gx Hx Hx' Hg Hh; rewrite Hp in Hh; cbn; rewrite Hp; exact Hh).
        all: try (unfold queue; cbn; unfold queue in Nq; rewrite Hl in Nq;
                  assert (ND := J_nodup _ I); unfold queue in ND; rewrite Hl in ND;
                  apply nodup_snoc; assumption).
        all: try (intros x Hx; unfold queue; cbn; rewrite Hl, in_app_iff; cbn; intuition congruence).
        all: try (unfold queue; cbn; rewrite in_app_iff; cbn; tauto).
        all: try (unfold Lis; cbn; rewrite Hp; split; [exact L1|]; left; auto).
        all: destruct L4; auto.
    + eexists; exists (Posted false); split.
      { unfold calls, call; cbn [AuthModel.step dev set_ask]; unfold AuthModel.create; rewrite N1; cbn;
          unfold AuthModel.check, AuthModel.get; rewrite reqs_set, Nat.eqb_refl; cbn; rewrite Hl, G;
          unfold ListenerModel.add_event; rewrite L1, L2; cbn;
          unfold AuthModel.do_verdict, AuthModel.get; cbn; rewrite Nat.eqb_refl; cbn; reflexivity. }
      match goal with |- Inv ?x /\ _ => set (s' := x) end.
      assert (O : one s s' (next s) (Posted false)) by (intros x; cbn; destruct (x =? next s); reflexivity).
      split; [|repeat (split; [first [reflexivity | exact O | intros x; reflexivity | eexists; split; [reflexivity|cbn; auto] | cbn; exact Hl]|]); cbn; auto].
      apply (inv_change s s' (next s) (Posted false) I); auto.
      * unfold Lis. cbn. split; [exact L1|]. right. auto.
      * unfold queue. cbn. rewrite L3. constructor.
      * intros x Hx. unfold queue. cbn. rewrite Hl. reflexivity.
      * unfold queue. cbn. rewrite L3. split; [intros []|discriminate].
  - eexists; exists (Posted false); split.
    { unfold calls, call; cbn [AuthModel.step dev set_ask]; unfold AuthModel.create; rewrite N1; cbn;
          unfold AuthModel.check, AuthModel.get; rewrite reqs_set, Nat.eqb_refl; cbn; rewrite Hl;
          unfold AuthModel.do_verdict, AuthModel.get; cbn; rewrite Nat.eqb_refl; cbn; reflexivity. }
    match goal with |- Inv ?x /\ _ => set (s' := x) end.
    assert (O : one s s' (next s) (Posted false)) by (intros x; cbn; destruct (x =? next s); reflexivity).
    split; [|repeat (split; [first [reflexivity | exact O | intros x; reflexivity | eexists; split; [reflexivity|cbn; auto] | cbn; exact Hl]|]); cbn; auto].
    apply (inv_change s s' (next s) (Posted false) I); auto.
    + unfold Lis. cbn. rewrite Hl. exact L.
    + unfold queue. cbn. rewrite Hl. constructor.
    + intros x Hx. unfold queue. cbn. rewrite Hl. reflexivity.
    + unfold queue. cbn. rewrite Hl. split; [intros []|discriminate].
Qed.

Lemma discard_ok : forall s k, Inv s ->
  exists s', calls (set_ask s k) [AuthModel.Create (next s); AuthModel.Discard (next s)] = Some (s', []) /\ Inv s' /\
    iamst s' = iamst s /\ next s' = S (next s) /\ (forall x, asks s' x = if Nat.eqb x (next s) then Some k else asks s x) /\
    one s s' (next s) Dropped /\ h_phase s' = h_phase s /\ h_slot s' = h_slot s /\
    AuthModel.a_listener (dev s') = AuthModel.a_listener (dev s).
Proof.
  intros s k I. assert (L := J_lis _ I). assert (G := J_gone _ I).
  destruct (J_new _ I (next s) (le_n _)) as (N1 & N2).
  assert (Nq : ~ In (next s) (queue (dev s))) by (intros H; apply (J_less _ I) in H; lia).
  eexists; split.
  { unfold calls, call; cbn [AuthModel.step dev set_ask]; unfold AuthModel.create; rewrite N1; cbn;
    unfold AuthModel.ref_dec, AuthModel.get; rewrite reqs_set, Nat.eqb_refl; cbn; reflexivity. }
  match goal with |- Inv ?x /\ _ => set (s' := x) end.
  assert (O : one s s' (next s) Dropped) by (intros x; cbn; destruct (x =? next s); reflexivity).
  split; [|repeat (split; [first [reflexivity | exact O | intros x; reflexivity]|]); cbn; auto].
  apply (inv_change s s' (next s) Dropped I); auto.
  - cbn. repeat split; lia.
  - cbn. intros x Hx. destruct (Nat.eqb_spec x (next s)); [eauto|]. apply (J_ask _ I). lia.
  - cbn. intros x Hx. destruct (Nat.eqb_spec x (next s)); [lia|]. apply (J_new _ I). lia.
  - intros H. destruct (J_slot _ I H) as (r & R1 & R2). exists r. split; [exact R1|]. cbn. lia.
  - intros H H'. destruct (J_slot _ I H) as (r & R1 & R2). cbn in H'. rewrite H' in R1. injection R1 as <-. lia.
  - exact (J_nodup _ I).
  - intros x _. reflexivity.
  - split; [intros H; contradiction|discriminate].
Qed.

(** The handler is stopped. *)
Lemma stop_ok : forall s l, Inv s -> AuthModel.a_listener (dev s) = Some l ->
  exists s', call s AuthModel.StopListener = Some (s', []) /\ Inv s' /\ same_rest s s' /\ h_slot s' = h_slot s /\
    (exists l', AuthModel.a_listener (dev s') = Some l' /\ ListenerModel.l_ec l' = ListenerModel.stopped) /\
    (forall r, AuthModel.a_reqs (dev s') r =
       if in_dec Nat.eq_dec r (queue (dev s)) then Some (rec (Posted false)) else AuthModel.a_reqs (dev s) r) /\
    h_phase s' = match h_phase s with Waiting => Resolved ListenerModel.stopped | p => p end.
Proof.
  intros s l I Hl. assert (L := J_lis _ I). assert (G := J_gone _ I). unfold Lis in L. rewrite Hl in L.
  destruct L as (L1 & [(L2 & L3 & L4)|(L2 & L3 & L4 & L5 & L6)]).
  - destruct (released_all (ListenerModel.l_events l)
        (AuthModel.set_listener (dev s) (ListenerModel.no_cb (ListenerModel.set_fut (ListenerModel.set_events (ListenerModel.set_ec l ListenerModel.stopped) []) None)))
        ListenerModel.stopped
        ((match ListenerModel.l_fut l with Some f => [ListenerModel.Resolved f ListenerModel.stopped] | None => [] end) ++ [ListenerModel.Done]))
      as (d & D1 & D2 & D3 & D4).
    { assert (ND := J_nodup _ I). unfold queue in ND. now rewrite Hl in ND. }
    { intros r Hr. assert (Hq : In r (queue (dev s))) by (unfold queue; now rewrite Hl).
      destruct (J_req _ I r (J_less _ I r Hq)) as (g & G1 & _ & G3). apply G3 in Hq. subst g. exact G1. }
    assert (D1' : AuthModel.callbacks
        (AuthModel.set_listener (dev s) (ListenerModel.no_cb (ListenerModel.set_fut (ListenerModel.set_events (ListenerModel.set_ec l ListenerModel.stopped) []) None)))
        (map (fun e => ListenerModel.Released e ListenerModel.stopped) (ListenerModel.l_events l) ++
        (match ListenerModel.l_fut l with Some f => [ListenerModel.Resolved f ListenerModel.stopped] | None => [] end) ++ [ListenerModel.Done]) = Some d).
    { rewrite D1. destruct (ListenerModel.l_fut l); reflexivity. }
    assert (ST : ListenerModel.stop l =
       (ListenerModel.no_cb (ListenerModel.set_fut (ListenerModel.set_events (ListenerModel.set_ec l ListenerModel.stopped) []) None),
        map (fun e => ListenerModel.Released e ListenerModel.stopped) (ListenerModel.l_events l) ++
        (match ListenerModel.l_fut l with Some f => [ListenerModel.Resolved f ListenerModel.stopped] | None => [] end) ++ [ListenerModel.Done])).
    { clear - L1 L2 L3. destruct l. cbn in *. subst. reflexivity. }
    eexists. split.
    { unfold call. cbn [AuthModel.step]. rewrite G, Hl, ST. unfold AuthModel.listen. cbn [fst snd]. rewrite D1'.
      rewrite fold_react_skip, tells_L. reflexivity. }
    match goal with |- Inv ?x /\ _ => set (s' := x) end.
    assert (E1 : dev s' = d) by (unfold s'; destruct (ListenerModel.l_fut l); reflexivity).
    assert (E2 : same_rest s s') by (unfold s'; destruct (ListenerModel.l_fut l); repeat split).
    assert (E3 : h_slot s' = h_slot s) by (unfold s'; destruct (ListenerModel.l_fut l); reflexivity).
    assert (E4 : h_phase s' = match ListenerModel.l_fut l with Some _ => Resolved ListenerModel.stopped | None => h_phase s end)
      by (unfold s'; destruct (ListenerModel.l_fut l); reflexivity).
    assert (E5 : h_phase s' = match h_phase s with Waiting => Resolved ListenerModel.stopped | p => p end).
    { rewrite E4. destruct (h_phase s); try contradiction.
      - destruct L4 as (-> & _). reflexivity.
      - destruct L4 as (_ & ->). reflexivity.
      - rewrite L4. reflexivity.
      - rewrite L4. reflexivity. }
    clearbody s'. destruct E2 as (S1 & S2 & S3).
    assert (Q : queue (dev s') = []) by (unfold queue; rewrite E1, D3; reflexivity).
    assert (R : forall r, AuthModel.a_reqs (dev s') r =
       if in_dec Nat.eq_dec r (queue (dev s)) then Some (rec (Posted false)) else AuthModel.a_reqs (dev s) r).
    { intros r. rewrite E1, D2. unfold queue. rewrite Hl. reflexivity. }
    split; [|split; [repeat split; auto|]; split; [exact E3|]; split; [rewrite E1, D3; eexists; split; reflexivity|]; auto].
    constructor.
    + rewrite E1, D4. exact G.
    + unfold Lis. rewrite E1, D3. cbn. split; [exact L1|]. right. rewrite E5. repeat split; destruct (h_phase s); try discriminate; contradiction.
    + rewrite E5, E3, S3. intros H. apply (J_slot _ I). destruct (h_phase s); auto. destruct H; discriminate.
    + rewrite S3, S2. intros r Hr. destruct (J_new _ I r Hr) as (H1 & H2). rewrite R, H1. split; auto.
      destruct (in_dec _ _ _) as [Hi|]; [|reflexivity]. apply (J_less _ I) in Hi. lia.
    + rewrite S3. intros r Hr. destruct (J_req _ I r Hr) as (g & G1 & G2 & G3). rewrite R, Q.
      destruct (in_dec _ _ _) as [Hi|Hn].
      * apply G3 in Hi. subst g. exists (Posted false). split; [reflexivity|]. rewrite E3, E5. cbn in *. split; [|split; [intros []|discriminate]].
        intros H. apply G2. destruct (h_phase s); auto. destruct H; discriminate.
      * exists g. split; [exact G1|]. rewrite E3, E5. split.
        -- destruct g; cbn in *; try (intros H; apply G2; destruct (h_phase s); auto; destruct H; discriminate);
             destruct G2 as (-> & ->); auto.
        -- split; [intros []|]. intros ->. exfalso. apply Hn, G3. reflexivity.
    + rewrite S2, S3. exact (J_ask _ I).
    + rewrite Q. constructor.
    + rewrite Q. intros r [].
  - exists s. split.
    { unfold call. cbn [AuthModel.step]. rewrite G, Hl. unfold ListenerModel.stop. rewrite L1, L2. cbn.
      destruct s as [d i p sl n k]. cbn in *. unfold set_dev. cbn. repeat f_equal. destruct d; cbn in *. unfold AuthModel.set_listener. cbn. now rewrite Hl. }
    split; [exact I|]. split; [repeat split|]. split; [reflexivity|]. split; [eauto|]. split.
    + intros r. unfold queue. rewrite Hl, L3. destruct (in_dec _ _ _) as [[]|]. reflexivity.
    + destruct (h_phase s); try reflexivity; contradiction.
Qed.

(** The handler is initialised. *)
Lemma init_ok : forall s, Inv s -> h_phase s = Off ->
  exists s1 s', call s AuthModel.InitListener = Some (s1, []) /\ start_listen s1 = Some (s', []) /\ Inv s' /\ same_rest s s' /\
    h_phase s' = Waiting /\ (forall r, AuthModel.a_reqs (dev s') r = AuthModel.a_reqs (dev s) r) /\
    (exists l', AuthModel.a_listener (dev s') = Some l' /\ ListenerModel.l_ec l' = ListenerModel.ok).
Proof.
  intros s I Hp. assert (L := J_lis _ I). unfold Lis in L. rewrite Hp in L.
  destruct (AuthModel.a_listener (dev s)) as [l|] eqn:Hl.
  { destruct L as (_ & [(_ & _ & [])|(_ & _ & _ & _ & L)]). congruence. }
  assert (C : call s AuthModel.InitListener =
     Some (set_dev s (AuthModel.set_listener (dev s) (ListenerModel.listener_init ListenerModel.fresh_listener)), [])).
  { unfold call. cbn [AuthModel.step]. rewrite Hl. reflexivity. }
  set (s1 := set_dev s (AuthModel.set_listener (dev s) (ListenerModel.listener_init ListenerModel.fresh_listener))) in *.
  destruct (listen_ok s1 (ListenerModel.listener_init ListenerModel.fresh_listener)) as (s' & H1 & H2 & H3 & H4 & H5 & _ & H6).
  { constructor.
    - exact (J_gone _ I).
    - unfold Lis. cbn. split; [reflexivity|]. left. auto.
    - cbn. intros [H|H]; discriminate.
    - exact (J_new _ I).
    - cbn. intros r Hr. destruct (J_req _ I r Hr) as (g & G1 & G2 & G3). exists g. split; [exact G1|].
      rewrite Hp in G2. unfold queue in *. cbn. rewrite Hl in G3. split; [|exact G3].
      destruct g; cbn in *; try (destruct G2; discriminate); intros [H|H]; discriminate.
    - exact (J_ask _ I).
    - constructor.
    - intros r []. }
  { reflexivity. }
  exists s1, s'. split; [exact C|]. split; [exact H1|]. split; [exact H2|]. split; [repeat split; auto|].
  destruct H6 as [(H6 & _)|[(H6 & H7 & H8 & H9 & H10)|(e & q & _ & H6 & _)]].
  - cbn in H6. congruence.
  - split; [exact H8|]. split; [exact H10|].
    assert (L' := J_lis _ H2). unfold Lis in L'. rewrite H8 in L'. destruct (AuthModel.a_listener (dev s')) as [l'|]; [|destruct L'; discriminate].
    exists l'. split; [reflexivity|]. destruct L' as (_ & [(L' & _)|(_ & _ & _ & L' & _)]); [exact L'|congruence].
  - discriminate.
Qed.
