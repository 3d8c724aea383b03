(** Proofs for the property C39. *)
From Coq Require Import List Bool Arith Lia.
From Verif Require Import AttachModel AttachSpec AttachProofs AttachMore.
Import ListNotations.

(** ** At most one answer for one request *)
Definition closer_eqb (a b : closer) : bool := match a, b with DeviceClose, DeviceClose | Disable, Disable => true | _, _ => false end.
Definition held (k : closer) (s : st) : nat := match p_cb s with Some k' => if closer_eqb k k' then 1 else 0 | None => 0 end.
Definition no_answer (l : list out) : bool := forallb (fun x => match x with ClosedCb _ => false | _ => true end) l.
Lemma no_answer_count : forall k m l, no_answer l = true -> answered k [(m, l)] = 0.
Proof.
  intros k m l H. unfold answered, outs. cbn [flat_map snd]. rewrite app_nil_r. induction l as [|x l IH]; [reflexivity|].
  cbn in H. apply andb_prop in H. destruct H as [H1 H2]. destruct x; try discriminate; cbn; auto.
Qed.
Lemma step_other : forall e o s, match o with Close _ | Run => False | _ => True end ->
  p_cb (fst (step e o s)) = p_cb s /\ no_answer (snd (step e o s)) = true.
Proof. intros e o s H. destruct o; try contradiction; open_step; split_step; split; reflexivity. Qed.
Lemma close_cb : forall e s, p_cb (fst (do_close e s)) = p_cb s /\ no_answer (snd (do_close e s)) = true.
Proof. intros e s. open_step. split_step; split; reflexivity. Qed.
Lemma run_cb : forall e s, match p_queue s with
  | QClose :: _ => p_cb (fst (step e Run s)) = None /\
                   snd (step e Run s) = match p_cb s with Some Disable => [ClosedCb Disable; News NewsDetached] | Some k => [ClosedCb k] | None => [] end
  | _ => p_cb (fst (step e Run s)) = p_cb s /\ no_answer (snd (step e Run s)) = true
  end.
Proof. intros e s. open_step. split_step; split; auto. Qed.
Lemma step_count : forall e o s k, answered k [((o, e), snd (step e o s))] + held k (fst (step e o s)) <= asked k [((o, e), snd (step e o s))] + held k s.
Proof.
  intros e o s k.
  assert (C : (match o with Close _ | Run => False | _ => True end) \/ (exists k0, o = Close k0) \/ o = Run) by (destruct o; eauto).
  destruct C as [C|[[k0 ->]| ->]].
  - destruct (step_other e o s C) as [H1 H2]. rewrite no_answer_count by auto. unfold held. rewrite H1. lia.
  - cbn [step]. unfold andthen. cbn [set_cb fst snd]. match goal with |- context [do_close e ?s0] => destruct (close_cb e s0) as [H1 H2]; destruct (do_close e s0) as [s1 l] end.
    cbn [fst snd app p_cb] in *. rewrite no_answer_count by auto. unfold held. rewrite H1. unfold asked. cbn. destruct k, k0; cbn; lia.
  - pose proof (run_cb e s) as H. destruct (p_queue s) as [|[| |] q]; destruct H as [H1 H2]; try (rewrite no_answer_count by auto; unfold held; rewrite H1; lia).
    rewrite H2. unfold held. rewrite H1. unfold answered, outs. cbn [flat_map snd]. destruct k, (p_cb s) as [[|]|]; cbn; lia.
Qed.

(** ** Nothing new *)
Lemma step_quiet : forall e o s w, known s w o -> inv s w -> p_mod s <> Running -> begins (o, e) = false ->
  forallb (fun x => negb (attempt x)) (snd (step e o s)) = true /\ p_mod (fst (step e o s)) <> Running.
Proof.
  intros e o s w K I M B. destruct o; try discriminate; open_step; split_step; try solve [cbn; split; auto; congruence].
  all: cbn in K.
  all: try match goal with H : p_queue ?s0 = _ |- _ => rewrite H in K end.
  all: try solve [intuition congruence].
  all: try solve [destruct (K eq_refl) as (c & K1 & K2 & K3 & K4); congruence].
  all: try solve [destruct (K eq_refl) as (c & K1 & K2 & K3 & K4 & K5); congruence].
  all: try solve [destruct (K ltac:(discriminate)) as (c & K1 & K2 & K3 & K4); congruence].
Qed.

(** ** A request is answered in the end *)
Definition has_close (s : st) : Prop := p_cb s <> None -> p_mod s = Setup \/ p_state s = Closed -> In QClose (p_queue s).
Lemma step_has_close : forall e o s w, inv s w -> known s w o -> has_close s -> has_close (fst (step e o s)).
Proof.
  assert (X : forall x q, In x q -> In x (q ++ [QClose])) by (intros; apply in_or_app; auto).
  assert (Y : forall q, In QClose (q ++ [QClose])) by (intros; apply in_or_app; right; left; auto).
  assert (Z : forall q, existsb (is_event QClose) q = true -> In QClose q).
  { intros q H. apply existsb_exists in H. destruct H as ([| |] & H1 & H2); auto; discriminate. }
  intros e o s w I K H. unfold has_close in *. destruct o; open_step; split_step; try solve [cbn; auto; intuition congruence].
  all: cbn in K.
  all: try match goal with Q : p_queue ?s0 = _ |- _ => try rewrite Q in H; rewrite Q in K end.
  all: try solve [intuition congruence].
  all: intros C M; specialize (H C M); cbn in H; rewrite ?in_app_iff; intuition congruence.
Qed.

Definition leads (k : closer) (s : st) (w : world) : Prop :=
  exists h, forallb environment h = true /\ obeys s w h /\ In (ClosedCb k) (outs (snd (run s h))).
Lemma leads_step : forall k s w o, allowed w o -> environment (o, good) = true ->
  leads k (fst (step good o s)) (see w ((o, good), snd (step good o s))) -> leads k s w.
Proof.
  intros k s w o A E (h & H1 & H2 & H3). exists ((o, good) :: h). cbn [forallb obeys run]. rewrite E.
  destruct (step good o s) as [s1 l]. cbn [fst snd] in *. destruct (run s1 h) as [s2 t]. cbn [snd] in *. repeat split; auto.
  unfold outs in *. cbn. apply in_or_app. auto.
Qed.
Lemma leads_now : forall k s w o, allowed w o -> environment (o, good) = true -> In (ClosedCb k) (snd (step good o s)) -> leads k s w.
Proof.
  intros k s w o A E H. exists [(o, good)]. cbn [forallb obeys run]. rewrite E. destruct (step good o s) as [s1 l]. cbn in *.
  rewrite app_nil_r. auto.
Qed.
Lemma run_queue : forall s x q, p_queue s = x :: q -> x <> QClose -> exists r, p_queue (fst (step good Run s)) = q ++ r.
Proof.
  intros s x q Q N. open_step. split_step; try congruence; eexists; try (symmetry; apply app_nil_r); injection Q as <- <-; auto;
    try (symmetry; apply app_nil_r); reflexivity.
Qed.
Lemma flush : forall q1 k s w q2, inv s w -> p_cb s = Some k -> p_queue s = q1 ++ QClose :: q2 -> leads k s w.
Proof.
  induction q1 as [|x q1 IH]; intros k s w q2 I C Q.
  - apply (leads_now k s w Run); [exact Logic.I|reflexivity|]. pose proof (run_cb good s) as H. rewrite Q in H. cbn [app] in H. destruct H as [_ H].
    rewrite H, C. destruct k; left; reflexivity.
  - destruct (match x with QClose => true | _ => false end) eqn:X.
    + destruct x; try discriminate. apply (leads_now k s w Run); [exact Logic.I|reflexivity|]. pose proof (run_cb good s) as H. rewrite Q in H. cbn [app] in H. destruct H as [_ H].
      rewrite H, C. destruct k; left; reflexivity.
    + apply (leads_step k s w Run); [exact Logic.I|reflexivity|].
      destruct (run_queue s x (q1 ++ QClose :: q2) Q) as [r R]; [intros ->; discriminate|].
      rewrite <- app_assoc in R. cbn in R. eapply IH; [apply step_inv; [exact I|exact Logic.I]| |exact R].
      pose proof (run_cb good s) as H. rewrite Q in H. cbn [app] in H. destruct x; try discriminate; destruct H as [-> _]; exact C.
Qed.
Lemma flush_in : forall k s w, inv s w -> p_cb s = Some k -> In QClose (p_queue s) -> leads k s w.
Proof. intros k s w I C H. apply in_split in H. destruct H as (q1 & q2 & H). eapply flush; eauto. Qed.

Lemma dns_in : forall q, dns_events q <> 0 -> exists q1 b q2, q = q1 ++ QDns b :: q2.
Proof.
  induction q as [|x q IH]; intros H; [unfold dns_events in H; cbn in H; lia|].
  destruct x.
  - rewrite dns_4 in H. destruct (IH H) as (q1 & b & q2 & ->). exists (QClose :: q1), b, q2. reflexivity.
  - exists [], ok, q. reflexivity.
  - rewrite dns_5 in H. destruct (IH H) as (q1 & b & q2 & ->). exists (QDeferred :: q1), b, q2. reflexivity.
Qed.
Lemma flush_dns : forall q1 k s w b q2, inv s w -> p_mod s = Stopped -> p_cb s = Some k -> p_queue s = q1 ++ QDns b :: q2 -> leads k s w.
Proof.
  induction q1 as [|x q1 IH]; intros k s w b q2 I M C Q.
  - apply (leads_step k s w Run); [exact Logic.I|reflexivity|]. apply flush_in.
    + apply step_inv; [exact I|exact Logic.I].
    + pose proof (run_cb good s) as H. rewrite Q in H. cbn [app] in H. destruct H as [-> _]. exact C.
    + cbn in Q. cbn [step]. rewrite Q. unfold dns_resolved, andthen. cbn [set_queue p_mod fst snd]. rewrite M. unfold go, handle_state_change, andthen, post. red_step.
      split_step; [|apply in_or_app; right; left; auto]. apply existsb_exists in Heqb0. destruct Heqb0 as ([| |] & H1 & H2); auto; discriminate.
  - destruct (match x with QClose => true | _ => false end) eqn:X.
    + destruct x; try discriminate. apply (leads_now k s w Run); [exact Logic.I|reflexivity|]. pose proof (run_cb good s) as H. rewrite Q in H. cbn [app] in H. destruct H as [_ H].
      rewrite H, C. destruct k; left; reflexivity.
    + apply (leads_step k s w Run); [exact Logic.I|reflexivity|].
      destruct (run_queue s x (q1 ++ QDns b :: q2) Q) as [r R]; [intros ->; discriminate|].
      rewrite <- app_assoc in R. cbn in R. eapply IH; [apply step_inv; [exact I|exact Logic.I]| | |exact R].
      * destruct x; try discriminate; cbn [step]; rewrite Q; cbn [app]; unfold dns_resolved, andthen, post; cbn [set_queue fst snd p_mod p_queue].
        -- rewrite M. unfold go, handle_state_change, andthen, post. red_step. split_step; first [exact M|reflexivity].
        -- split_step; first [exact M|reflexivity].
      * pose proof (run_cb good s) as H. rewrite Q in H. cbn [app] in H. destruct x; try discriminate; destruct H as [-> _]; exact C.
Qed.
Lemma closed_event : forall s w c, inv s w -> p_mod s = Stopped -> p_dtls s = Some c ->
  let o := Dtls c DtlsClosed in
  p_cb (fst (step good o s)) = p_cb s /\ In QClose (p_queue (fst (step good o s))).
Proof.
  intros s w c I M D o. unfold o. cbn [step]. unfold dtls_event. rewrite M.
  unfold reset_dtls, go, handle_state_change, andthen, post. cbn [set_ka fst snd p_dtls]. rewrite D.
  assert (Z : forall q, existsb (is_event QClose) q = true -> In QClose q).
  { intros q H. apply existsb_exists in H. destruct H as ([| |] & H1 & H2); auto; discriminate. }
  red_step. split_step; cbn; (split; [reflexivity|]); try (apply Z; assumption); apply in_or_app; right; left; auto.
Qed.
Lemma close_ends : forall k s w, inv s w -> has_close s -> p_mod s <> Running -> p_cb s = Some k -> leads k s w.
Proof.
  intros k s w I H M C. destruct (p_mod s) eqn:PM; [|congruence|].
  - apply flush_in; auto. apply H; [congruence|auto].
  - pose proof I as I0. destruct I as (B & P & S).
    assert (X : p_dtls s <> None -> leads k s w).
    { intros X. destruct (p_dtls s) as [c|] eqn:D; [|congruence]. destruct (closed_event s w c I0 PM D) as [E1 E2].
      assert (A : allowed w (Dtls c DtlsClosed)) by (split; [rewrite <- D; apply I0|discriminate]).
      apply (leads_step k s w (Dtls c DtlsClosed)); [exact A|reflexivity|].
      apply flush_in; auto; [apply step_inv; auto|congruence]. }
    unfold phase_ok in P. rewrite PM in P. destruct (p_state s) eqn:PS.
    + ands. destruct (p_dns s) as [|n] eqn:D.
      * destruct (dns_in (p_queue s)) as (q1 & b & q2 & Q); [lia|]. eapply flush_dns; eauto.
      * apply (leads_step k s w (Resolved true)); [exact Logic.I|reflexivity|].
        eapply (flush_dns (p_queue s)).
        -- apply step_inv; [exact I0|exact Logic.I].
        -- open_step. split_step; exact PM.
        -- open_step. split_step; exact C.
        -- cbn [step]. rewrite D. unfold andthen, post. cbn [set_dns fst snd p_queue]. rewrite dns_post by lia. reflexivity.
    + apply X. apply P.
    + ands; congruence.
    + ands; congruence.
    + apply X. apply P.
    + apply X. apply P.
    + apply flush_in; auto. apply H; [congruence|auto].
Qed.
