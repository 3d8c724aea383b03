(** Property C33: listeners. *)
From Coq Require Import List Bool Arith Lia.
From Verif Require Import ListenerModel ListenerSpec ListenerProofs.
Import ListNotations.

Definition start := listener_init fresh_listener.

(** In every history the events the application got, then the ones which were released, then the ones which
    wait, are the events the listener took, in their order: none is lost, doubled or overtaken. *)
Theorem C33_in_order : forall h l t, Forall proper h -> run start h = (l, t) ->
  got t ++ released t ++ l_events l = accepted t /\
  (failed None t = None -> released t = []) /\
  (failed None t <> None -> l_events l = []).
Proof.
  intros h l t P R. destruct (run_inv h _ _ inv_init P) as (l' & t' & R' & I & _). cbn [app] in I.
  unfold start in R. rewrite R in R'. injection R' as <- <-.
  split; [apply (i_all _ _ I)|]. split.
  - intros F. apply (i_ok _ _ I F).
  - intros F. destruct (failed None t) as [ec|] eqn:E; [|congruence]. apply (i_bad _ _ I ec E).
Qed.
Print Assumptions C33_in_order.

(** What the listener does at every step, in terms of what it did before. *)
Theorem C33_answers : forall h l t p o a q, Forall proper h -> run start h = (l, t) -> t = p ++ (o, a) :: q ->
  a = answer p o.
Proof.
  intros h l t p o a q P R E. destruct (run_inv h _ _ inv_init P) as (l' & t' & R' & I & A).
  unfold start in R. rewrite R in R'. injection R' as <- <-. apply (A p o a q E).
Qed.
Print Assumptions C33_answers.

(** At any time one future at most is waiting, and not while an event is queued. *)
Theorem C33_never_idle : forall h l t, Forall proper h -> run start h = (l, t) ->
  l_fut l = option_map fst (waiting None t) /\ (l_fut l <> None -> queued t = []).
Proof.
  intros h l t P R. destruct (run_inv h _ _ inv_init P) as (l' & t' & R' & I & A). cbn [app] in I.
  unfold start in R. rewrite R in R'. injection R' as <- <-. rewrite (queued_is _ _ I).
  destruct (failed None t) as [ec|] eqn:F.
  - destruct (i_bad _ _ I ec F) as (_ & _ & _ & E & G & W). rewrite W, G. split; [reflexivity|congruence].
  - destruct (i_ok _ _ I F) as (_ & _ & _ & G & _ & W). split; [exact G|]. rewrite G.
    destruct (waiting None t); intros N; [apply W; discriminate|cbn in N; congruence].
Qed.
Print Assumptions C33_never_idle.

(** Every future which is given is resolved once: as often as given, but for the one which waits. *)
Definition given (f : nat) (t : trace) : nat :=
  length (filter (fun x => match fst x with NewFuture g _ => Nat.eqb g f | _ => false end) t).
Definition resolved (f : nat) (t : trace) : nat :=
  length (filter (fun o => match o with Resolved g _ => Nat.eqb g f | _ => false end) (outs t)).
Definition is_waiting (f : nat) (t : trace) : nat :=
  match waiting None t with Some (g, _) => if Nat.eqb g f then 1 else 0 | None => 0 end.

Lemma resolved_map : forall f q c, filter (fun o => match o with Resolved g _ => Nat.eqb g f | _ => false end)
  (map (fun e => Released e c) q) = [].
Proof. induction q; intros; cbn; auto. Qed.

Theorem C33_futures_once : forall h l t f, Forall proper h -> run start h = (l, t) ->
  given f t = resolved f t + is_waiting f t.
Proof.
  intros h. induction h as [|o h IH] using rev_ind; intros l t f P R.
  - cbn in R. injection R as _ <-. reflexivity.
  - apply Forall_app in P. destruct P as [P1 P2]. inversion P2 as [|? ? P3 _]; subst.
    rewrite run_app in R. destruct (run start h) as [l1 t1] eqn:R1. specialize (IH l1 t1 f P1 eq_refl).
    destruct (run_inv h _ _ inv_init P1) as (l' & t' & R' & I & A). unfold start in R1.
    rewrite R1 in R'. injection R' as <- <-. cbn [app] in I.
    destruct (step_inv _ _ o I P3) as (l2 & S & _). cbn [run] in R. rewrite S in R. injection R as _ <-.
    unfold given, resolved, is_waiting in *. rewrite filter_app, app_length, outs_app, filter_app, app_length, waiting_app.
    assert (BW : failed None t1 <> None -> waiting None t1 = None).
    { intros F. destruct (failed None t1) as [ec|] eqn:E; [|congruence]. apply (i_bad _ _ I ec E). }
    assert (BQ : waiting None t1 <> None -> queued t1 = []).
    { intros W. rewrite (queued_is _ _ I). destruct (failed None t1) as [ec|] eqn:E.
      - apply (i_bad _ _ I ec E). - apply (i_ok _ _ I E). exact W. }
    unfold outs at 2. cbn [flat_map snd filter fst]. rewrite app_nil_r.
    assert (CASE : forall g x : nat, g + x = g + x) by auto. clear CASE.
    destruct o as [|e|g p|ec|]; cbn [proper] in P3; [contradiction| | | |]; cbn [answer].
    + destruct (failed None t1) as [ec|]; [rewrite (BW ltac:(discriminate)) in *|]; cbn; [lia|].
      destruct (waiting None t1) as [[g p]|]; cbn; [|lia]. destruct (Nat.eqb g f); cbn in *; lia.
    + destruct (failed None t1) as [ec|]; [rewrite (BW ltac:(discriminate)) in *|].
      * cbn in *. destruct (Nat.eqb g f); cbn; lia.
      * destruct (waiting None t1) as [[g' p']|].
        -- cbn in *. destruct (Nat.eqb g f), (Nat.eqb g' f); cbn; lia.
        -- destruct (queued t1); cbn; destruct (Nat.eqb g f); cbn; lia.
    + destruct (failed None t1) as [ec'|]; [rewrite (BW ltac:(discriminate)) in *; cbn in *; lia|].
      cbn [waiting]. rewrite !filter_app, resolved_map, existsb_app, map_resolves. cbn [app orb length].
      destruct (waiting None t1) as [[g p]|]; cbn; [|lia]. destruct (Nat.eqb g f); cbn in *; lia.
    + destruct (failed None t1) as [ec'|]; [rewrite (BW ltac:(discriminate)) in *; cbn in *; lia|].
      cbn [waiting]. rewrite !filter_app, resolved_map, existsb_app, map_resolves. cbn [app orb length].
      destruct (waiting None t1) as [[g p]|]; cbn; [|lia]. destruct (Nat.eqb g f); cbn in *; lia.
Qed.
Print Assumptions C33_futures_once.

(** After stop or error nothing is handed out and nothing waits, whatever the application does. *)
Theorem C33_after_stop : forall h l t p q, Forall proper h -> run start h = (l, t) -> t = p ++ q ->
  failed None p <> None -> waiting None p = None /\
  forall x, In x (outs q) -> match x with Refused _ _ => True | Resolved _ ec => ec <> ok | _ => False end.
Proof.
  intros h l t p q P R E F. revert p F E.
  destruct (run_inv h _ _ inv_init P) as (l' & t' & R' & I & A). unfold start in R.
  rewrite R in R'. injection R' as <- <-. cbn [app] in *.
  assert (W : forall p q, t = p ++ q -> failed None p <> None -> (failed None p <> Some ok) /\ waiting None p = None).
  { intros p q' E F. 
    assert (exists h1 l1, Forall proper h1 /\ run (listener_init fresh_listener) h1 = (l1, p)) as (h1 & l1 & P1 & R1).
    { destruct q' as [|x q'].
      - rewrite app_nil_r in E. subst. eauto.
      - rewrite E in R. destruct (run_split _ _ _ _ _ _ R) as (h1 & h2 & l1 & l2 & H & R1 & _).
        exists h1, l1. split; [|exact R1]. subst h. apply Forall_app in P. tauto. }
    destruct (run_inv h1 _ _ inv_init P1) as (l2 & t2 & R2 & I2 & _). rewrite R1 in R2. injection R2 as <- <-.
    cbn [app] in I2. destruct (failed None p) as [ec|] eqn:FF; [|congruence].
    destruct (i_bad _ _ I2 ec FF) as (_ & N & _ & _ & _ & WW). split; [congruence|exact WW]. }
  intros p F E. split; [apply (W p q E F)|]. revert p F E.
  induction q as [|[o a] q IH]; intros p F E x X; [destruct X|].
  assert (F' : failed None (p ++ [(o, a)]) <> None).
  { rewrite failed_app. destruct (failed None p); [|congruence]. destruct o; cbn; discriminate. }
  unfold outs in X. cbn [flat_map snd] in X. apply in_app_iff in X. destruct X as [X|X].
  - rewrite (A p o a q E) in X. destruct (failed None p) as [ec|] eqn:FF; [|congruence].
    destruct (W p _ E ltac:(congruence)) as [N _]. rewrite FF in N.
    destruct o; cbn [answer] in X; rewrite ?FF in X; cbn in X; try (exfalso; exact X); destruct X as [<-|[]]; auto; congruence.
  - eapply (IH (p ++ [(o, a)])); auto. rewrite <- app_assoc. exact E.
Qed.
Print Assumptions C33_after_stop.

(** Nothing keeps an application from initialising the same listener again: the events which wait are
    lost. *)
Theorem C33_init_twice_refuted : exists h l t, run start h = (l, t) /\
  got t ++ released t ++ l_events l <> accepted t.
Proof. eexists [Event 5; Init], _, _. split; [vm_compute; reflexivity|]. vm_compute. discriminate. Qed.
Print Assumptions C33_init_twice_refuted.

Example C33_ex : let h := [Event 1; Event 2; NewFuture 10 100; NewFuture 11 101; NewFuture 12 102; NewFuture 13 103;
                           Event 3; Event 4; Event 5; Stop; Event 6; NewFuture 14 104] in
  Forall proper h /\ exists l t, run start h = (l, t) /\ got t = [1; 2; 3] /\ released t = [4; 5] /\
    outs t = [Accepted 1; Accepted 2; Write 100 1; Resolved 10 ok; Write 101 2; Resolved 11 ok; Resolved 13 in_progress;
              Accepted 3; Write 102 3; Resolved 12 ok; Accepted 4; Accepted 5; Released 4 stopped; Released 5 stopped; Done;
              Refused 6 stopped; Resolved 14 stopped].
Proof.
  split; [repeat constructor|]. eexists _, _. split; [vm_compute; reflexivity|]. vm_compute. auto.
Qed.
