(** Proofs for the authorization property C34. *)
From Coq Require Import List Bool Arith Lia.
From Verif Require Import ListenerModel AuthModel AuthSpec.
Import ListNotations.

Definition b2n (b : bool) : nat := if b then 1 else 0.
Definition some {A} (x : option A) : bool := match x with Some _ => true | None => false end.

Record agree (v : view) (q : req) (inq : bool) : Prop := {
  g_made : made v = true;
  g_checked : q_checked q = checked v;
  g_done : q_done q = some (decision v);
  g_verdict : forall b, decision v = Some b -> q_verdict q = b;
  g_posted : q_posted q = some (decision v) && negb (over v);
  g_ref : q_ref q = b2n (negb (over v)) + b2n (held v);
  g_freed : q_freed q = Nat.eqb (q_ref q) 0;
  g_dec : decision v <> None -> checked v = true;
  g_held : held v = true -> checked v = true;
  g_wait : checked v = true -> decision v = None -> over v = false /\ (held v = true \/ inq = true);
  g_queue : inq = true -> checked v = true /\ decision v = None /\ held v = false /\ over v = false }.

Definition linv (l : lst) : Prop :=
  l_init l = true /\
  (l_ec l = ok -> l_cb l = true /\ (forall f, l_fut l = Some f -> l_events l = [] /\ l_place l <> None)) /\
  (l_ec l <> ok -> l_events l = [] /\ l_fut l = None).

Definition queue (s : st) : list nat := match a_listener s with Some l => l_events l | None => [] end.
Definition inq (s : st) (r : nat) : bool := existsb (Nat.eqb r) (queue s).

Record inv (s : st) (V : nat -> view) (gone : bool) : Prop := {
  i_reqs : forall r, match a_reqs s r with
                     | None => V r = nothing /\ inq s r = false
                     | Some q => agree (V r) q (inq s r)
                     end;
  i_lis : match a_listener s with Some l => linv l | None => True end;
  i_nodup : NoDup (queue s);
  i_gone : a_gone s = gone }.

Lemma inv_init : inv init (fun _ => nothing) false.
Proof. constructor; cbn; auto. constructor. Qed.

(** ** The listener *)
Ltac lsolve := repeat split; cbn; auto; intros; cbn in *; try discriminate; try congruence.
Lemma add_event_cases : forall l r, linv l ->
  (l_ec l <> ok /\ add_event l r = (l, [Refused r (l_ec l)])) \/
  (l_ec l = ok /\ exists l', add_event l r = (l', [Accepted r]) /\ linv l' /\ l_events l' = l_events l ++ [r]) \/
  (l_ec l = ok /\ exists l' p f, add_event l r = (l', [Accepted r; Write p r; Resolved f ok]) /\ linv l' /\ l_events l = [] /\ l_events l' = []).
Proof.
  intros l r (I & O & B). unfold add_event. rewrite I. cbn [negb].
  destruct (Nat.eqb (l_ec l) ok) eqn:E; cbn [negb].
  - apply Nat.eqb_eq in E. destruct (O E) as (C & F). right. unfold try_resolve. cbn [l_fut set_events l_events].
    destruct (l_fut l) as [f|] eqn:LF.
    + right. destruct (F f eq_refl) as [EV P]. destruct (l_place l) as [p|] eqn:LP; [|congruence].
      split; auto. rewrite EV. cbn [app l_cb set_events]. rewrite C. unfold deliver. cbn [l_place set_events]. rewrite LP.
      eexists _, p, f. split; [reflexivity|]. split; auto.
      lsolve.
    + left. split; auto. eexists. split; [reflexivity|]. split; auto.
      lsolve.
  - left. apply Nat.eqb_neq in E. auto.
Qed.

Lemma new_future_cases : forall l f p, linv l ->
  (exists ec, new_future l f p = (l, [Resolved f ec])) \/
  (exists l', new_future l f p = (l', []) /\ linv l' /\ l_events l' = l_events l) \/
  (exists l' e q, new_future l f p = (l', [Write p e; Resolved f ok]) /\ linv l' /\ l_events l = e :: q /\ l_events l' = q).
Proof.
  intros l f p (I & O & B). unfold new_future, init_future. rewrite I. cbn [negb].
  destruct (Nat.eqb (l_ec l) ok) eqn:E; cbn [negb]; [|left; eauto].
  apply Nat.eqb_eq in E. destruct (O E) as (C & F). destruct (l_fut l) as [f0|] eqn:LF; [left; eexists; reflexivity|]. right.
  cbn [Nat.eqb ok negb]. unfold try_resolve. cbn [l_fut set_fut set_place l_events].
  destruct (l_events l) as [|e q] eqn:EV.
  - left. eexists. split; [reflexivity|]. lsolve.
  - right. cbn [l_cb set_fut set_place set_events]. rewrite C. unfold deliver. cbn [l_place set_fut set_place set_events].
    eexists _, e, q. split; [reflexivity|]. lsolve.
Qed.

Definition quiet (o : ListenerModel.out) : bool := match o with Resolved _ _ | Done => true | _ => false end.

Lemma stop_cases : forall l, linv l ->
  (stop l = (l, []) /\ l_events l = []) \/
  (exists l' tl, stop l = (l', map (fun e => Released e stopped) (l_events l) ++ tl) /\ linv l' /\ l_events l' = [] /\
    forallb quiet tl = true).
Proof.
  intros l (I & O & B). unfold stop, set_error_code. rewrite I. cbn [negb].
  destruct (Nat.eqb (l_ec l) ok) eqn:E.
  - right. apply Nat.eqb_eq in E. destruct (O E) as (C & F). unfold resolve_error_state. cbn. rewrite C.
    eexists _, _. split; [reflexivity|]. split; [|split; [reflexivity|]].
    + lsolve.
    + destruct (l_fut l); reflexivity.
  - left. apply Nat.eqb_neq in E. split; auto. apply B. auto.
Qed.

(** ** Functions of the requests *)
Lemma callbacks_quiet : forall tl s, forallb quiet tl = true -> callbacks s tl = Some s.
Proof. induction tl as [|o tl IH]; intros s Q; [reflexivity|]. cbn in Q. apply andb_true_iff in Q as [Q1 Q2]. destruct o; try discriminate; cbn; auto. Qed.

Lemma req_other : forall s r x v, x <> r -> a_reqs (set_req s r v) x = a_reqs s x.
Proof. intros. cbn. apply Nat.eqb_neq in H. rewrite H. reflexivity. Qed.
Lemma req_same : forall s r v, a_reqs (set_req s r v) r = Some v.
Proof. intros. cbn. rewrite Nat.eqb_refl. reflexivity. Qed.

Definition deny (v : req) : req :=
  {| q_ref := q_ref v; q_done := true; q_verdict := false; q_posted := true; q_checked := q_checked v; q_freed := false |}.

Lemma callbacks_released : forall q s tl c, NoDup q -> forallb quiet tl = true ->
  (forall r, In r q -> exists v, a_reqs s r = Some v /\ q_freed v = false /\ q_done v = false) ->
  exists s', callbacks s (map (fun e => Released e c) q ++ tl) = Some s' /\
    a_listener s' = a_listener s /\ a_gone s' = a_gone s /\
    forall r, a_reqs s' r = if existsb (Nat.eqb r) q then option_map deny (a_reqs s r) else a_reqs s r.
Proof.
  induction q as [|e q IH]; intros s tl c ND QT H; cbn [map app callbacks].
  - exists s. rewrite callbacks_quiet by auto. auto.
  - inversion ND as [|? ? N1 N2]; subst. destruct (H e (or_introl eq_refl)) as (v & A & B & C).
    unfold do_verdict, get. rewrite A, B, C.
    destruct (IH (set_req s e {| q_ref := q_ref v; q_done := true; q_verdict := false; q_posted := true; q_checked := q_checked v; q_freed := false |}) tl c N2 QT) as (s' & S1 & S2 & S3 & S4).
    { intros r R. rewrite req_other by (intros ->; contradiction). apply H. right. auto. }
    exists s'. split; [exact S1|]. split; [exact S2|]. split; [exact S3|].
    intros r. rewrite S4. cbn [existsb]. destruct (Nat.eqb r e) eqn:E; cbn [orb].
    + apply Nat.eqb_eq in E. subst. destruct (existsb (Nat.eqb e) q) eqn:X.
      * apply existsb_exists in X. destruct X as (y & Y1 & Y2). apply Nat.eqb_eq in Y2. subst. contradiction.
      * rewrite req_same, A. reflexivity.
    + apply Nat.eqb_neq in E. rewrite req_other by auto. reflexivity.
Qed.

Lemma existsb_app_L : forall (f : nat -> bool) a b, existsb f (a ++ b) = existsb f a || existsb f b.
Proof. intros. apply existsb_app. Qed.

(** ** One step *)
Definition vstep (V : nat -> view) (x : op * list out) : nat -> view := fun r => look r (V r) x.

Definition able (V : nat -> view) (gone : bool) (o : op) : Prop :=
  match o with
  | Create r => made (V r) = false
  | Discard r => made (V r) = true /\ checked (V r) = false /\ over (V r) = false
  | Check r => made (V r) = true /\ checked (V r) = false /\ over (V r) = false /\ gone = false
  | Verdict r _ | FreeReq r => held (V r) = true
  | Ask _ _ | StopListener | FreeListener => gone = false
  | RunVerdict _ | InitListener => True
  end.
Definition goes (gone : bool) (o : op) : bool := match o with FreeListener => true | _ => gone end.

(** A step which says nothing of a request leaves its view as it is. *)
Definition silent (r : nat) (o : op) (l : list out) : Prop :=
  taken r l = false /\ handed r l = false /\ given_up r l = false /\ told r l = false /\
  match o with Create x | Discard x | Check x | Verdict x _ | FreeReq x => x <> r | _ => True end.
Lemma silent_look : forall r v o l, silent r o l -> look r v (o, l) = v.
Proof.
  intros r [a b c d e] o l (T & H & G & D & O). unfold look, decide, is. cbn [made checked over held decision].
  rewrite D, H. destruct o; try apply Nat.eqb_neq in O; rewrite ?O, ?G, ?orb_false_r; destruct e; reflexivity.
Qed.

Lemma in_inq : forall s r, inq s r = true <-> In r (queue s).
Proof.
  intros s r. unfold inq. rewrite existsb_exists. split.
  - intros (x & X & E). apply Nat.eqb_eq in E. subst. auto.
  - intros I. exists r. split; auto. apply Nat.eqb_refl.
Qed.

Lemma alive : forall s V gone r, inv s V gone -> made (V r) = true -> (over (V r) = false \/ held (V r) = true) ->
  exists q, a_reqs s r = Some q /\ get s r = Some q /\ agree (V r) q (inq s r) /\ q_freed q = false.
Proof.
  intros s V gone r I M A. pose proof (i_reqs _ _ _ I r) as R. unfold get. destruct (a_reqs s r) as [q|].
  - exists q. assert (F : q_freed q = false).
    { rewrite (g_freed _ _ _ R), (g_ref _ _ _ R). destruct A as [-> | ->]; cbn; [reflexivity|].
      rewrite Nat.add_comm. reflexivity. }
    rewrite F. auto.
  - destruct R as [R _]. rewrite R in M. discriminate.
Qed.

Lemma keep : forall s V gone s' o l r0, inv s V gone -> (forall r, r <> r0 -> a_reqs s' r = a_reqs s r) ->
  (forall r, r <> r0 -> silent r o l) -> (forall r, r <> r0 -> inq s' r = inq s r) ->
  (forall r, r <> r0 -> match a_reqs s' r with
                     | None => vstep V (o, l) r = nothing /\ inq s' r = false
                     | Some q => agree (vstep V (o, l) r) q (inq s' r)
                     end).
Proof.
  intros s V gone s' o l r0 I A S Q r N. unfold vstep. rewrite (A r N), (Q r N), (silent_look _ _ _ _ (S r N)).
  apply (i_reqs _ _ _ I r).
Qed.

Lemma split_r : forall s' V' r0,
  (forall r, r <> r0 -> match a_reqs s' r with None => V' r = nothing /\ inq s' r = false | Some q => agree (V' r) q (inq s' r) end) ->
  match a_reqs s' r0 with None => V' r0 = nothing /\ inq s' r0 = false | Some q => agree (V' r0) q (inq s' r0) end ->
  forall r, match a_reqs s' r with None => V' r = nothing /\ inq s' r = false | Some q => agree (V' r) q (inq s' r) end.
Proof. intros s' V' r0 A B r. destruct (Nat.eq_dec r r0) as [->|N]; [exact B|exact (A r N)]. Qed.

Lemma silent_nil : forall r o, match o with Create x | Discard x | Check x | Verdict x _ | FreeReq x => x <> r | _ => True end -> silent r o [].
Proof. intros r o H. repeat split; auto. Qed.
Lemma silent_freed : forall r o x l, (l = [] \/ l = [Freed x]) -> match o with Create x | Discard x | Check x | Verdict x _ | FreeReq x => x <> r | _ => True end -> silent r o l.
Proof. intros r o x l [-> | ->] H; repeat split; auto. Qed.

Lemma ref_dec_ok : forall s r q n, get s r = Some q -> q_ref q = S n ->
  ref_dec s r = Some (set_req s r {| q_ref := n; q_done := q_done q; q_verdict := q_verdict q; q_posted := q_posted q;
                                     q_checked := q_checked q; q_freed := Nat.eqb n 0 |},
                      if Nat.eqb n 0 then [Freed r] else []).
Proof. intros s r q n G R. unfold ref_dec. rewrite G, R. reflexivity. Qed.

Lemma quiet_tail : forall tl r, forallb quiet tl = true ->
  taken r (map L tl) = false /\ handed r (map L tl) = false /\ given_up r (map L tl) = false /\ told r (map L tl) = false.
Proof.
  induction tl as [|o tl IH]; intros r Q; [auto|]. cbn in Q. apply andb_true_iff in Q as [Q1 Q2].
  destruct (IH r Q2) as (A & B & C & D). destruct o; try discriminate; cbn; auto.
Qed.
Lemma released_views : forall q c r, taken r (map L (map (fun e => Released e c) q)) = false /\
  handed r (map L (map (fun e => Released e c) q)) = false /\
  told r (map L (map (fun e => Released e c) q)) = false /\
  given_up r (map L (map (fun e => Released e c) q)) = existsb (Nat.eqb r) q.
Proof.
  induction q as [|e q IH]; intros c r; [auto|]. destruct (IH c r) as (A & B & C & D). cbn.
  rewrite (Nat.eqb_sym e r). split; [exact A|]. split; [exact B|]. split; [exact C|]. f_equal. exact D.
Qed.

(** A record which agrees with a view, by the parts which can change. *)
Ltac views := unfold vstep, look; cbn [made checked over held decision q_ref q_done q_verdict q_posted q_checked q_freed].

Lemma step_inv : forall s V gone o, inv s V gone -> able V gone o ->
  exists s' l, step s o = Some (s', l) /\ inv s' (vstep V (o, l)) (goes gone o).
Proof.
  intros s V gone o I A. destruct o as [r|r|r|r| |f p|r b|r| | ]; cbn [step able goes] in *.
  - (* Create *)
    pose proof (i_reqs _ _ _ I r) as R. unfold create. destruct (a_reqs s r) as [q|] eqn:E.
    { rewrite (g_made _ _ _ R) in A. discriminate. }
    destruct R as [R Q]. eexists _, _. split; [reflexivity|]. constructor; cbn [a_listener set_req a_gone]; try apply I.
    apply (split_r _ _ r).
    + apply (keep s V gone); auto.
      * intros x N. apply req_other. auto.
      * intros x N. apply silent_nil. auto.
    + rewrite req_same. unfold vstep. rewrite R. change (inq (set_req s r _) r) with (inq s r). rewrite Q.
      unfold look, is. cbn. rewrite Nat.eqb_refl. constructor; cbn; auto; try discriminate; congruence.
  - (* Discard *)
    destruct A as (A1 & A2 & A3). destruct (alive _ _ _ r I A1 (or_introl A3)) as (q & E & G & AG & F).
    assert (HF : held (V r) = false). { destruct (held (V r)) eqn:H; auto. rewrite (g_held _ _ _ AG H) in A2. discriminate. }
    assert (DN : decision (V r) = None). { destruct (decision (V r)) eqn:H; auto. rewrite (g_dec _ _ _ AG ltac:(congruence)) in A2. discriminate. }
    assert (NQ : inq s r = false). { destruct (inq s r) eqn:H; auto. destruct (g_queue _ _ _ AG eq_refl). congruence. }
    assert (RF : q_ref q = 1). { rewrite (g_ref _ _ _ AG), A3, HF. reflexivity. }
    rewrite (ref_dec_ok s r q 0 G RF). eexists _, _. split; [reflexivity|].
    constructor; cbn [a_listener set_req a_gone]; try apply I.
    apply (split_r _ _ r).
    + apply (keep s V gone); auto.
      * intros x N. apply req_other. auto.
      * intros x N. apply (silent_freed x _ r); [right; reflexivity|auto].
    + rewrite req_same. change (inq (set_req s r _) r) with (inq s r). rewrite NQ.
      destruct AG. views. unfold is. rewrite Nat.eqb_refl, A1, A2, A3, DN, HF. cbn.
      constructor; cbn; auto; try discriminate; try congruence; rewrite ?g_done0, ?g_posted0, ?DN; auto.
  - (* Check *)
    destruct A as (A1 & A2 & A3 & A4). destruct (alive _ _ _ r I A1 (or_introl A3)) as (q & E & G & AG & F).
    assert (HF : held (V r) = false). { destruct (held (V r)) eqn:H; auto. rewrite (g_held _ _ _ AG H) in A2. discriminate. }
    assert (DN : decision (V r) = None). { destruct (decision (V r)) eqn:H; auto. rewrite (g_dec _ _ _ AG ltac:(congruence)) in A2. discriminate. }
    assert (NQ : inq s r = false). { destruct (inq s r) eqn:H; auto. destruct (g_queue _ _ _ AG eq_refl). congruence. }
    assert (RF : q_ref q = 1). { rewrite (g_ref _ _ _ AG), A3, HF. reflexivity. }
    assert (QD : q_done q = false). { rewrite (g_done _ _ _ AG), DN. reflexivity. }
    assert (QP : q_posted q = false). { rewrite (g_posted _ _ _ AG), DN. reflexivity. }
    unfold check. rewrite G. cbn [a_listener set_req a_gone].
    set (v1 := {| q_ref := q_ref q; q_done := q_done q; q_verdict := q_verdict q; q_posted := q_posted q; q_checked := true; q_freed := false |}).
    set (s1 := set_req s r v1).
    destruct (a_listener s) as [l|] eqn:LI.
    + assert (GN : a_gone s = false) by (rewrite (i_gone _ _ _ I); exact A4). rewrite GN. pose proof (i_lis _ _ _ I) as LV. rewrite LI in LV.
      destruct (add_event_cases l r LV) as [(EC & ->)|[(EC & l' & -> & LV' & EV)|(EC & l' & p & f & -> & LV' & EV & EV')]].
      * unfold listen. cbn [fst snd callbacks]. unfold do_verdict, get. cbn [a_reqs set_listener set_req s1]. rewrite Nat.eqb_refl.
        cbn [q_freed q_done v1]. rewrite QD. eexists _, _. split; [reflexivity|].
        constructor; cbn [a_listener set_req a_gone set_listener s1]; try apply I; auto.
        2:{ unfold queue. cbn. pose proof (i_nodup _ _ _ I) as ND. unfold queue in ND. rewrite LI in ND. exact ND. }
        assert (QE : forall x, inq (set_req (set_listener s1 l) r (deny v1)) x = inq s x) by (intros; unfold inq, queue; cbn; rewrite LI; reflexivity).
        apply (split_r _ _ r).
        -- apply (keep s V gone); auto.
           ++ intros x N. cbn. apply Nat.eqb_neq in N. rewrite N. reflexivity.
           ++ intros x N. cbn. repeat split; auto.
        -- cbn [a_reqs set_req]. rewrite Nat.eqb_refl. fold (deny v1). rewrite QE, NQ.
           views. unfold decide, is. rewrite Nat.eqb_refl, A1, A2, A3, DN, HF. cbn.
           constructor; cbn; auto; try discriminate; try congruence; rewrite ?RF; auto.
      * unfold listen. cbn [fst snd callbacks]. eexists _, _. split; [reflexivity|].
        assert (QE : queue (set_listener s1 l') = queue s ++ [r]) by (unfold queue; cbn; rewrite LI; exact EV).
        assert (NI : ~ In r (queue s)). { intros X. apply in_inq in X. congruence. }
        assert (IE : forall x, inq (set_listener s1 l') x = inq s x || Nat.eqb x r).
        { intros x. unfold inq. rewrite QE, existsb_app. cbn. rewrite orb_false_r. reflexivity. }
        constructor; cbn [a_listener set_req a_gone set_listener s1]; try apply I; auto.
        2:{ rewrite QE. apply NoDup_Add with (a := r) (l := queue s); [|split; [apply (i_nodup _ _ _ I)|exact NI]].
            replace (queue s) with (queue s ++ []) at 1 by apply app_nil_r. apply Add_app. }
        apply (split_r _ _ r).
        -- apply (keep s V gone); auto.
           ++ intros x N. cbn. apply Nat.eqb_neq in N. rewrite N. reflexivity.
           ++ intros x N. cbn. assert (N' : r <> x) by congruence. apply Nat.eqb_neq in N'. repeat split; cbn; rewrite ?N'; auto.
           ++ intros x N. rewrite IE. apply Nat.eqb_neq in N. rewrite N. apply orb_false_r.
        -- cbn [a_reqs set_req set_listener s1]. rewrite Nat.eqb_refl. rewrite IE, Nat.eqb_refl, orb_true_r.
           views. unfold decide, is. rewrite Nat.eqb_refl, A1, A2, A3, DN, HF. cbn. rewrite Nat.eqb_refl. cbn.
           constructor; cbn; auto; try discriminate; try congruence; rewrite ?QD, ?QP, ?RF, ?A3; auto.
      * unfold listen. cbn [fst snd callbacks]. unfold ref_inc, get. cbn [a_reqs set_listener set_req s1]. rewrite Nat.eqb_refl.
        cbn [q_freed q_done v1]. eexists _, _. split; [reflexivity|].
        assert (QE0 : queue s = []) by (unfold queue; rewrite LI; exact EV).
        match goal with [ |- inv ?x _ _ ] => set (s2 := x) end.
        assert (QE : queue s2 = []) by (unfold queue; cbn; exact EV').
        assert (IE : forall x, inq s2 x = inq s x) by (intros; unfold inq; rewrite QE, QE0; reflexivity).
        constructor; cbn [a_listener set_req a_gone set_listener s1 s2]; try apply I; auto.
        2:{ fold s2. rewrite QE. constructor. }
        fold s2. apply (split_r _ _ r).
        -- apply (keep s V gone); auto.
           ++ intros x N. cbn. apply Nat.eqb_neq in N. rewrite N. reflexivity.
           ++ intros x N. cbn. assert (N' : r <> x) by congruence. apply Nat.eqb_neq in N'. repeat split; cbn; rewrite ?N'; auto.
        -- unfold s2 at 1. rewrite req_same. rewrite IE, NQ. 
           views. unfold decide, is. rewrite Nat.eqb_refl, A1, A2, A3, DN, HF. cbn. rewrite Nat.eqb_refl. cbn.
           constructor; cbn; auto; try discriminate; try congruence; rewrite ?QD, ?QP, ?RF, ?A3; auto.
    + unfold do_verdict, get. cbn [a_reqs s1 set_req]. rewrite Nat.eqb_refl. cbn [q_freed q_done v1]. rewrite QD.
      eexists _, _. split; [reflexivity|].
      match goal with [ |- inv ?x _ _ ] => set (s2 := x) end.
      assert (IE : forall x, inq s2 x = inq s x) by (intros; unfold inq, queue; cbn; rewrite LI; reflexivity).
      constructor; cbn [a_listener set_req a_gone set_listener s1 s2]; try apply I; auto.
      all: try (rewrite LI; exact Logic.I).
      fold s2. apply (split_r _ _ r).
      * apply (keep s V gone); auto.
        -- intros x N. cbn. apply Nat.eqb_neq in N. rewrite N. reflexivity.
        -- intros x N. repeat split; auto.
      * unfold s2 at 1. rewrite req_same. rewrite IE, NQ.
        views. unfold decide, is. rewrite Nat.eqb_refl, A1, A2, A3, DN, HF. cbn.
        constructor; cbn; auto; try discriminate; try congruence; rewrite ?RF; auto.
  - (* RunVerdict *)
    pose proof (i_reqs _ _ _ I r) as R. unfold run_verdict. destruct (a_reqs s r) as [q|] eqn:E.
    2:{ eexists _, _. split; [reflexivity|]. constructor; try apply I. intros x. unfold vstep.
        rewrite silent_look by (apply silent_nil; exact Logic.I). apply (i_reqs _ _ _ I x). }
    destruct (q_posted q) eqn:QP.
    2:{ eexists _, _. split; [reflexivity|]. constructor; try apply I. intros x. unfold vstep.
        rewrite silent_look by (apply silent_nil; exact Logic.I). apply (i_reqs _ _ _ I x). }
    destruct R as [M1 C1 D1 V1 P1 R1 F1 X1 X2 X3 X4]. rewrite P1 in QP. apply andb_true_iff in QP as [QP1 QP2].
    destruct (decision (V r)) as [b|] eqn:DB; [|discriminate]. rewrite negb_true_iff in QP2.
    assert (CK : checked (V r) = true) by (apply X1; discriminate).
    rewrite QP2 in R1. cbn [negb b2n] in R1.
    assert (QF : q_freed q = false) by (rewrite F1, R1; reflexivity).
    assert (NQ : inq s r = false). { destruct (inq s r) eqn:H; auto. destruct (X4 eq_refl) as (_ & Z & _). discriminate. }
    unfold handle_verdict, get. cbn [a_reqs set_req]. rewrite Nat.eqb_refl. cbn [q_freed q_checked q_verdict]. rewrite QF, C1, CK.
    erewrite ref_dec_ok; [|unfold get; cbn [a_reqs set_req]; rewrite Nat.eqb_refl; cbn [q_freed]; rewrite ?QF; reflexivity|cbn [q_ref]; exact R1].
    cbn [q_done q_verdict q_posted q_checked].
    eexists _, _. split; [reflexivity|].
    match goal with [ |- inv ?x _ _ ] => set (s2 := x) end.
    constructor; cbn [a_listener set_req a_gone set_listener s2]; try apply I; auto.
    fold s2. apply (split_r _ _ r).
    + apply (keep s V gone); auto.
      * intros x N. cbn. apply Nat.eqb_neq in N. rewrite N. reflexivity.
      * intros x N. assert (N' : r <> x) by congruence. apply Nat.eqb_neq in N'.
        destruct (Nat.eqb (b2n (held (V r))) 0); repeat split; cbn; rewrite ?N'; auto.
    + unfold s2 at 1. rewrite req_same. change (inq s2 r) with (inq s r). rewrite NQ.
      views. rewrite DB, QP2. unfold told, handed. cbn [existsb]. rewrite Nat.eqb_refl.
      assert (H0 : existsb (fun x : out => match x with L (Write _ e) => e =? r | _ => false end) (if b2n (held (V r)) =? 0 then [Freed r] else []) = false)
        by (destruct (b2n (held (V r)) =? 0); reflexivity).
      rewrite H0, orb_true_r, !orb_false_r. cbn [orb].
      constructor; cbn; auto; try discriminate; try congruence; intros; try congruence.
  - (* InitListener *)
    assert (SAME : inv s (vstep V (InitListener, [InUse])) gone).
    { constructor; try apply I. intros x. unfold vstep. rewrite silent_look by (repeat split). apply (i_reqs _ _ _ I x). }
    destruct (a_listener s) as [l|] eqn:LI; [eauto|].
    eexists _, _. split; [reflexivity|]. constructor; cbn [a_reqs a_listener a_gone set_listener]; try apply I; auto.
    + intros x. unfold vstep. rewrite silent_look by (apply silent_nil; exact Logic.I).
      pose proof (i_reqs _ _ _ I x) as R. unfold inq, queue in *. rewrite LI in R. exact R.
    + repeat split; cbn; auto; discriminate.
    + constructor.
  - (* Ask *)
    assert (GN : a_gone s = false) by (rewrite (i_gone _ _ _ I); exact A). rewrite GN. destruct (a_listener s) as [l|] eqn:LI.
    2:{ eexists _, _. split; [reflexivity|]. constructor; try apply I.
        intros x. unfold vstep. rewrite silent_look by (repeat split). apply (i_reqs _ _ _ I x). }
    pose proof (i_lis _ _ _ I) as LV. rewrite LI in LV.
    destruct (new_future_cases l f p LV) as [(ec & ->)|[(l' & -> & LV' & EV)|(l' & e & q & -> & LV' & EV & EV')]];
      unfold listen; cbn [fst snd callbacks].
    + eexists _, _. split; [reflexivity|].
      assert (QE : forall x, inq (set_listener s l) x = inq s x) by (intros; unfold inq, queue; cbn; rewrite LI; reflexivity).
      constructor; cbn [a_listener a_gone set_listener]; try apply I; auto.
      * intros x. unfold vstep. rewrite silent_look by (repeat split). rewrite QE. apply (i_reqs _ _ _ I x).
      * pose proof (i_nodup _ _ _ I) as ND. unfold queue in *. cbn. rewrite LI in ND. exact ND.
    + eexists _, _. split; [reflexivity|].
      assert (QE : forall x, inq (set_listener s l') x = inq s x) by (intros; unfold inq, queue; cbn; rewrite LI, EV; reflexivity).
      constructor; cbn [a_listener a_gone set_listener]; try apply I; auto.
      * intros x. unfold vstep. rewrite silent_look by (repeat split). rewrite QE. apply (i_reqs _ _ _ I x).
      * pose proof (i_nodup _ _ _ I) as ND. unfold queue in *. cbn. rewrite LI in ND. rewrite EV. exact ND.
    + assert (QS : queue s = e :: q) by (unfold queue; rewrite LI; exact EV).
      pose proof (i_nodup _ _ _ I) as ND. rewrite QS in ND. apply NoDup_cons_iff in ND as [N1 N2].
      assert (IQ : inq s e = true) by (apply in_inq; rewrite QS; left; reflexivity).
      pose proof (i_reqs _ _ _ I e) as R. destruct (a_reqs s e) as [v|] eqn:E; [|destruct R; congruence].
      destruct R as [M1 C1 D1 V1 P1 R1 F1 X1 X2 X3 X4]. destruct (X4 IQ) as (Y1 & Y2 & Y3 & Y4).
      assert (QF : q_freed v = false) by (rewrite F1, R1, Y4; reflexivity).
      unfold ref_inc, get. cbn [a_reqs set_listener]. rewrite E, QF.
      eexists _, _. split; [reflexivity|].
      match goal with [ |- inv ?x _ _ ] => set (s2 := x) end.
      assert (Q2 : queue s2 = q) by exact EV'.
      assert (IE : forall x, x <> e -> inq s2 x = inq s x).
      { intros x N. unfold inq. rewrite Q2, QS. cbn. apply Nat.eqb_neq in N. rewrite N. reflexivity. }
      constructor; cbn [a_listener set_req a_gone set_listener s2]; try apply I; auto.
      fold s2. apply (split_r _ _ e).
      * apply (keep s V gone); auto.
        -- intros x N. cbn. apply Nat.eqb_neq in N. rewrite N. reflexivity.
        -- intros x N. assert (N' : e <> x) by congruence. apply Nat.eqb_neq in N'. repeat split; cbn; rewrite ?N'; auto.
      * unfold s2 at 1. rewrite req_same.
        assert (NQ : inq s2 e = false). { destruct (inq s2 e) eqn:H; auto. apply in_inq in H. rewrite Q2 in H. contradiction. }
        rewrite NQ. views. cbn. rewrite Nat.eqb_refl, Y2, Y3, Y4, !orb_false_r. cbn.
        constructor; cbn; auto; try discriminate; try congruence; rewrite ?D1, ?P1, ?R1, ?Y2, ?Y3, ?Y4; auto.
      * change (NoDup (queue s2)). rewrite Q2. exact N2.
  - (* Verdict *)
    assert (M : made (V r) = true).
    { pose proof (i_reqs _ _ _ I r) as R. destruct (a_reqs s r); [apply (g_made _ _ _ R)|]. destruct R as [R _]. rewrite R in A. discriminate. }
    destruct (alive _ _ _ r I M (or_intror A)) as (q & E & G & [M1 C1 D1 V1 P1 R1 F1 X1 X2 X3 X4] & F).
    assert (NQ : inq s r = false). { destruct (inq s r) eqn:H; auto. destruct (X4 eq_refl) as (_ & _ & Z & _). congruence. }
    unfold do_verdict. rewrite G. destruct (decision (V r)) as [b0|] eqn:DB; rewrite D1; cbn [some].
    + eexists _, _. split; [reflexivity|]. constructor; try apply I. apply (split_r _ _ r).
      * apply (keep s V gone); auto. intros x N. apply silent_nil. auto.
      * rewrite E. views. unfold decide. rewrite DB. unfold handed, told. cbn [existsb]. rewrite !orb_false_r.
        constructor; cbn; auto; try discriminate; try congruence; intros; try congruence; rewrite ?F1; auto.
    + eexists _, _. split; [reflexivity|].
      match goal with [ |- inv ?x _ _ ] => set (s2 := x) end.
      constructor; cbn [a_listener set_req a_gone set_listener s2]; try apply I; auto.
      fold s2. apply (split_r _ _ r).
      * apply (keep s V gone); auto.
        -- intros x N. cbn. apply Nat.eqb_neq in N. rewrite N. reflexivity.
        -- intros x N. apply silent_nil. auto.
      * unfold s2 at 1. rewrite req_same. change (inq s2 r) with (inq s r).
        destruct (X3 (X2 A) eq_refl) as [Z1 Z2].
        views. unfold decide, is. rewrite DB, Nat.eqb_refl, A, Z1. cbn. rewrite ?orb_false_r.
        constructor; cbn; auto; try discriminate; try congruence; intros; try congruence; rewrite ?R1, ?F1, ?A, ?Z1; auto.
  - (* FreeReq *)
    assert (M : made (V r) = true).
    { pose proof (i_reqs _ _ _ I r) as R. destruct (a_reqs s r); [apply (g_made _ _ _ R)|]. destruct R as [R _]. rewrite R in A. discriminate. }
    destruct (alive _ _ _ r I M (or_intror A)) as (q & E & G & [M1 C1 D1 V1 P1 R1 F1 X1 X2 X3 X4] & F).
    assert (NQ : inq s r = false). { destruct (inq s r) eqn:H; auto. destruct (X4 eq_refl) as (_ & _ & Z & _). congruence. }
    rewrite A in R1. cbn [b2n] in R1. rewrite Nat.add_comm in R1. cbn in R1.
    unfold do_verdict. rewrite G. destruct (decision (V r)) as [b0|] eqn:DB; rewrite D1; cbn [some].
    + rewrite (ref_dec_ok _ _ _ _ G R1). eexists _, _. split; [reflexivity|].
      match goal with [ |- inv ?x _ _ ] => set (s2 := x) end.
      constructor; cbn [a_listener set_req a_gone set_listener s2]; try apply I; auto.
      fold s2. apply (split_r _ _ r).
      * apply (keep s V gone); auto.
        -- intros x N. cbn. apply Nat.eqb_neq in N. rewrite N. reflexivity.
        -- intros x N. apply (silent_freed x _ r); auto. destruct (Nat.eqb (b2n (negb (over (V r)))) 0); auto.
      * unfold s2 at 1. rewrite req_same. change (inq s2 r) with (inq s r). rewrite NQ.
        assert (H0 : told r (if b2n (negb (over (V r))) =? 0 then [Freed r] else []) = false)
          by (destruct (b2n (negb (over (V r))) =? 0); reflexivity).
        views. unfold is. rewrite DB, Nat.eqb_refl, H0, !orb_false_r.
        constructor; cbn; auto; try discriminate; try congruence; intros; try congruence.
    + destruct (X3 (X2 A) eq_refl) as [Z1 Z2]. rewrite Z1 in R1. cbn in R1.
      erewrite ref_dec_ok; [|unfold get; rewrite req_same; cbn; reflexivity|cbn; exact R1].
      cbn [q_done q_verdict q_posted q_checked Nat.eqb].
      eexists _, _. split; [reflexivity|].
      match goal with [ |- inv ?x _ _ ] => set (s2 := x) end.
      constructor; cbn [a_listener set_req a_gone set_listener s2]; try apply I; auto.
      fold s2. apply (split_r _ _ r).
      * apply (keep s V gone); auto.
        -- intros x N. cbn. apply Nat.eqb_neq in N. rewrite N. reflexivity.
        -- intros x N. apply silent_nil. auto.
      * unfold s2 at 1. rewrite req_same. change (inq s2 r) with (inq s r). rewrite NQ.
        views. unfold is, decide, is. rewrite DB, Nat.eqb_refl, Z1. cbn. rewrite ?orb_false_r.
        constructor; cbn; auto; try discriminate; try congruence; intros; try congruence; rewrite ?R1, ?F1, ?A, ?Z1; auto.
  - (* StopListener *)
    assert (GN : a_gone s = false) by (rewrite (i_gone _ _ _ I); exact A). rewrite GN. destruct (a_listener s) as [l|] eqn:LI.
    2:{ eexists _, _. split; [reflexivity|]. constructor; try apply I.
        intros x. unfold vstep. rewrite silent_look by (repeat split). apply (i_reqs _ _ _ I x). }
    pose proof (i_lis _ _ _ I) as LV. rewrite LI in LV.
    destruct (stop_cases l LV) as [(-> & EV)|(l' & tl & -> & LV' & EV & QT)]; unfold listen; cbn [fst snd callbacks].
    + eexists _, _. split; [reflexivity|].
      assert (QE : forall x, inq (set_listener s l) x = inq s x) by (intros; unfold inq, queue; cbn; rewrite LI; reflexivity).
      constructor; cbn [a_listener a_gone set_listener]; try apply I; auto.
      * intros x. unfold vstep. rewrite silent_look by (repeat split). rewrite QE. apply (i_reqs _ _ _ I x).
      * unfold queue. cbn. rewrite EV. constructor.
    + assert (QS : queue s = l_events l) by (unfold queue; rewrite LI; reflexivity).
      destruct (callbacks_released (l_events l) (set_listener s l') tl stopped) as (s' & S1 & S2 & S3 & S4).
      { rewrite <- QS. apply (i_nodup _ _ _ I). }
      { exact QT. }
      { intros x X. rewrite <- QS in X. apply in_inq in X. pose proof (i_reqs _ _ _ I x) as R. cbn [a_reqs set_listener].
        destruct (a_reqs s x) as [v|] eqn:E; [|destruct R; congruence].
        destruct R as [M1 C1 D1 V1 P1 R1 F1 X1 X2 X3 X4]. destruct (X4 X) as (Y1 & Y2 & Y3 & Y4).
        exists v. split; auto. split; [rewrite F1, R1, Y4; reflexivity|rewrite D1, Y2; reflexivity]. }
      rewrite S1. eexists _, _. split; [reflexivity|]. cbn in S2, S3.
      assert (Q2 : forall x, inq s' x = false). { intros x. unfold inq, queue. rewrite S2, EV. reflexivity. }
      constructor.
      * intros x. rewrite S4. cbn [a_reqs set_listener]. unfold vstep.
        destruct (quiet_tail tl x QT) as (T1 & T2 & T3 & T4).
        destruct (released_views (l_events l) stopped x) as (U1 & U2 & U3 & U4).
        pose proof (i_reqs _ _ _ I x) as R. assert (IX : inq s x = existsb (Nat.eqb x) (l_events l)) by (unfold inq; rewrite QS; reflexivity).
        rewrite map_app. rewrite Q2.
        destruct (existsb (Nat.eqb x) (l_events l)) eqn:EX.
        -- rewrite IX in R. destruct (a_reqs s x) as [v|] eqn:E; [|destruct R; congruence]. cbn [option_map].
           destruct R as [M1 C1 D1 V1 P1 R1 F1 X1 X2 X3 X4]. destruct (X4 eq_refl) as (Y1 & Y2 & Y3 & Y4).
           unfold look, decide. unfold told, handed, given_up in *. rewrite !existsb_app, T2, T3, T4, U2, U3, U4, Y2, Y3, Y4, M1, Y1. cbn.
           constructor; cbn; auto; try discriminate; try congruence.
           all: rewrite ?R1, ?Y4, ?Y3; auto.
        -- rewrite silent_look.
           ++ rewrite IX in R. exact R.
           ++ unfold silent, taken, told, handed, given_up in *. rewrite !existsb_app, T1, T2, T3, T4, U1, U2, U3, U4. auto.
      * rewrite S2. exact LV'.
      * unfold queue. rewrite S2, EV. constructor.
      * rewrite S3. apply (i_gone _ _ _ I).
  - (* FreeListener *)
    assert (GN : a_gone s = false) by (rewrite (i_gone _ _ _ I); exact A). rewrite GN. eexists _, _. split; [reflexivity|]. constructor; cbn [a_reqs a_listener a_gone set_listener goes]; try apply I; auto.
    intros x. unfold vstep. rewrite silent_look by (repeat split). apply (i_reqs _ _ _ I x).
Qed.

Lemma inv_ext : forall s V V' g, inv s V g -> (forall r, V' r = V r) -> inv s V' g.
Proof. intros s V V' g [A B C D] E. constructor; auto. intros r. rewrite E. apply A. Qed.
Lemma view_snoc : forall r t x, view_of r (t ++ [x]) = look r (view_of r t) x.
Proof. intros. unfold view_of. rewrite fold_left_app. reflexivity. Qed.
Lemma freed_snoc : forall t o l, listener_freed (t ++ [(o, l)]) = goes (listener_freed t) o.
Proof. intros. unfold listener_freed. rewrite existsb_app. cbn. destruct o; cbn; rewrite ?orb_false_r, ?orb_true_r; reflexivity. Qed.

Definition tinv (s : st) (t : trace) : Prop := inv s (fun r => view_of r t) (listener_freed t).

Lemma tinv_init : tinv init [].
Proof. exact inv_init. Qed.
Lemma tstep : forall s t o, tinv s t -> allowed t o ->
  exists s' l, step s o = Some (s', l) /\ tinv s' (t ++ [(o, l)]).
Proof.
  intros s t o I A. destruct (step_inv s _ _ o I) as (s' & l & S & I'); [destruct o; exact A|].
  exists s', l. split; auto. unfold tinv. rewrite freed_snoc. eapply inv_ext; [exact I'|].
  intros r. apply view_snoc.
Qed.

Lemma run_inv : forall h s t, tinv s t -> obeys s t h ->
  exists s' t', run s h = Some (s', t') /\ tinv s' (t ++ t').
Proof.
  induction h as [|o h IH]; intros s t I O.
  - exists s, []. rewrite app_nil_r. auto.
  - cbn [obeys] in O. destruct O as [A O]. destruct (tstep s t o I A) as (s1 & l & S & I1). rewrite S in O.
    destruct (IH s1 _ I1 O) as (s2 & t2 & R & I2). exists s2, ((o, l) :: t2). cbn. rewrite S, R.
    split; auto. rewrite <- app_assoc in I2. exact I2.
Qed.

Lemma obeys_app : forall h1 h2 s t s1 t1, run s h1 = Some (s1, t1) -> obeys s t (h1 ++ h2) <-> obeys s t h1 /\ obeys s1 (t ++ t1) h2.
Proof.
  induction h1 as [|o h1 IH]; intros h2 s t s1 t1 R; cbn in *.
  - injection R as <- <-. rewrite app_nil_r. tauto.
  - destruct (step s o) as [[s2 l]|]; [|discriminate]. destruct (run s2 h1) as [[s3 t3]|] eqn:RR; [|discriminate].
    injection R as <- <-. rewrite (IH h2 s2 (t ++ [(o, l)]) s3 t3 RR), <- app_assoc. tauto.
Qed.
Lemma run_app : forall h1 h2 s, run s (h1 ++ h2) =
  match run s h1 with
  | None => None
  | Some (s1, t1) => match run s1 h2 with None => None | Some (s2, t2) => Some (s2, t1 ++ t2) end
  end.
Proof.
  induction h1 as [|o h1 IH]; intros h2 s; cbn [app run].
  - destruct (run s h2) as [[? ?]|]; reflexivity.
  - destruct (step s o) as [[s1 l]|]; [|reflexivity]. rewrite IH.
    destruct (run s1 h1) as [[s2 t2]|]; [|reflexivity]. destruct (run s2 h2) as [[? ?]|]; reflexivity.
Qed.
Lemma run_split : forall h s s' t p x q, run s h = Some (s', t) -> t = p ++ x :: q ->
  exists h1 h2 s1 s2, h = h1 ++ fst x :: h2 /\ run s h1 = Some (s1, p) /\ step s1 (fst x) = Some (s2, snd x) /\ run s2 h2 = Some (s', q).
Proof.
  induction h as [|o h IH]; intros s s' t p x q R E; cbn in R.
  - injection R as _ <-. destruct p; discriminate.
  - destruct (step s o) as [[s1 l]|] eqn:S; [|discriminate]. destruct (run s1 h) as [[s2 t2]|] eqn:RR; [|discriminate].
    injection R as <- <-. destruct p as [|y p]; cbn in E.
    + injection E as <- <-. exists [], h, s, s1. auto.
    + injection E as <- E. destruct (IH _ _ _ _ _ _ RR E) as (h1 & h2 & a1 & a2 & A & B & C & D).
      exists (o :: h1), h2, a1, a2. subst h. cbn. rewrite S, B. auto.
Qed.

(** The state before a step of an obeying history. *)
Lemma at_step : forall h s t p o l q, obeys init [] h -> run init h = Some (s, t) -> t = p ++ (o, l) :: q ->
  exists s1 s2, tinv s1 p /\ allowed p o /\ step s1 o = Some (s2, l) /\ tinv s2 (p ++ [(o, l)]).
Proof.
  intros h s t p o l q O R E. destruct (run_split _ _ _ _ _ _ _ R E) as (h1 & h2 & s1 & s2 & H & R1 & S & _).
  cbn [fst snd] in *. subst h. apply (obeys_app h1 _ _ _ _ _ R1) in O. destruct O as [O1 O2]. cbn [app obeys] in O2.
  destruct (run_inv h1 _ _ tinv_init O1) as (s1' & p' & R1' & I). rewrite R1 in R1'. injection R1' as <- <-. cbn [app] in I.
  destruct O2 as [A _]. destruct (tstep s1 p o I A) as (s2' & l' & S' & I'). rewrite S in S'. injection S' as <- <-.
  exists s1, s2. auto.
Qed.
Lemma at_end : forall h s t, obeys init [] h -> run init h = Some (s, t) -> tinv s t.
Proof.
  intros h s t O R. destruct (run_inv h _ _ tinv_init O) as (s' & t' & R' & I). rewrite R in R'. injection R' as <- <-. exact I.
Qed.

(** Only the event loop tells. *)
Lemma told_by : forall s t o s' l r v, tinv s t -> allowed t o -> step s o = Some (s', l) -> In (Told r v) l ->
  o = RunVerdict r /\ decision (view_of r t) = Some v /\ over (view_of r t) = false /\ checked (view_of r t) = true.
Proof.
  intros s t o s' l r v I A S T.
  assert (LT : forall x, ~ In (Told r v) (map L x)). { intros x X. apply in_map_iff in X. destruct X as (y & Y & _). discriminate. }
  assert (LI : forall s x s1 o1, listen s x = Some (s1, o1) -> ~ In (Told r v) o1).
  { unfold listen. intros s0 x s1 o1 E. destruct (callbacks _ _); [|discriminate]. injection E as _ <-. apply LT. }
  assert (RD : forall s x s1 o1, ref_dec s x = Some (s1, o1) -> ~ In (Told r v) o1).
  { unfold ref_dec. intros s0 x s1 o1 E. destruct (get s0 x) as [q|]; [|discriminate]. destruct (q_ref q); [discriminate|].
    injection E as _ <-. destruct (Nat.eqb n 0); intros X; [destruct X as [X|[]]; discriminate|destruct X]. }
  destruct o as [x|x|x|x| |f p|x b|x| | ]; cbn [step] in S.
  - destruct (create s x); [|discriminate]. injection S as _ <-. destruct T.
  - exfalso. eapply RD; eauto.
  - exfalso. unfold check in S. destruct (get s x); [|discriminate]. cbn [a_listener set_req] in S.
    destruct (a_listener s) as [l0|].
    + cbn [a_gone set_req] in S. destruct (a_gone s); [discriminate|]. destruct (add_event l0 x) as [l1 o1].
      destruct (listen _ _) as [[s1 o2]|] eqn:LE; [|discriminate].
      assert (l = o2).
      { destruct o1 as [|[] ?]; try (injection S as _ <-; reflexivity).
        destruct (do_verdict s1 x false); [|discriminate]. injection S as _ <-. reflexivity. }
      subst. eapply LI; eauto.
    + destruct (do_verdict _ x false); [|discriminate]. injection S as _ <-. destruct T.
  - unfold run_verdict in S. destruct (a_reqs s x) as [q|] eqn:E; [|injection S as _ <-; destruct T].
    destruct (q_posted q) eqn:P; [|injection S as _ <-; destruct T].
    unfold handle_verdict in S. destruct (get _ x) as [q'|] eqn:G; [|discriminate]. destruct (q_checked q') eqn:QC; [|discriminate].
    destruct (ref_dec _ x) as [[s1 o1]|] eqn:D; [|discriminate]. injection S as <- <-.
    destruct T as [T|T]; [|exfalso; eapply RD; eauto]. injection T as -> <-. split; [reflexivity|].
    unfold get in G. cbn [a_reqs set_req] in G. rewrite Nat.eqb_refl in G. cbn [q_freed] in G. destruct (q_freed q); [discriminate|].
    injection G as <-. cbn [q_verdict q_checked] in *. pose proof (i_reqs _ _ _ I r) as R. rewrite E in R.
    destruct R as [M1 C1 D1 V1 P1 R1 F1 X1 X2 X3 X4]. rewrite P in P1. symmetry in P1. apply andb_true_iff in P1 as [P1 P2].
    apply negb_true_iff in P2. destruct (decision (view_of r t)) as [b|]; [|discriminate].
    rewrite (V1 b eq_refl). split; [reflexivity|]. split; [exact P2|]. apply X1. discriminate.
  - exfalso. destruct (a_listener s); injection S as _ <-; cbn in T; intuition discriminate.
  - exfalso. destruct (a_gone s); [discriminate|]. destruct (a_listener s); [eapply LI; eauto|].
    injection S as _ <-. destruct T as [T|T]; [discriminate|destruct T].
  - destruct (do_verdict s x b); [|discriminate]. injection S as _ <-. destruct T.
  - destruct (do_verdict s x false); [|discriminate]. exfalso. eapply RD; eauto.
  - exfalso. destruct (a_gone s); [discriminate|]. destruct (a_listener s); [eapply LI; eauto|]. injection S as _ <-. destruct T.
  - destruct (a_gone s); [discriminate|]. injection S as _ <-. destruct T.
Qed.

(** Where a decision comes from. *)
Lemma no_dec : forall r p x q, decision (view_of r (p ++ x :: q)) = None -> decision (view_of r p) = None /\ decide r (fst x) (snd x) = None.
Proof.
  intros r p x q. unfold view_of. rewrite fold_left_app. cbn [fold_left]. set (v := fold_left (look r) p nothing). intros H.
  assert (K : forall q v, decision (fold_left (look r) q v) = None -> decision v = None).
  { induction q0 as [|[o l] q0 IH]; intros w E; [exact E|]. cbn [fold_left] in E. apply IH in E. cbn in E.
    destruct (decision w); [discriminate|reflexivity]. }
  apply K in H. destruct x as [o l]. cbn in H. destruct (decision v); [discriminate|]. auto.
Qed.
Lemma dec_from : forall r p v, decision (view_of r p) = Some v ->
  exists p1 x p2, p = p1 ++ x :: p2 /\ decision (view_of r p1) = None /\ decide r (fst x) (snd x) = Some v.
Proof.
  intros r p. induction p as [|x p IH] using rev_ind; intros v E; [discriminate|]. rewrite view_snoc in E. destruct x as [o l].
  cbn in E. destruct (decision (view_of r p)) as [b|] eqn:D.
  - injection E as ->. destruct (IH v eq_refl) as (p1 & x & p2 & -> & A & B). exists p1, x, (p2 ++ [(o, l)]).
    rewrite <- app_assoc. auto.
  - exists p, (o, l), []. auto.
Qed.
Lemma held_from : forall r p, held (view_of r p) = true -> exists o l pl, In (o, l) p /\ In (L (Write pl r)) l.
Proof.
  intros r p. induction p as [|[o l] p IH] using rev_ind; intros H; [discriminate|]. rewrite view_snoc in H. cbn in H.
  assert (C : held (view_of r p) = true \/ handed r l = true).
  { destruct o; try (apply orb_true_iff in H; exact H). destruct (is r r0); [discriminate|auto]. }
  destruct C as [C|C].
  - destruct (IH C) as (o' & l' & pl & A & B). exists o', l', pl. split; auto. apply in_app_iff. auto.
  - unfold handed in C. apply existsb_exists in C. destruct C as (y & Y & Z). destruct y as [y| | |]; try discriminate.
    destruct y as [| |pl e| | |]; try discriminate. apply Nat.eqb_eq in Z. subst. exists o, l, pl. split; auto. apply in_app_iff. right. left. reflexivity.
Qed.
Lemma over_stays : forall r p q, over (view_of r p) = true -> over (view_of r (p ++ q)) = true.
Proof.
  intros r p q H. unfold view_of in *. rewrite fold_left_app. revert H. generalize (fold_left (look r) p nothing).
  induction q as [|[o l] q IH]; intros v H; [exact H|]. cbn [fold_left]. apply IH. cbn. rewrite H. reflexivity.
Qed.
Lemma told_over : forall r v p q l o, In (Told r v) l -> over (view_of r (p ++ (o, l) :: q)) = true.
Proof.
  intros r v p q l o T. replace (p ++ (o, l) :: q) with ((p ++ [(o, l)]) ++ q) by (rewrite <- app_assoc; reflexivity).
  apply over_stays. rewrite view_snoc. cbn. replace (told r l) with true; [rewrite !orb_true_r; reflexivity|].
  symmetry. apply existsb_exists. exists (Told r v). split; auto. apply Nat.eqb_refl.
Qed.

(** ** Memory *)
Definition isfreed (s : st) (r : nat) : bool := match a_reqs s r with Some q => q_freed q | None => false end.

Lemma freed_same : forall s x v r, get s x = Some v -> forall w, q_freed w = false -> isfreed (set_req s x w) r = isfreed s r.
Proof.
  intros s x v r G w W. unfold isfreed. destruct (Nat.eq_dec r x) as [->|N].
  - rewrite req_same, W. unfold get in G. destruct (a_reqs s x) as [q|]; [|reflexivity]. destruct (q_freed q); [discriminate|reflexivity].
  - rewrite req_other by auto. reflexivity.
Qed.
Lemma verdict_freed : forall s x b s' r, do_verdict s x b = Some s' -> isfreed s' r = isfreed s r.
Proof.
  unfold do_verdict. intros s x b s' r E. destruct (get s x) as [v|] eqn:G; [|discriminate].
  destruct (q_done v); injection E as <-; [reflexivity|]. eapply freed_same; eauto.
Qed.
Lemma callbacks_freed : forall l s s' r, callbacks s l = Some s' -> isfreed s' r = isfreed s r.
Proof.
  induction l as [|o l IH]; intros s s' r E; cbn in E; [injection E as <-; reflexivity|].
  destruct o as [e|e ec|p e|f ec|e ec|]; try (apply IH; exact E).
  - unfold ref_inc in E. destruct (get s e) as [v|] eqn:G; [|discriminate]. rewrite (IH _ _ r E). eapply freed_same; eauto.
  - destruct (do_verdict s e false) as [s1|] eqn:D; [|discriminate]. rewrite (IH _ _ r E). eapply verdict_freed; eauto.
Qed.
Lemma freed_L : forall r x, freed r (map L x) = 0.
Proof. intros r x. unfold freed. induction x as [|o x IH]; [reflexivity|]. exact IH. Qed.
Lemma listen_freed : forall s x s' o r, listen s x = Some (s', o) -> freed r o = 0 /\ isfreed s' r = isfreed s r.
Proof.
  unfold listen. intros s x s' o r E. destruct (callbacks _ _) as [s1|] eqn:C; [|discriminate]. injection E as <- <-.
  split; [apply freed_L|]. rewrite (callbacks_freed _ _ _ r C). reflexivity.
Qed.
Lemma dec_freed : forall s x s' o r, ref_dec s x = Some (s', o) -> freed r o + b2n (isfreed s r) = b2n (isfreed s' r).
Proof.
  unfold ref_dec. intros s x s' o r E. destruct (get s x) as [v|] eqn:G; [|discriminate]. destruct (q_ref v) as [|n]; [discriminate|].
  injection E as <- <-. unfold isfreed. destruct (Nat.eq_dec r x) as [->|N].
  - rewrite req_same. cbn [q_freed]. unfold get in G. destruct (a_reqs s x) as [q|]; [|discriminate].
    destruct (q_freed q); [discriminate|]. destruct (Nat.eqb n 0); unfold freed; cbn [filter length]; [rewrite Nat.eqb_refl|]; reflexivity.
  - rewrite req_other by auto. assert (N' : x <> r) by congruence. apply Nat.eqb_neq in N'.
    destruct (Nat.eqb n 0); unfold freed; cbn [filter length]; rewrite ?N'; reflexivity.
Qed.
Lemma step_freed : forall s o s' l r, step s o = Some (s', l) -> freed r l + b2n (isfreed s r) = b2n (isfreed s' r).
Proof.
  intros s o s' l r S. destruct o as [x|x|x|x| |f p|x b|x| | ]; cbn [step] in S.
  - unfold create in S. destruct (a_reqs s x) eqn:E; [discriminate|]. injection S as <- <-. cbn [freed filter length Nat.add].
    unfold isfreed. destruct (Nat.eq_dec r x) as [->|N]; [rewrite req_same, E; reflexivity|rewrite req_other by auto; reflexivity].
  - eapply dec_freed; eauto.
  - unfold check in S. destruct (get s x) as [v|] eqn:G; [|discriminate]. cbn [a_listener set_req] in S.
    match type of S with context[set_req s x ?w] => set (v1 := w) in S; pose proof (freed_same s x v r G v1 eq_refl) as K end.
    destruct (a_listener s) as [l0|].
    + cbn [a_gone set_req] in S. destruct (a_gone s); [discriminate|]. destruct (add_event l0 x) as [l1 o1].
      destruct (listen _ _) as [[s1 o2]|] eqn:LE; [|discriminate]. destruct (listen_freed _ _ _ _ r LE) as [A B].
      rewrite <- K, <- B.
      destruct o1 as [|[] ?]; try (injection S as <- <-; rewrite A; reflexivity).
      destruct (do_verdict s1 x false) as [s2|] eqn:D; [|discriminate]. injection S as <- <-. rewrite A, (verdict_freed _ _ _ _ r D). reflexivity.
    + destruct (do_verdict _ x false) as [s2|] eqn:D; [|discriminate]. injection S as <- <-. rewrite (verdict_freed _ _ _ _ r D), K. reflexivity.
  - unfold run_verdict in S. destruct (a_reqs s x) as [q|] eqn:E; [|injection S as <- <-; reflexivity].
    destruct (q_posted q) eqn:P; [|injection S as <- <-; reflexivity].
    match type of S with handle_verdict (set_req s x ?w) x = _ => set (v1 := w) in S end.
    assert (K : isfreed (set_req s x v1) r = isfreed s r).
    { unfold isfreed. destruct (Nat.eq_dec r x) as [->|N]; [rewrite req_same, E; reflexivity|rewrite req_other by auto; reflexivity]. }
    unfold handle_verdict in S. destruct (get _ x) as [q'|] eqn:G; [|discriminate]. destruct (q_checked q') eqn:QC; [|discriminate].
    destruct (ref_dec _ x) as [[s1 o1]|] eqn:D; [|discriminate]. injection S as <- <-.
    rewrite <- K. pose proof (dec_freed _ _ _ _ r D). exact H.
  - destruct (a_listener s); injection S as <- <-; reflexivity.
  - destruct (a_gone s); [discriminate|]. destruct (a_listener s) as [l0|].
    + destruct (listen_freed _ _ _ _ r S) as [A B]. rewrite A, B. reflexivity.
    + injection S as <- <-. reflexivity.
  - destruct (do_verdict s x b) as [s2|] eqn:D; [|discriminate]. injection S as <- <-. rewrite (verdict_freed _ _ _ _ r D). reflexivity.
  - destruct (do_verdict s x false) as [s2|] eqn:D; [|discriminate]. rewrite <- (verdict_freed _ _ _ _ r D). eapply dec_freed; eauto.
  - destruct (a_gone s); [discriminate|]. destruct (a_listener s) as [l0|].
    + destruct (listen_freed _ _ _ _ r S) as [A B]. rewrite A, B. reflexivity.
    + injection S as <- <-. reflexivity.
  - destruct (a_gone s); [discriminate|]. injection S as <- <-. reflexivity.
Qed.
Lemma run_freed : forall h s s' t r, run s h = Some (s', t) -> freed r (flat_map snd t) + b2n (isfreed s r) = b2n (isfreed s' r).
Proof.
  induction h as [|o h IH]; intros s s' t r R; cbn in R; [injection R as <- <-; reflexivity|].
  destruct (step s o) as [[s1 l]|] eqn:S; [|discriminate]. destruct (run s1 h) as [[s2 t2]|] eqn:RR; [|discriminate].
  injection R as <- <-. cbn [flat_map snd]. unfold freed in *. rewrite filter_app, app_length.
  pose proof (step_freed _ _ _ _ r S) as A. unfold freed in A. specialize (IH _ _ _ r RR). lia.
Qed.
