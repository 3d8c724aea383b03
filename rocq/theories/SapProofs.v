From Coq Require Import List Bool Arith Lia.
From Verif Require Import StrModel StrSpec StrProofs StrData SapModel SapSpec.
Import ListNotations.

Lemma play_app : forall h1 h2 p, play p (h1 ++ h2) = (fst (play (fst (play p h1)) h2), snd (play p h1) ++ snd (play (fst (play p h1)) h2)).
Proof.
  induction h1 as [|m h1 IH]; intros h2 s; cbn [app play].
  - cbn [fst snd app]. apply surjective_pairing.
  - destruct (act (snd m) (fst m) s) as [s1 l]. rewrite IH. destruct (play s1 h1) as [s2 t]. cbn [fst snd]. destruct (play s2 h2); reflexivity.
Qed.
Lemma play_snoc : forall h m p, play p (h ++ [m]) = (fst (act (snd m) (fst m) (fst (play p h))), snd (play p h) ++ [(m, snd (act (snd m) (fst m) (fst (play p h))))]).
Proof. intros. rewrite play_app. cbn [play]. destruct (act _ _ _); reflexivity. Qed.
Lemma play_moves : forall h s, map fst (snd (play s h)) = h.
Proof. induction h as [|m h IH]; intros s; [reflexivity|]. cbn [play]. destruct (act _ _ _) as [s1 l]. specialize (IH s1). destruct (play s1 h). cbn [snd map fst] in *. congruence. Qed.
Lemma play_in : forall h s m l, In (m, l) (snd (play s h)) -> In m h.
Proof. intros h s m l I. rewrite <- (play_moves h s). apply in_map with (f := fst) in I. exact I. Qed.
Lemma in_play : forall h s m, In m h -> exists l, In (m, l) (snd (play s h)).
Proof. intros h s m I. rewrite <- (play_moves h s) in I. apply in_map_iff in I as [[m' l] [E I]]. cbn in E. subst. eauto. Qed.
Lemma replies_snoc : forall t m l, replies (t ++ [(m, l)]) = replies t ++ l.
Proof. intros. unfold replies. rewrite flat_map_app. cbn. rewrite app_nil_r. reflexivity. Qed.
Lemma resolved_snoc : forall f t m l, resolved f (t ++ [(m, l)]) = resolved f t + count (is_resolved f) l.
Proof. intros. unfold resolved. rewrite replies_snoc. apply count_app. Qed.
Lemma futures_snoc : forall h m, futures (h ++ [m]) = futures h ++ gives_future m.
Proof. intros. unfold futures. rewrite flat_map_app. cbn. rewrite app_nil_r. reflexivity. Qed.
Lemma upd_eq : forall A (f : kind -> A) k x, upd f k x k = x. Proof. intros. destruct k; reflexivity. Qed.
Lemma upd_neq : forall A (f : kind -> A) k k' x, k <> k' -> upd f k x k' = f k'. Proof. intros. unfold upd. destruct k, k'; cbn; congruence. Qed.
Lemma kind_dec : forall k k' : kind, {k = k'} + {k <> k'}. Proof. decide equality. Qed.
Lemma kind_of_id : forall k, kind_of (id k) = k. Proof. intros []; reflexivity. Qed.
Lemma id_inj : forall k k', id k = id k' -> k = k'. Proof. intros [] []; cbn; congruence. Qed.

(** ** The core completes each event which it holds at most once *)
Definition ids (s : stream) : Prop := forall k e, held_k k s = Some e -> e = id k.
Definition has (k : kind) (s : stream) : nat := match held_k k s with Some _ => 1 | None => 0 end.
Lemma occ_opt : forall k k' s, ids s -> occ (id k) (opt (held_k k' s)) = if kind_eqb k k' then has k s else 0.
Proof.
  intros k k' s I. unfold has. destruct (kind_dec k k') as [->|N].
  - replace (kind_eqb k' k') with true by (destruct k'; reflexivity). destruct (held_k k' s) as [e|] eqn:H; [|reflexivity]. rewrite (I k' e H). unfold occ, count. cbn [opt filter]. rewrite Nat.eqb_refl. reflexivity.
  - replace (kind_eqb k k') with false by (destruct k, k'; try reflexivity; congruence). destruct (held_k k' s) as [e|] eqn:H; [|reflexivity]. rewrite (I k' e H). unfold occ, count. cbn [opt filter]. destruct (id k =? id k') eqn:E; [|reflexivity]. apply Nat.eqb_eq, id_inj in E. congruence.
Qed.
Lemma occ_held : forall k s, ids s -> occ (id k) (held s) = has k s.
Proof. intros k s I. unfold held. rewrite !occ_app, !(occ_opt k _ s I). destruct k; cbn [kind_eqb]; lia. Qed.
(** The operations with which the API calls the core. *)
Definition fits (o : op) (s : stream) : Prop := match started1 o with Some (k, e) => e = id k /\ held_k k s = None | None => True end.
Definition starts (k : kind) (o : op) : nat := match started1 o with Some (k', _) => if kind_eqb k k' then 1 else 0 | None => 0 end.
Lemma core_tally : forall k v o s, ids s -> fits o s -> ids (fst (step v o s)) /\ done (id k) (snd (step v o s)) + has k (fst (step v o s)) = has k s + starts k o.
Proof.
  intros k v o s I F. assert (J : ids (fst (step v o s))). { intros k' e H. apply step_kinds in H as [H|H]; [exact (I k' e H)|]. unfold fits in F. rewrite H in F. tauto. }
  split; [exact J|]. pose proof (step_tally (id k) v o s) as T. rewrite (occ_held k _ J), (occ_held k _ I) in T. rewrite T. f_equal. unfold begins, starts. unfold fits in F. destruct (started1 (fst (o, v))) as [[k' e]|] eqn:S; cbn [fst] in S; rewrite S in *; [|reflexivity].
  destruct F as [-> _]. unfold occ, count. destruct k, k'; reflexivity.
Qed.
Lemma core_events : forall v o s e c, ids s -> fits o s -> In (Complete e c) (snd (step v o s)) -> e = id (kind_of e).
Proof.
  intros v o s e c I F C. pose proof (step_tally e v o s) as T. assert (D : 1 <= done e (snd (step v o s))).
  { unfold done, count. clear T. induction (snd (step v o s)) as [|x l IH]; [destruct C|]. cbn [filter]. destruct C as [->|C]; [cbn; rewrite Nat.eqb_refl; cbn; lia|]. specialize (IH C). destruct (is_complete e x); cbn [length]; lia. }
  assert (X : In e (held s) \/ In e (begins (o, v))). { destruct (occ e (held s)) eqn:O; [right; apply in_occ; lia|left; apply in_occ; lia]. }
  destruct X as [X|X].
  - apply held_in in X as [k X]. rewrite (I k e X), kind_of_id. reflexivity.
  - unfold begins in X. unfold fits in F. cbn [fst] in X. destruct (started1 o) as [[k e']|]; [|destruct X]. destruct X as [->|[]]. destruct F as [-> _]. rewrite kind_of_id. reflexivity.
Qed.

(** ** Posting *)
Definition codes1 (k : kind) (l : list reply) : list code := flat_map (fun x => match x with Done k' c => if kind_eqb k k' then [c] else [] | _ => [] end) l.
Definition calm (l : list reply) : Prop := (forall f, count (is_resolved f) l = 0) /\ ~ In Crash l.
Definition posted (k : kind) (l : list out) (p p' : api) (r : list reply) : Prop :=
  done (id k) l = 0 /\ p_slot p' k = p_slot p k /\ codes1 k r = [] \/
  done (id k) l = 1 /\ exists c, p_slot p' k = {| k_live := true; k_posted := true; k_ec := c; k_stale := k_stale (p_slot p k) |} /\ codes1 k r = [c].
Lemma post_ok : forall l p, (forall k, done (id k) l = 0 \/ done (id k) l = 1 /\ k_live (p_slot p k) = true) -> (forall e c, In (Complete e c) l -> e = id (kind_of e)) ->
  let p' := fst (post l p) in let r := snd (post l p) in p_core p' = p_core p /\ p_fut p' = p_fut p /\ p_dead p' = p_dead p /\ calm r /\ forall k, posted k l p p' r.
Proof.
  induction l as [|x l IH]; intros p D E.
  - cbn. repeat split; auto. intros k. left. repeat split.
  - assert (E' : forall e c, In (Complete e c) l -> e = id (kind_of e)) by (intros e c I; eapply E; right; exact I).
    destruct x as [e c|e a n|e n|e a n]; try (exact (IH p D E')).
    cbn [post]. assert (K : e = id (kind_of e)) by (eapply E; left; reflexivity). set (k := kind_of e) in *. clearbody k. assert (KK : kind_eqb k k = true) by (destruct k; reflexivity).
    assert (DK : forall j, done (id j) (Complete e c :: l) = (if kind_eqb j k then 1 else 0) + done (id j) l). { intros j. rewrite done_complete, K. destruct j, k; reflexivity. }
    destruct (D k) as [D0|[D1 LV]]; [rewrite DK, KK in D0; discriminate|]. rewrite LV.
    assert (D2 : done (id k) l = 0) by (rewrite DK, KK in D1; lia).
    set (p1 := set_slot k _ p). specialize (IH p1). destruct IH as (A1 & A2 & A3 & A4 & A5).
    + intros j. specialize (D j). rewrite DK in D. destruct (kind_dec j k) as [->|N]; [left; exact D2|]. replace (kind_eqb j k) with false in D by (destruct j, k; try reflexivity; congruence). destruct D as [D|[D L]]; [left; exact D|right]. split; [exact D|]. unfold p1, set_slot. cbn [p_slot]. rewrite upd_neq by congruence. exact L.
    + exact E'.
    + destruct (post l p1) as [p' r]. cbn [fst snd] in *. split; [exact A1|]. split; [exact A2|]. split; [exact A3|]. destruct A4 as [A4 A6]. split; [split; [intros f; apply A4|intros [X|X]; [discriminate|exact (A6 X)]]|].
      intros j. unfold posted. rewrite DK. specialize (A5 j). unfold codes1. cbn [flat_map]. fold (codes1 j r). destruct (kind_dec j k) as [->|N].
      * replace (kind_eqb k k) with true by (destruct k; reflexivity). right. rewrite D2. split; [reflexivity|]. destruct A5 as [(_ & S & C)|(X & _)]; [|lia]. exists c. rewrite S, C. unfold p1, set_slot. cbn [p_slot]. rewrite upd_eq. auto.
      * replace (kind_eqb j k) with false by (destruct j, k; try reflexivity; congruence). cbn [plus app]. unfold posted in A5. unfold p1, set_slot in A5. cbn [p_slot] in A5. rewrite upd_neq in A5 by congruence. exact A5.
Qed.

(** ** The states of an operation *)
Inductive life := Idle | Running | Finished (c : code).
Definition lives (p : api) (k : kind) (x : life) : Prop :=
  match x with
  | Idle => k_live (p_slot p k) = false /\ k_posted (p_slot p k) = false /\ held_k k (p_core p) = None
  | Running => k_live (p_slot p k) = true /\ k_posted (p_slot p k) = false /\ held_k k (p_core p) = Some (id k)
  | Finished c => k_live (p_slot p k) = true /\ k_posted (p_slot p k) = true /\ held_k k (p_core p) = None /\ k_ec (p_slot p k) = c
  end /\ k_stale (p_slot p k) = 0.
Definition armed (p : api) (k : kind) : Prop := k_live (p_slot p k) = true /\ k_posted (p_slot p k) = false /\ held_k k (p_core p) = None /\ k_stale (p_slot p k) = 0.
(** How the life of an operation goes on in a step. *)
Definition after (x x' : life) (cs : list code) : Prop := x' = x /\ cs = [] \/ exists c, x = Running /\ x' = Finished c /\ cs = [c].
Lemma has_none : forall k s, held_k k s = None -> has k s = 0. Proof. intros k s H. unfold has. rewrite H. reflexivity. Qed.
Lemma has_some : forall k s e, held_k k s = Some e -> has k s = 1. Proof. intros k s e H. unfold has. rewrite H. reflexivity. Qed.
Lemma none_has : forall k s, has k s = 0 -> held_k k s = None. Proof. intros k s. unfold has. destruct (held_k k s); [discriminate|reflexivity]. Qed.
Lemma some_has : forall k s, ids s -> has k s = 1 -> held_k k s = Some (id k). Proof. intros k s I. unfold has. destruct (held_k k s) eqn:H; [rewrite (I _ _ H); reflexivity|discriminate]. Qed.
Lemma core_ok : forall v o p k0, ids (p_core p) -> fits o (p_core p) -> (forall k e, started1 o = Some (k, e) -> k0 = Some k) ->
  (forall k, if match k0 with Some k1 => kind_eqb k k1 | None => false end then armed p k /\ starts k o = 1 else starts k o = 0 /\ exists x, lives p k x) ->
  let p' := fst (core v o p) in let r := snd (core v o p) in
  p_fut p' = p_fut p /\ p_dead p' = p_dead p /\ calm r /\ ids (p_core p') /\
  forall k, if match k0 with Some k1 => kind_eqb k k1 | None => false end then (exists x, after Running x (codes1 k r) /\ lives p' k x) else (forall x, lives p k x -> exists x', after x x' (codes1 k r) /\ lives p' k x').
Proof.
  intros v o p k0 I F S A. unfold core. assert (T : forall k, ids (fst (step v o (p_core p))) /\ done (id k) (snd (step v o (p_core p))) + has k (fst (step v o (p_core p))) = has k (p_core p) + starts k o) by (intros k; apply core_tally; auto).
  pose proof (fun e c => core_events v o (p_core p) e c I F) as EV. destruct (step v o (p_core p)) as [s l]. cbn [fst snd] in *. assert (J : ids s) by apply (T KRead).
  assert (HB : forall k, has k s <= 1) by (intros k; unfold has; destruct (held_k k s); lia).
  pose proof (post_ok l (set_core s p)) as P. destruct P as (P1 & P2 & P3 & P4 & P5).
  - intros k. destruct (T k) as [_ Tk]. specialize (A k). destruct (match k0 with Some k1 => kind_eqb k k1 | None => false end).
    + destruct A as [(L & _ & H & _) ST]. rewrite (has_none _ _ H), ST in Tk. destruct (done (id k) l) as [|[|n]]; [auto|right; split; [reflexivity|exact L]|lia].
    + destruct A as [ST [x [LX _]]]. rewrite ST in Tk. destruct x.
      * destruct LX as (_ & _ & H). rewrite (has_none _ _ H) in Tk. left. lia.
      * destruct LX as (L & _ & H). rewrite (has_some _ _ _ H) in Tk. destruct (done (id k) l) as [|[|n]]; [auto|right; split; [reflexivity|exact L]|lia].
      * destruct LX as (_ & _ & H & _). rewrite (has_none _ _ H) in Tk. left. lia.
  - exact EV.
  - destruct (post l (set_core s p)) as [p' r]. cbn [fst snd set_core p_core p_fut p_dead p_slot] in *. split; [exact P2|]. split; [exact P3|]. split; [exact P4|]. split; [rewrite P1; exact J|].
    intros k. destruct (T k) as [_ Tk]. specialize (A k). specialize (P5 k). unfold posted in P5. cbn [set_core p_slot] in P5. destruct (match k0 with Some k1 => kind_eqb k k1 | None => false end).
    + destruct A as [(L & NP & H & Z) ST]. rewrite (has_none _ _ H), ST in Tk. destruct P5 as [(D & SL & C)|(D & c & SL & C)].
      * exists Running. split; [left; auto|]. unfold lives. rewrite SL, P1. rewrite D in Tk. repeat split; auto. apply some_has; auto. 
      * exists (Finished c). split; [right; exists c; auto|]. unfold lives. rewrite SL, P1. cbn. rewrite D in Tk. repeat split; auto. apply none_has. lia.
    + intros x [LX Z]. destruct A as [ST _]. rewrite ST in Tk. destruct x.
      * destruct LX as (L & NP & H). rewrite (has_none _ _ H) in Tk. destruct P5 as [(D & SL & C)|(D & _)]; [|lia]. exists Idle. split; [left; auto|]. unfold lives. rewrite SL, P1. repeat split; auto. apply none_has. lia.
      * destruct LX as (L & NP & H). rewrite (has_some _ _ _ H) in Tk. destruct P5 as [(D & SL & C)|(D & c & SL & C)].
        -- exists Running. split; [left; auto|]. unfold lives. rewrite SL, P1. rewrite D in Tk. repeat split; auto. apply some_has; auto.
        -- exists (Finished c). split; [right; exists c; auto|]. unfold lives. rewrite SL, P1. cbn. rewrite D in Tk. repeat split; auto. apply none_has. lia.
      * destruct LX as (L & NP & H & EC). rewrite (has_none _ _ H) in Tk. destruct P5 as [(D & SL & C)|(D & _)]; [|lia]. exists (Finished c). split; [left; auto|]. unfold lives. rewrite SL, P1. repeat split; auto. apply none_has. lia.
Qed.
