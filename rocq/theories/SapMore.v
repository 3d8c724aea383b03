From Coq Require Import List Bool Arith Lia.
From Verif Require Import StrModel StrSpec StrProofs StrData SapModel SapSpec SapProofs.
Import ListNotations.

(** The futures which wait. *)
Definition pend_k (k : kind) (p : api) : list nat := if k_live (p_slot p k) then opt (p_fut p k) else [].
Definition pend (p : api) : list nat := pend_k KAccept p ++ pend_k KRead p ++ pend_k KWrite p ++ pend_k KClose p.
Definition latest (k : kind) (t : list (doing * list reply)) : option code := last (map Some (codes k t)) None.
Definition fine (t : list (doing * list reply)) (p : api) (k : kind) (x : life) : Prop :=
  match x with Idle => k = KRead \/ k = KWrite -> p_fut p k = None | Running => p_fut p k <> None | Finished c => p_fut p k <> None /\ latest k t = Some c end.
Record good (h : list doing) (p : api) (t : list (doing * list reply)) : Prop := {
  g_dead : p_dead p = false;
  g_crash : ~ In Crash (replies t);
  g_ids : ids (p_core p);
  g_life : forall k, exists x, lives p k x /\ fine t p k x;
  g_count : forall f, resolved f t + occ f (pend p) = occ f (futures h);
  g_kind : forall k f, In f (pend_k k p) -> exists m, In m h /\ future1 m = Some (k, f)
}.
Lemma codes_snoc : forall k t m l, codes k (t ++ [(m, l)]) = codes k t ++ codes1 k l.
Proof. intros. unfold codes. rewrite replies_snoc. apply flat_map_app. Qed.
Lemma latest_nil : forall k t m l, codes1 k l = [] -> latest k (t ++ [(m, l)]) = latest k t.
Proof. intros k t m l C. unfold latest. rewrite codes_snoc, C, app_nil_r. reflexivity. Qed.
Lemma latest_one : forall k t m l c, codes1 k l = [c] -> latest k (t ++ [(m, l)]) = Some c.
Proof. intros k t m l c C. unfold latest. rewrite codes_snoc, C, map_app. cbn. apply last_last. Qed.
Lemma fine_after : forall t m r p p' k x x', after x x' (codes1 k r) -> fine t p k x -> p_fut p' = p_fut p -> fine (t ++ [(m, r)]) p' k x'.
Proof.
  intros t m r p p' k x x' A F E. unfold fine in *. rewrite E. destruct A as [[-> C]|(c & -> & -> & C)].
  - destruct x; auto. rewrite latest_nil by exact C. exact F.
  - split; [exact F|]. apply latest_one. exact C.
Qed.
Lemma lives_live : forall p k x, lives p k x -> k_live (p_slot p k) = match x with Idle => false | _ => true end.
Proof. intros p k [] [L _]; tauto. Qed.
Lemma after_live : forall x x' cs, after x x' cs -> match x with Idle => false | _ => true end = match x' with Idle => false | _ => true end.
Proof. intros x x' cs [[-> _]|(c & -> & -> & _)]; reflexivity. Qed.
Lemma pend_occ : forall f p, occ f (pend p) = occ f (pend_k KAccept p) + occ f (pend_k KRead p) + occ f (pend_k KWrite p) + occ f (pend_k KClose p).
Proof. intros. unfold pend. rewrite !occ_app. lia. Qed.

(** A step of the core which starts nothing. *)
Lemma good_core : forall h p t v o m, good h p t -> started1 o = None -> future1 m = None -> good (h ++ [m]) (fst (core v o p)) (t ++ [(m, snd (core v o p))]).
Proof.
  intros h p t v o m G S FM. destruct G as [GD GC GI GL GN GK].
  destruct (core_ok v o p None) as (A1 & A2 & A3 & A4 & A5); [exact GI|unfold fits; rewrite S; exact I|intros k e X; congruence|intros k; split; [unfold starts; rewrite S; reflexivity|destruct (GL k) as (x & L & _); eauto]|].
  destruct (core v o p) as [p' r]. cbn [fst snd] in *. destruct A3 as [A3 A6].
  assert (LV : forall k, k_live (p_slot p' k) = k_live (p_slot p k)). { intros k. destruct (GL k) as (x & L & _). destruct (A5 k x L) as (x' & AF & L'). rewrite (lives_live _ _ _ L), (lives_live _ _ _ L'). symmetry. eapply after_live; eauto. }
  assert (PK : forall k, pend_k k p' = pend_k k p) by (intros k; unfold pend_k; rewrite LV, A1; reflexivity).
  constructor.
  - congruence.
  - rewrite replies_snoc. intros X. apply in_app_iff in X as [X|X]; auto.
  - exact A4.
  - intros k. destruct (GL k) as (x & L & F). destruct (A5 k x L) as (x' & AF & L'). exists x'. split; [exact L'|]. eapply fine_after; eauto.
  - intros f. rewrite resolved_snoc, A3, futures_snoc. unfold gives_future. rewrite FM, app_nil_r, Nat.add_0_r. rewrite <- GN, !pend_occ, !PK. reflexivity.
  - intros k f. rewrite PK. intros X. destruct (GK k f X) as (m' & M1 & M2). exists m'. split; [apply in_app_iff; auto|exact M2].
Qed.
Lemma lives_other : forall p k0 x0 f k x, k <> k0 -> lives p k x -> lives (set_slot k0 x0 (set_fut k0 f p)) k x.
Proof. intros p k0 x0 f k x N L. unfold lives, set_slot, set_fut in *. cbn [p_slot p_core]. rewrite upd_neq by congruence. exact L. Qed.
(** A step which starts an operation of a kind which is idle. *)
Lemma good_start : forall h p t v o m k0 f, good h p t -> started1 o = Some (k0, id k0) -> future1 m = Some (k0, f) -> lives p k0 Idle ->
  let x := core v o (set_slot k0 (ready (p_slot p k0)) (set_fut k0 (Some f) p)) in good (h ++ [m]) (fst x) (t ++ [(m, snd x)]).
Proof.
  intros h p t v o m k0 f G S FM ID x. unfold x. clear x. destruct G as [GD GC GI GL GN GK]. set (p1 := set_slot k0 _ _). destruct ID as [(I1 & I2 & I3) I4].
  assert (KE : forall k, kind_eqb k k0 = true <-> k = k0) by (intros k; destruct k, k0; cbn; split; congruence).
  destruct (core_ok v o p1 (Some k0)) as (A1 & A2 & A3 & A4 & A5).
  - exact GI.
  - unfold fits. rewrite S. split; [reflexivity|exact I3].
  - intros k e X. rewrite S in X. injection X as <- _. reflexivity.
  - intros k. destruct (kind_eqb k k0) eqn:E.
    + apply KE in E. subst k. split; [|unfold starts; rewrite S; destruct k0; reflexivity]. unfold armed, p1, set_slot, set_fut. cbn [p_slot p_core]. rewrite upd_eq. unfold ready. cbn. rewrite I2, I4. auto.
    + split; [unfold starts; rewrite S, E; reflexivity|]. destruct (GL k) as (x & L & _). exists x. apply lives_other; [intros ->; apply not_true_iff_false in E; apply E; apply KE; reflexivity|exact L].
  - destruct (core v o p1) as [p' r]. cbn [fst snd] in *. destruct A3 as [A3 A6].
    assert (B0 : exists x, after Running x (codes1 k0 r) /\ lives p' k0 x). { specialize (A5 k0). replace (kind_eqb k0 k0) with true in A5 by (destruct k0; reflexivity). exact A5. }
    assert (B1 : forall k x, k <> k0 -> lives p k x -> exists x', after x x' (codes1 k r) /\ lives p' k x'). { intros k x N L. specialize (A5 k). destruct (kind_eqb k k0) eqn:E; [apply KE in E; congruence|]. apply A5. apply lives_other; auto. }
    assert (F0 : p_fut p' k0 = Some f) by (rewrite A1; unfold p1, set_slot, set_fut; cbn [p_fut]; apply upd_eq).
    assert (F1 : forall k, k <> k0 -> p_fut p' k = p_fut p k) by (intros k N; rewrite A1; unfold p1, set_slot, set_fut; cbn [p_fut]; apply upd_neq; congruence).
    assert (LV : forall k, k <> k0 -> k_live (p_slot p' k) = k_live (p_slot p k)). { intros k N. destruct (GL k) as (x & L & _). destruct (B1 k x N L) as (x' & AF & L'). rewrite (lives_live _ _ _ L), (lives_live _ _ _ L'). symmetry. eapply after_live; eauto. }
    assert (L0 : k_live (p_slot p' k0) = true). { destruct B0 as (x & AF & L). rewrite (lives_live _ _ _ L), <- (after_live _ _ _ AF). reflexivity. }
    assert (PK : forall k, pend_k k p' = if kind_eqb k k0 then [f] else pend_k k p). { intros k. unfold pend_k. destruct (kind_eqb k k0) eqn:E; [apply KE in E; subst k; rewrite L0, F0; reflexivity|]. assert (N : k <> k0) by (intros ->; apply not_true_iff_false in E; apply E; apply KE; reflexivity). rewrite (LV k N), (F1 k N). reflexivity. }
    assert (P0 : pend_k k0 p = []) by (unfold pend_k; rewrite I1; reflexivity).
    constructor.
    + rewrite A2. exact GD.
    + rewrite replies_snoc. intros X. apply in_app_iff in X as [X|X]; auto.
    + exact A4.
    + intros k. destruct (kind_dec k k0) as [->|N].
      * destruct B0 as (x & AF & L). exists x. split; [exact L|]. unfold fine. destruct AF as [[-> _]|(c & _ & -> & C)]; rewrite F0; [discriminate|]. split; [discriminate|]. apply latest_one. exact C.
      * destruct (GL k) as (x & L & F). destruct (B1 k x N L) as (x' & AF & L'). exists x'. split; [exact L'|]. unfold fine in *. rewrite (F1 k N). destruct AF as [[-> C]|(c & -> & -> & C)]; [|split; [exact F|apply latest_one; exact C]]. destruct x; auto. rewrite latest_nil by exact C. exact F.
    + intros g. rewrite resolved_snoc, A3, futures_snoc. unfold gives_future. rewrite FM, occ_app, Nat.add_0_r, <- GN, !pend_occ, !PK. destruct k0; cbn [kind_eqb]; rewrite P0; rewrite occ_nil; lia.
    + intros k g. rewrite PK. destruct (kind_eqb k k0) eqn:E.
      * apply KE in E. subst k. intros [->|[]]. exists m. split; [apply in_app_iff; right; left; reflexivity|exact FM].
      * intros X. destruct (GK k g X) as (m' & M1 & M2). exists m'. split; [apply in_app_iff; auto|exact M2].
Qed.
(** A step which answers at once. *)
Lemma good_reject : forall h p t m k0 f, good h p t -> future1 m = Some (k0, f) -> good (h ++ [m]) p (t ++ [(m, [Resolved f InProgress])]).
Proof.
  intros h p t m k0 f [GD GC GI GL GN GK] FM. constructor; auto.
  - rewrite replies_snoc. intros X. apply in_app_iff in X as [X|[X|[]]]; [auto|discriminate].
  - intros k. destruct (GL k) as (x & L & F). exists x. split; [exact L|]. unfold fine in *. destruct x; auto. rewrite latest_nil by reflexivity. exact F.
  - intros g. rewrite resolved_snoc, futures_snoc. unfold gives_future. rewrite FM, occ_app, <- GN. unfold occ at 3, count at 2. unfold count at 1. cbn [filter is_resolved]. destruct (g =? f); cbn [length]; lia.
  - intros k g X. destruct (GK k g X) as (m' & M1 & M2). exists m'. split; [apply in_app_iff; auto|exact M2].
Qed.
Lemma good_idle : forall h p t m, good h p t -> future1 m = None -> good (h ++ [m]) p (t ++ [(m, [])]).
Proof.
  intros h p t m [GD GC GI GL GN GK] FM. constructor; auto.
  - rewrite replies_snoc, app_nil_r. exact GC.
  - intros k. destruct (GL k) as (x & L & F). exists x. split; [exact L|]. unfold fine in *. destruct x; auto. rewrite latest_nil by reflexivity. exact F.
  - intros g. rewrite resolved_snoc, futures_snoc. unfold gives_future. rewrite FM, app_nil_r. cbn. rewrite Nat.add_0_r. apply GN.
  - intros k g X. destruct (GK k g X) as (m' & M1 & M2). exists m'. split; [apply in_app_iff; auto|exact M2].
Qed.
(** The callback of an operation which has finished. *)
Definition unposted (k : kind) (p : api) : api := set_slot k {| k_live := k_live (p_slot p k); k_posted := false; k_ec := k_ec (p_slot p k); k_stale := k_stale (p_slot p k) |} p.
Lemma good_fire : forall h p t m k0 c, good h p t -> future1 m = None -> lives p k0 (Finished c) -> let x := callback k0 (unposted k0 p) in
  good (h ++ [m]) (fst x) (t ++ [(m, snd x)]) /\ exists f, p_fut p k0 = Some f /\ snd x = [Resolved f c].
Proof.
  intros h p t m k0 c G FM [(L1 & L2 & L3 & L4) L5] x. pose proof G as [GD GC GI GL GN GK]. destruct (GL k0) as (y & LY & FY). assert (FN : p_fut p k0 <> None).
  { destruct y; unfold fine in FY; [destruct LY as [(X & _) _]; congruence|exact FY|tauto]. }
  unfold x, callback, unposted. cbn [p_fut set_slot]. destruct (p_fut p k0) as [f|] eqn:FE; [|congruence]. clear x. cbn [fst snd]. replace (k_ec (p_slot (set_slot k0 _ p) k0)) with c by (cbn; rewrite upd_eq; cbn; congruence). split; [|exists f; auto].
  set (p1 := set_slot k0 _ (set_slot k0 _ p)). set (p' := match k0 with KRead | KWrite => _ | _ => _ end).
  assert (CO : p_core p' = p_core p) by (unfold p', p1; destruct k0; reflexivity). assert (SL : forall k, p_slot p' k = if kind_eqb k0 k then gone (p_slot p k0) else p_slot p k).
  { intros k. replace (p_slot p' k) with (p_slot p1 k) by (unfold p'; destruct k0; reflexivity). unfold p1, set_slot, upd. cbn. unfold gone. cbn. rewrite L4. destruct k0, k; reflexivity. }
  assert (FU : forall k, p_fut p' k = if kind_eqb k0 k then match k0 with KRead | KWrite => None | _ => Some f end else p_fut p k). { intros k. unfold p', p1. destruct k0, k; cbn; auto. }
  assert (DE : p_dead p' = false) by (unfold p', p1; destruct k0; exact GD). clearbody p'. clear p1.
  assert (PK : forall k, pend_k k p' = if kind_eqb k0 k then [] else pend_k k p). { intros k. unfold pend_k. rewrite SL, FU. destruct (kind_eqb k0 k); reflexivity. }
  assert (P0 : pend_k k0 p = [f]) by (unfold pend_k; rewrite L1, FE; reflexivity).
  assert (KE : forall k, kind_eqb k0 k = true -> k = k0) by (intros k; destruct k, k0; cbn; congruence).
  constructor.
  - exact DE.
  - rewrite replies_snoc. intros X. apply in_app_iff in X as [X|[X|[]]]; [auto|discriminate].
  - rewrite CO. exact GI.
  - intros k. destruct (kind_eqb k0 k) eqn:E.
    + exists Idle. pose proof (KE k E). subst k. unfold lives, fine. rewrite SL, FU, E, CO. cbn. repeat split; auto. intros [-> | ->]; reflexivity.
    + destruct (GL k) as (z & L & F). exists z. unfold lives, fine in *. rewrite SL, FU, E, CO. split; [exact L|]. destruct z; auto. rewrite latest_nil by reflexivity. exact F.
  - intros g. rewrite resolved_snoc, futures_snoc. unfold gives_future. rewrite FM, app_nil_r, <- GN, !pend_occ, !PK. unfold count. cbn [filter is_resolved].
    assert (O : occ g [f] = if g =? f then 1 else 0) by (unfold occ, count; cbn; destruct (g =? f); reflexivity).
    destruct k0; cbn [kind_eqb]; rewrite P0, O, occ_nil; destruct (g =? f); cbn [length]; lia.
  - intros k g. rewrite PK. destruct (kind_eqb k0 k); [intros []|]. intros X. destruct (GK k g X) as (m' & M1 & M2). exists m'. split; [apply in_app_iff; auto|exact M2].
Qed.

Lemma patient_snoc : forall h m, patient (h ++ [m]) -> patient h.
Proof. intros h m P h1 h2 m1 f E F f'. apply (P h1 (h2 ++ [m]) m1 f); [rewrite E, <- app_assoc; reflexivity|exact F]. Qed.
Lemma nodup_left : forall (a b : list nat), NoDup (a ++ b) -> NoDup a.
Proof. induction a as [|x a IH]; intros b N; [constructor|]. inversion N; subst. constructor; [intros X; apply H1; apply in_app_iff; auto|eauto]. Qed.
Lemma proper_snoc : forall h m, proper (h ++ [m]) -> proper h.
Proof. unfold proper. intros h m. rewrite futures_snoc. apply nodup_left. Qed.
Lemma future_in : forall h m k f, In m h -> future1 m = Some (k, f) -> In f (futures h).
Proof. intros h m k f I F. unfold futures. apply in_flat_map. exists m. split; [exact I|]. unfold gives_future. rewrite F. left. reflexivity. Qed.
(** What waits is unresolved. *)
Lemma waits : forall h k f, proper h -> good h (fst (play start h)) (snd (play start h)) -> In f (pend_k k (fst (play start h))) -> unresolved k f (snd (play start h)).
Proof.
  intros h k f P G I. destruct (g_kind _ _ _ G k f I) as (m & M1 & M2). destruct (in_play h start m M1) as [l L]. split; [eauto|]. pose proof (g_count _ _ _ G f) as C. pose proof (occ_nodup f _ P) as N.
  assert (X : In f (pend (fst (play start h)))) by (unfold pend; rewrite !in_app_iff; destruct k; auto). apply occ_in in X. lia.
Qed.
Lemma reach_good : forall h, proper h -> patient h -> good h (fst (play start h)) (snd (play start h)).
Proof.
  induction h as [|m h IH] using rev_ind; intros P PA.
  - constructor; cbn; auto.
    + intros k e. destruct k; discriminate.
    + intros k. exists Idle. split; [|intros _; reflexivity]. split; [|reflexivity]. repeat split; auto. destruct k; reflexivity.
    + intros k f [].
  - pose proof (proper_snoc _ _ P) as P1. pose proof (patient_snoc _ _ PA) as PA1. specialize (IH P1 PA1). pose proof (waits h KClose) as W. assert (PC : forall f, future1 m = Some (KClose, f) -> forall f', ~ unresolved KClose f' (snd (play start h))). { intros f F. apply (PA h [] m f); auto. }
    rewrite play_snoc. cbn [fst snd]. set (p := fst (play start h)) in *. set (t := snd (play start h)) in *. destruct m as [a v]. cbn [fst snd]. unfold act. rewrite (g_dead _ _ _ IH).
    assert (B : forall k f o, future1 (a, v) = Some (k, f) -> started1 o = Some (k, id k) -> k <> KClose \/ True -> (p_fut p k = None -> good (h ++ [(a, v)]) (fst (begin v k f o p)) (t ++ [((a, v), snd (begin v k f o p))]))).
    { intros k f o FM S _ FN. unfold begin. rewrite FN. apply good_start; auto. destruct (g_life _ _ _ IH k) as (x & L & F). destruct x; [exact L|contradiction (F FN)|destruct F as [F _]; contradiction (F FN)]. }
    assert (B' : forall k f o, future1 (a, v) = Some (k, f) -> started1 o = Some (k, id k) -> good (h ++ [(a, v)]) (fst (begin v k f o p)) (t ++ [((a, v), snd (begin v k f o p))])).
    { intros k f o FM S. destruct (p_fut p k) eqn:FE; [|apply B; auto]. unfold begin. rewrite FE. eapply good_reject; eauto. }
    destruct a as [f|all f n|f n|f| |[x|]|k stale].
    + apply B'; reflexivity.
    + apply B'; reflexivity.
    + apply B'; reflexivity.
    + apply good_start; auto. destruct (g_life _ _ _ IH KClose) as (x & L & F). destruct x; [exact L| |]; exfalso.
      * cbn in F. destruct (p_fut p KClose) as [g|] eqn:E; [|congruence]. apply (PC f eq_refl g). apply W; auto. unfold pend_k. destruct L as [(L & _) _]. rewrite L. fold p. rewrite E. left. reflexivity.
      * cbn in F. destruct F as [F _]. destruct (p_fut p KClose) as [g|] eqn:E; [|congruence]. apply (PC f eq_refl g). apply W; auto. unfold pend_k. destruct L as [(L & _) _]. rewrite L. fold p. rewrite E. left. reflexivity.
    + apply good_core; auto.
    + apply good_core; auto.
    + apply good_core; auto.
    + destruct (g_life _ _ _ IH k) as (x & L & F). destruct stale; [destruct L as [_ Z]; rewrite Z; apply good_idle; auto|]. destruct (k_posted (p_slot p k)) eqn:PO; [|apply good_idle; auto].
      destruct x; [destruct L as [(_ & X & _) _]; congruence|destruct L as [(_ & X & _) _]; congruence|]. apply (good_fire h p t _ k c); auto.
Qed.
(** What is unresolved waits. *)
Lemma unique_f : forall h m m' k k' f, proper h -> In m h -> In m' h -> future1 m = Some (k, f) -> future1 m' = Some (k', f) -> m = m'.
Proof.
  unfold proper. induction h as [|a h IH]; intros m m' k k' f N I I' S S'; [destruct I|]. unfold futures in N. cbn [flat_map] in N. fold (futures h) in N.
  assert (N2 : NoDup (futures h)). { clear -N. induction (gives_future a) as [|x l IHl]; [exact N|]. inversion N; subst. auto. }
  destruct I as [->|I], I' as [->|I']; auto.
  - unfold gives_future in N. rewrite S in N. inversion N; subst. destruct H1. eapply future_in; eauto.
  - unfold gives_future in N. rewrite S' in N. inversion N; subst. destruct H1. eapply future_in; eauto.
  - eapply IH; eauto.
Qed.
Lemma unresolved_pend : forall h k f, proper h -> patient h -> unresolved k f (snd (play start h)) -> In f (pend_k k (fst (play start h))).
Proof.
  intros h k f P PA [(m & l & I & F) Z]. apply play_in in I. pose proof (reach_good h P PA) as G. pose proof (g_count _ _ _ G f) as C. rewrite Z in C. pose proof (occ_in _ _ (future_in _ _ _ _ I F)) as O.
  assert (X : In f (pend (fst (play start h)))) by (apply in_occ; lia). assert (Y : exists k', In f (pend_k k' (fst (play start h)))) by (unfold pend in X; rewrite !in_app_iff in X; destruct X as [X|[X|[X|X]]]; eauto).
  destruct Y as [k' Y]. destruct (g_kind _ _ _ G k' f Y) as (m' & I' & F'). pose proof (unique_f h m m' k k' f P I I' F F'). subst m'. congruence.
Qed.

(** The end of the stream. *)
Lemma post_core : forall l p, p_core (fst (post l p)) = p_core p.
Proof.
  induction l as [|[e c|e a n|e n|e a n] l IH]; intros p; cbn [post]; auto. destruct (k_live (p_slot p (kind_of e))); [|reflexivity].
  specialize (IH (set_slot (kind_of e) {| k_live := true; k_posted := true; k_ec := c; k_stale := k_stale (p_slot p (kind_of e)) |} p)). destruct (post l _). cbn [fst] in *. exact IH.
Qed.
Lemma core_core : forall v o p, p_core (fst (core v o p)) = fst (step v o (p_core p)).
Proof. intros v o p. unfold core. destruct (step v o (p_core p)) as [s l]. rewrite post_core. reflexivity. Qed.
Lemma callback_core : forall k p, p_core (fst (callback k p)) = p_core p.
Proof. intros k p. unfold callback. destruct (p_fut p k); [|reflexivity]. destruct k; reflexivity. Qed.
Lemma act_core : forall v a p, p_core (fst (act v a p)) = p_core p \/ exists o, p_core (fst (act v a p)) = fst (step v o (p_core p)).
Proof.
  intros v a p. unfold act. destruct (p_dead p); [auto|]. assert (B : forall k f o, p_core (fst (begin v k f o p)) = p_core p \/ exists o', p_core (fst (begin v k f o p)) = fst (step v o' (p_core p))).
  { intros k f o. unfold begin. destruct (p_fut p k); [auto|]. right. exists o. rewrite core_core. reflexivity. }
  destruct a as [f|all f n|f n|f| |[x|]|k [|]]; auto; try (right; eexists; rewrite core_core; reflexivity).
  - destruct (k_stale (p_slot p k)); [auto|]. left. rewrite callback_core. reflexivity.
  - destruct (k_posted (p_slot p k)); [|auto]. left. rewrite callback_core. reflexivity.
Qed.
Lemma reach_empty : forall h, stopped_empty (p_core (fst (play start h))).
Proof.
  induction h as [|m h IH] using rev_ind; [intros X; discriminate|]. rewrite play_snoc. cbn [fst]. destruct (act_core (snd m) (fst m) (fst (play start h))) as [-> |[o ->]]; [exact IH|]. apply step_stopped. exact IH.
Qed.
Lemma ends_stops : forall h, proper h -> patient h -> existsb ends h = true -> c_stopped (p_core (fst (play start h))) = true.
Proof.
  induction h as [|m h IH] using rev_ind; intros P PA E; [discriminate|]. pose proof (reach_good h (proper_snoc _ _ P) (patient_snoc _ _ PA)) as G. specialize (IH (proper_snoc _ _ P) (patient_snoc _ _ PA)).
  rewrite existsb_app in E. rewrite play_snoc. cbn [fst]. apply orb_prop in E as [E|E].
  - destruct (act_core (snd m) (fst m) (fst (play start h))) as [-> |[o ->]]; [auto|]. apply step_stays. auto.
  - cbn in E. rewrite orb_false_r in E. unfold ends in E. unfold act. rewrite (g_dead _ _ _ G). destruct m as [a v]. cbn [fst snd] in *. destruct a as [f|all f n|f n|f| |[x|]|k st]; try discriminate; rewrite core_core; cbn [step]; apply stop_sets.
Qed.
Lemma fire_pend : forall h p t v k, good h p t -> held_k k (p_core p) = None -> let p' := fst (act v (Fire k false) p) in pend_k k p' = [] /\ forall k', k' <> k -> pend_k k' p' = pend_k k' p.
Proof.
  intros h p t v k G HE p'. destruct (g_life _ _ _ G k) as (x & L & F). unfold p', act. rewrite (g_dead _ _ _ G). destruct x.
  - destruct L as [(L1 & L2 & _) _]. rewrite L2. cbn [fst]. split; [unfold pend_k; rewrite L1; reflexivity|auto].
  - destruct L as [(_ & _ & X) _]. congruence.
  - destruct L as [(L1 & L2 & _) _]. rewrite L2. unfold callback. cbn [p_fut set_slot]. destruct F as [F _]. destruct (p_fut p k) as [f|]; [|congruence]. split; [|intros k' N]; destruct k; try destruct k'; try congruence; reflexivity.
Qed.
Lemma patient_fire : forall h k v, patient h -> patient (h ++ [(Fire k false, v)]).
Proof.
  intros h k v P h1 h2 m f E F. destruct h2 as [|y h2].
  - apply app_inj_tail in E as [_ <-]. discriminate.
  - destruct (@exists_last _ (y :: h2)) as (h3 & z & Z); [discriminate|]. rewrite Z in E. rewrite app_comm_cons, app_assoc in E. apply app_inj_tail in E as [E _]. apply (P h1 h3 m f E F).
Qed.
Lemma proper_fire : forall h k v, proper h -> proper (h ++ [(Fire k false, v)]).
Proof. unfold proper. intros h k v P. rewrite futures_snoc. cbn. rewrite app_nil_r. exact P. Qed.
Lemma fire_next : forall h k v, proper h -> patient h -> c_stopped (p_core (fst (play start h))) = true ->
  let h' := h ++ [(Fire k false, v)] in proper h' /\ patient h' /\ c_stopped (p_core (fst (play start h'))) = true /\ futures h' = futures h /\
  pend_k k (fst (play start h')) = [] /\ forall k', k' <> k -> pend_k k' (fst (play start h')) = pend_k k' (fst (play start h)).
Proof.
  intros h k v P PA S h'. unfold h'. split; [apply proper_fire; exact P|]. split; [apply patient_fire; exact PA|]. split; [|split].
  - rewrite play_snoc. cbn [fst snd]. destruct (act_core v (Fire k false) (fst (play start h))) as [E|[o E]]; rewrite E; [exact S|apply step_stays; exact S].
  - rewrite futures_snoc. cbn. apply app_nil_r.
  - rewrite play_snoc. cbn [fst snd]. apply (fire_pend h _ (snd (play start h))); [apply reach_good; auto|]. pose proof (reach_empty h S) as H. unfold held in H. apply app_eq_nil in H as [H1 H]. apply app_eq_nil in H as [H2 H]. apply app_eq_nil in H as [H3 H4].
    destruct k; [destruct (held_k KAccept _)|destruct (held_k KRead _)|destruct (held_k KWrite _)|destruct (held_k KClose _)]; try discriminate; reflexivity.
Qed.
Lemma drained : forall h v, proper h -> patient h -> existsb ends h = true ->
  proper (h ++ drain v) /\ patient (h ++ drain v) /\ futures (h ++ drain v) = futures h /\ pend (fst (play start (h ++ drain v))) = [].
Proof.
  intros h v P PA E. pose proof (ends_stops h P PA E) as S.
  destruct (fire_next h KAccept v P PA S) as (P1 & PA1 & S1 & F1 & N1 & O1). destruct (fire_next _ KRead v P1 PA1 S1) as (P2 & PA2 & S2 & F2 & N2 & O2).
  destruct (fire_next _ KWrite v P2 PA2 S2) as (P3 & PA3 & S3 & F3 & N3 & O3). destruct (fire_next _ KClose v P3 PA3 S3) as (P4 & PA4 & S4 & F4 & N4 & O4).
  assert (EQ : (((h ++ [(Fire KAccept false, v)]) ++ [(Fire KRead false, v)]) ++ [(Fire KWrite false, v)]) ++ [(Fire KClose false, v)] = h ++ drain v) by (rewrite <- !app_assoc; reflexivity).
  rewrite EQ in P4, PA4, F4, N4, O4. split; [exact P4|]. split; [exact PA4|]. split; [congruence|]. unfold pend. rewrite N4, !O4, N3, !O3, N2, !O2, N1 by discriminate. reflexivity.
Qed.
(** What the stream completes is posted. *)
Lemma post_keeps : forall l p k, k_posted (p_slot p k) = true -> k_posted (p_slot (fst (post l p)) k) = true.
Proof.
  induction l as [|[e c|e a n|e n|e a n] l IH]; intros p k H; cbn [post]; auto. destruct (k_live (p_slot p (kind_of e))); [|exact H].
  set (q := set_slot (kind_of e) _ p). assert (Q : k_posted (p_slot q k) = true). { unfold q, set_slot. cbn [p_slot]. destruct (kind_dec (kind_of e) k) as [<-|N]; [rewrite upd_eq; reflexivity|rewrite upd_neq by exact N; exact H]. }
  specialize (IH q k Q). destruct (post l q). exact IH.
Qed.
Lemma post_done : forall l p k c, In (Done k c) (snd (post l p)) -> k_posted (p_slot (fst (post l p)) k) = true.
Proof.
  induction l as [|[e c|e a n|e n|e a n] l IH]; intros p k d H; cbn [post] in *; auto; try (destruct H; fail); try (apply IH in H; exact H). destruct (k_live (p_slot p (kind_of e))); [|destruct H as [H|[]]; discriminate].
  set (q := set_slot (kind_of e) _ p) in *. pose proof (post_keeps l q) as K. specialize (IH q). destruct (post l q) as [q' r]. cbn [fst snd] in *. destruct H as [H|H]; [|eapply IH; eauto]. injection H as <- <-. apply K. unfold q, set_slot. cbn [p_slot]. rewrite upd_eq. reflexivity.
Qed.
Lemma act_done : forall v a p k c, In (Done k c) (snd (act v a p)) -> k_posted (p_slot (fst (act v a p)) k) = true.
Proof.
  intros v a p k c. unfold act. destruct (p_dead p); [intros []|].
  assert (C : forall o q, In (Done k c) (snd (core v o q)) -> k_posted (p_slot (fst (core v o q)) k) = true) by (intros o q; unfold core; destruct (step v o (p_core q)); apply post_done).
  assert (B : forall k' f o, In (Done k c) (snd (begin v k' f o p)) -> k_posted (p_slot (fst (begin v k' f o p)) k) = true) by (intros k' f o; unfold begin; destruct (p_fut p k'); [intros [X|[]]; discriminate|apply C]).
  assert (D : forall k' q, ~ In (Done k c) (snd (callback k' q))) by (intros k' q; unfold callback; destruct (p_fut q k'); intros [X|[]]; discriminate).
  destruct a as [f|all f n|f n|f| |[x|]|k' [|]]; auto.
  - destruct (k_stale (p_slot p k')); [intros []|intros X; destruct (D _ _ X)].
  - destruct (k_posted (p_slot p k')); [intros X; destruct (D _ _ X)|intros []].
Qed.
