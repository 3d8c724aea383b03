(** * Starts and the services they give to the device *)
From Coq Require Import String Ascii List Bool Arith NArith ZArith Lia.
From Verif Require Import JsonModel JsonProofs PerModel PerSpec PerProofs PerProofs2 PerProofs6 TunModel TunProofs SvfModel SvfSpec SvfProofs.
Import ListNotations.
Open Scope string_scope.
Open Scope list_scope.
Open Scope nat_scope.

(** ** Metadata *)
Definition wlt (s : TunModel.st) : Prop := NoDup (map weak (svcs s)) /\ Forall (fun u => weak u <= wkc s) (svcs s).

Lemma upd_last : forall (l : list svc) u w f, ~ In w (map weak l) -> weak u = w -> upd_weak w f (l ++ [u]) = l ++ [f u].
Proof.
  induction l as [|x l IH]; intros u w f Hn Hu.
  - cbn. rewrite Hu, Nat.eqb_refl. reflexivity.
  - unfold upd_weak in *. cbn. cbn in Hn. destruct (Nat.eqb (weak x) w) eqn:E.
    + apply Nat.eqb_eq in E. exfalso. auto.
    + f_equal. apply IH; auto.
Qed.

Lemma find_last : forall (l : list svc) u i, ~ In i (map id l) -> id u = i -> find (fun v => String.eqb (id v) i) (l ++ [u]) = Some u.
Proof.
  induction l as [|x l IH]; intros u i Hn Hu; cbn.
  - rewrite Hu, String.eqb_refl. reflexivity.
  - cbn in Hn. destruct (String.eqb_spec (id x) i); [exfalso; auto|]. apply IH; auto.
Qed.

Lemma erase_absent : forall (A : Type) k (m : list (string * A)), ~ In k (map fst m) -> erase k m = m.
Proof.
  induction m as [|[k' x] m IH]; intros H; [reflexivity|]. unfold erase in *. cbn in *.
  destruct (String.eqb_spec k' k); [exfalso; auto|]. cbn. f_equal. apply IH. auto.
Qed.

(** The metadata of the newest service is added to it. *)
Lemma give_meta_last : forall g e s l u, (forall k, g k = true) -> svcs s = l ++ [u] -> ~ In (weak u) (map weak l) -> ~ In (id u) (map id l) ->
  NoDup (map fst (meta u ++ e)) ->
  exists s', give_meta g (id u) e s = (s', true) /\ svcs s' = l ++ [with_meta (meta u ++ e) u] /\ wkc s' = wkc s.
Proof.
  intros g. induction e as [|[k x] e IH]; intros s l u Hg Hs Hw Hi Hd.
  - exists s. rewrite app_nil_r. destruct u. cbn in *. auto.
  - cbn [give_meta]. unfold add_meta. unfold find_id. rewrite Hs, (find_last l u (id u) Hi eq_refl), Hg. cbn [is_ok].
    assert (Hk : ~ In k (map fst (meta u))).
    { rewrite map_app in Hd. cbn in Hd. apply NoDup_remove_2 in Hd. intros H. apply Hd. apply in_or_app. auto. }
    rewrite (erase_absent _ k (meta u) Hk). rewrite (upd_last l u (weak u) _ Hw eq_refl).
    change (id u) with (id (with_meta (meta u ++ [(k, x)]) u)) at 1.
    destruct (IH (set_svcs (l ++ [with_meta (meta u ++ [(k, x)]) u]) s) l (with_meta (meta u ++ [(k, x)]) u)) as (s' & H1 & H2 & H3); auto.
    { cbn [meta with_meta]. rewrite <- app_assoc. exact Hd. }
    exists s'. split; [exact H1|]. split; [|exact H3]. rewrite H2. cbn [meta with_meta]. unfold with_meta. cbn. now rewrite <- app_assoc.
Qed.

(** ** Services *)
Lemma is_ok_ok : forall o, is_ok o = true -> o = [Result Ok].
Proof. intros [|[[]|? ?|? ? ? ?|?|?|? ?] [|? ?]]; cbn; congruence. Qed.

Lemma add_ok : forall i t h p a1 a2 q s s' o, add_service i t h p a1 a2 q s = (s', o) -> is_ok o = true ->
  exists a sp, h = Some a /\ q = Some sp /\ svcs s' = svcs s ++ [{| weak := S (wkc s); id := i; ty := t; addr := a; port := p; sport := sp; meta := []; conns := [] |}] /\ wkc s' = S (wkc s) /\
  ~ In sp (map sport (svcs s)).
Proof.
  intros i t h p a1 a2 q s s' o H Ho. apply is_ok_ok in Ho. subst o. unfold add_service in H.
  destruct h as [a|]; [|discriminate]. destruct a1; [|discriminate]. destruct a2; [|discriminate].
  destruct q as [sp|]; [|discriminate]. cbn [negb] in H.
  destruct (existsb (fun v => Nat.eqb (sport v) sp) (svcs s)) eqn:E; [discriminate|]. injection H as <-.
  exists a, sp. repeat split; auto. intros Hin. apply in_map_iff in Hin. destruct Hin as (v & Hv & Hin).
  apply Bool.not_true_iff_false in E. apply E. apply existsb_exists. exists v. split; auto. now apply Nat.eqb_eq.
Qed.

Lemma wlt_snoc : forall s s' u, wlt s -> svcs s' = svcs s ++ [u] -> weak u = S (wkc s) -> wkc s' = S (wkc s) -> wlt s' /\ ~ In (weak u) (map weak (svcs s)).
Proof.
  intros s s' u [H1 H2] Hs Hu Hk. rewrite Forall_forall in H2.
  assert (Hn : ~ In (weak u) (map weak (svcs s))).
  { intros H. apply in_map_iff in H. destruct H as (x & Hx & Hin). specialize (H2 x Hin). lia. }
  split; [|exact Hn]. split.
  - rewrite Hs, map_app. cbn. apply nodup_snoc; auto.
  - rewrite Hs. apply Forall_app. split.
    + apply Forall_forall. intros x Hx. specialize (H2 x Hx). lia.
    + constructor; [lia|constructor].
Qed.

Definition offered (ip : string -> option nat) (o : string * string * nat * nat * list (string * string)) (v : service) : Prop :=
  exists a, ip (v_host v) = Some a /\ o = (v_id v, v_type v, a, v_port v, v_meta v).

(** If all services are given to the device, it offers those it had and these. *)
Lemma give_services_ok : forall ip g, (forall i k, g_meta g i k = true) -> forall l i s s', wlt s ->
  NoDup (map id (svcs s) ++ map v_id l) -> Forall (fun v => NoDup (map fst (v_meta v))) l ->
  give_services ip g i l s = (s', true) ->
  exists new, offers s' = offers s ++ new /\ Forall2 (offered ip) new l.
Proof.
  intros ip g Hg. induction l as [|v l IH]; intros i s s' Hw Hd Hm H.
  - injection H as <-. exists []. rewrite app_nil_r. split; [reflexivity|constructor].
  - cbn [give_services] in H.
    destruct (add_service (v_id v) (v_type v) (ip (v_host v)) (v_port v) (g_new g i) (g_str g i) (g_port g i) s) as [s1 o] eqn:E1.
    destruct (is_ok o) eqn:E2; [|discriminate].
    destruct (add_ok _ _ _ _ _ _ _ _ _ _ E1 E2) as (a & sp & Ha & _ & Hs1 & Hk1 & _).
    set (u := {| weak := S (wkc s); id := v_id v; ty := v_type v; addr := a; port := v_port v; sport := sp; meta := []; conns := [] |}) in *.
    destruct (wlt_snoc s s1 u Hw Hs1 eq_refl Hk1) as [Hw1 Hn1].
    inversion Hm as [|? ? Hmv Hml]; subst.
    assert (Hi : ~ In (id u) (map id (svcs s))).
    { cbn [map] in Hd. apply NoDup_remove_2 in Hd. intros X. apply Hd. apply in_or_app. auto. }
    destruct (give_meta_last (g_meta g i) (v_meta v) s1 (svcs s) u (Hg i) Hs1 Hn1 Hi) as (s2 & H2 & Hs2 & Hk2); [exact Hmv|].
    change (id u) with (v_id v) in H2. rewrite H2 in H.
    assert (Hw2 : wlt s2).
    { destruct Hw1 as [W1 W2]. split.
      - rewrite Hs2. rewrite Hs1 in W1. rewrite map_app in *. exact W1.
      - rewrite Hs2, Hk2. rewrite Hs1 in W2. apply Forall_app in W2. destruct W2 as [W2 W3].
        apply Forall_app. split; [exact W2|]. inversion W3; subst. constructor; [assumption|constructor]. }
    destruct (IH (S i) s2 s' Hw2) as (new & Ho & Hf); auto.
    { rewrite Hs2, map_app. cbn [map id with_meta]. rewrite <- app_assoc. exact Hd. }
    exists ((v_id v, v_type v, a, v_port v, v_meta v) :: new). split.
    + rewrite Ho. unfold offers. rewrite Hs2, map_app, <- app_assoc. reflexivity.
    + constructor; [exists a; auto|exact Hf].
Qed.

(** If all services are given to the device, each host is an address. *)
Lemma give_services_hosts : forall ip g l i s s', give_services ip g i l s = (s', true) -> Forall (fun v => ip (v_host v) <> None) l.
Proof.
  intros ip g. induction l as [|v l IH]; intros i s s' H; [constructor|]. cbn [give_services] in H.
  destruct (add_service _ _ _ _ _ _ _ _) as [s1 o] eqn:E1. destruct (is_ok o) eqn:E2; [|discriminate].
  destruct (add_ok _ _ _ _ _ _ _ _ _ _ E1 E2) as (a & sp & Ha & _).
  destruct (give_meta _ _ _ _) as [s2 b]. destruct b; [|discriminate]. constructor; [congruence|eauto].
Qed.

(** With memory and ports, all services are given to the device. *)
Lemma give_meta_true : forall g id e s s1 b, give_meta g id e s = (s1, b) -> find_id id s <> None -> b = true /\ map sport (svcs s1) = map sport (svcs s).
Proof.
  intros g i. induction e as [|[k x] e IH]; intros s s1 b H Hf; [injection H as <- <-; auto|].
  cbn [give_meta] in H. unfold add_meta in H. destruct (find_id i s) as [u|] eqn:E; [|contradiction]. cbn [is_ok] in H.
  apply IH in H.
  - destruct H as [H1 H2]. split; [exact H1|]. rewrite H2. cbn [set_svcs svcs]. apply map_upd. reflexivity.
  - intros Hn. apply find_id_in in E. destruct E as [Hin Hid]. unfold find_id in Hn. cbn [set_svcs svcs] in Hn.
    assert (Hx : In i (map id (svcs s))) by (apply in_map_iff; eauto).
    rewrite <- (map_upd _ id (weak u) (with_meta (if g k then erase k (meta u) ++ [(k, x)] else erase k (meta u))) (svcs s)) in Hx by reflexivity.
    apply in_map_iff in Hx. destruct Hx as (y & Hy & Hiny). apply (find_none _ _ Hn) in Hiny. cbn in Hiny.
    rewrite Hy, String.eqb_refl in Hiny. discriminate.
Qed.

Lemma give_services_all : forall ip g p, (forall i, g_new g i = true) -> (forall i, g_str g i = true) -> (forall i, g_port g i = Some (p i)) -> (forall i j, p i = p j -> i = j) ->
  forall l i s, Forall (fun v => ip (v_host v) <> None) l -> (forall q, In q (map sport (svcs s)) -> exists j, j < i /\ q = p j) ->
  exists s', give_services ip g i l s = (s', true).
Proof.
  intros ip g p H1 H2 H3 Hp. induction l as [|v l IH]; intros i s Hl Hs; [eexists; reflexivity|].
  inversion Hl as [|? ? Hv Hl']; subst. cbn [give_services].
  destruct (ip (v_host v)) as [a|]; [|contradiction]. unfold add_service. rewrite H1, H2, H3. cbn [negb].
  assert (E : existsb (fun v0 => Nat.eqb (sport v0) (p i)) (svcs s) = false).
  { apply Bool.not_true_iff_false. intros E. apply existsb_exists in E. destruct E as (u & Hu & Eu). apply Nat.eqb_eq in Eu.
    destruct (Hs (sport u)) as (j & Hj & Ej); [apply in_map; exact Hu|]. rewrite Eu in Ej. apply Hp in Ej. lia. }
  rewrite E. cbn [is_ok].
  set (s1 := {| svcs := svcs s ++ [_] |}). destruct (give_meta (g_meta g i) (v_id v) (v_meta v) s1) as [s2 b] eqn:E2.
  apply give_meta_true in E2.
  - destruct E2 as [-> E2]. apply IH; [exact Hl'|]. intros q Hq. rewrite E2 in Hq. unfold s1 in Hq. cbn in Hq.
    rewrite map_app in Hq. apply in_app_or in Hq. destruct Hq as [Hq | [<- | []]].
    + destruct (Hs q Hq) as (j & Hj & ->). exists j. split; [lia|reflexivity].
    + exists i. split; [lia|reflexivity].
  - intros Hn. unfold find_id, s1 in Hn. cbn [svcs] in Hn.
    assert (Hx : In {| weak := S (wkc s); id := v_id v; ty := v_type v; addr := a; port := v_port v; sport := p i; meta := []; conns := [] |} (svcs s1)).
    { unfold s1. cbn. apply in_or_app. right. left. reflexivity. }
    apply (find_none _ _ Hn) in Hx. cbn in Hx. rewrite String.eqb_refl in Hx. discriminate.
Qed.
