(** Invariants of the TCP tunnel services. *)
From Coq Require Import List Bool Arith NArith String Lia Permutation.
From Verif Require Import TunModel TunSpec.
Import ListNotations.
Local Open Scope list_scope.

Lemma run_app : forall a b s, run s (a ++ b) = let (s1, o1) := run s a in let (s2, o2) := run s1 b in (s2, o1 ++ o2).
Proof.
  induction a as [|v a IH]; intros b s; cbn [run app]; [destruct (run s b); reflexivity|].
  destruct (step s v) as [s1 o1]. rewrite IH. destruct (run s1 a) as [s2 o2]. destruct (run s2 b) as [s3 o3]. rewrite app_assoc. reflexivity.
Qed.
Lemma history_app : forall a b s, history s (a ++ b) = history s a ++ history (fst (run s a)) b.
Proof.
  induction a as [|v a IH]; intros b s; cbn [history run app]; [reflexivity|]. destruct (step s v) as [s1 o1]. rewrite IH. destruct (run s1 a) as [s2 o2]. cbn [fst app]. rewrite <- app_assoc. reflexivity.
Qed.
Ltac flds := cbn [svcs limits wkc pend nask lost set_svcs set_limits set_pend weak id ty addr port sport meta conns with_meta with_conns] in *.

(** * Services and requests have names of their own *)
Record Names (s : st) : Prop := {
  n_weak : NoDup (map weak (svcs s)); n_wkc : forall v, In v (svcs s) -> weak v <= wkc s;
  n_pend : NoDup (map fst (pend s)); n_nask : forall x, In x (pend s) -> fst x < nask s;
  n_port : NoDup (map sport (svcs s)) }.
Lemma map_upd : forall (A : Type) (g : svc -> A) w f l, (forall v, g (f v) = g v) -> map g (upd_weak w f l) = map g l.
Proof. intros A g w f l H. unfold upd_weak. rewrite map_map. apply map_ext. intros v. destruct (Nat.eqb (weak v) w); auto. Qed.
Lemma nodup_filter_map : forall (A B : Type) (g : A -> B) p l, NoDup (map g l) -> NoDup (map g (filter p l)).
Proof. induction l as [|x l IH]; intros N; cbn [map filter] in *; [constructor|]. inversion N; subst. destruct (p x); [|auto]. cbn [map]. constructor; [|auto]. intros H. apply H1. apply in_map_iff in H. destruct H as (y & E & H). apply filter_In in H. rewrite <- E. apply in_map, H. Qed.
Lemma nodup_snoc : forall (A : Type) (l : list A) x, NoDup l -> ~ In x l -> NoDup (l ++ [x]).
Proof. induction l as [|y l IH]; intros x N H; cbn [app]; [constructor; [intros []|constructor]|]. inversion N; subst. constructor; [|apply IH; auto; intros X; apply H; right; exact X]. intros X. apply in_app_or in X. destruct X as [X|[X|[]]]; [contradiction|]. subst. apply H. left. reflexivity. Qed.
Lemma in_upd : forall w f l v, In v (upd_weak w f l) -> exists u, In u l /\ (v = u \/ v = f u).
Proof. intros w f l v H. unfold upd_weak in H. apply in_map_iff in H. destruct H as (u & E & H). exists u. split; [exact H|]. destruct (Nat.eqb (weak u) w); auto. Qed.
(** A change of one service which keeps its names. *)
Lemma names_upd : forall s w f, Names s -> (forall v, weak (f v) = weak v) -> (forall v, sport (f v) = sport v) -> Names (set_svcs (upd_weak w f (svcs s)) s).
Proof.
  intros s w f [N1 N2 N3 N4 N5] H1 H2. constructor; flds; auto; rewrite ?(map_upd _ weak), ?(map_upd _ sport); auto. intros v H. apply in_upd in H. destruct H as (u & H & [-> | ->]); [|rewrite H1]; apply N2, H.
Qed.
Lemma names_filter : forall s p, Names s -> Names (set_svcs (filter p (svcs s)) s).
Proof. intros s p [N1 N2 N3 N4 N5]. constructor; flds; auto; try (apply nodup_filter_map; assumption). intros v H. apply filter_In in H. apply N2, H. Qed.
Lemma names_pend : forall s p, Names s -> Names (set_pend (filter p (pend s)) s).
Proof. intros s p [N1 N2 N3 N4 N5]. constructor; flds; auto; try (apply nodup_filter_map; assumption). intros v H. apply filter_In in H. apply N4, H. Qed.
Lemma names_ask : forall s a y, Names s -> Names (fst (asking a y s)).
Proof.
  intros s a y [N1 N2 N3 N4 N5]. constructor; cbn [asking fst]; flds; auto.
  - cbn [map fst]. constructor; [|exact N3]. intros H. apply in_map_iff in H. destruct H as (x & E & H). specialize (N4 x H). lia.
  - intros x [<- |H]; cbn [fst]; [lia|]. specialize (N4 x H). lia.
Qed.
Lemma find_id_in : forall i s v, find_id i s = Some v -> In v (svcs s) /\ id v = i. Proof. intros i s v H. apply find_some in H. destruct H as [H E]. apply String.eqb_eq in E. auto. Qed.
Lemma find_weak_in : forall i s v, find_weak i s = Some v -> In v (svcs s) /\ weak v = i. Proof. intros i s v H. apply find_some in H. destruct H as [H E]. apply Nat.eqb_eq in E. auto. Qed.
Lemma find_port_in : forall i s v, find_port i s = Some v -> In v (svcs s) /\ sport v = i. Proof. intros i s v H. apply find_some in H. destruct H as [H E]. apply Nat.eqb_eq in E. auto. Qed.
Lemma step_names : forall s v, Names s -> Names (fst (step s v)).
Proof.
  intros s v N. assert (N' := N). destruct N' as [N1 N2 N3 N4 N5]. destruct v; cbn [step].
  - unfold add_service. destruct host; [|exact N]. destruct a1; cbn [negb]; [|exact N]. assert (LK : Names {| svcs := svcs s; limits := limits s; wkc := S (wkc s); pend := pend s; nask := nask s; lost := S (wkc s) :: lost s |}) by (constructor; flds; auto; intros v H; specialize (N2 v H); lia).
    destruct a2; cbn [negb]; [|exact LK]. destruct lst as [sp|]; [|exact LK]. destruct (existsb _ (svcs s)) eqn:E; [exact LK|]. cbn [fst]. constructor; flds; auto; rewrite ?map_app; cbn [map]; flds.
    + apply nodup_snoc; [exact N1|]. intros H. apply in_map_iff in H. destruct H as (u & E1 & H). specialize (N2 u H). lia.
    + intros v H. apply in_app_or in H. destruct H as [H|[<- |[]]]; flds; [specialize (N2 v H)|]; lia.
    + apply nodup_snoc; [exact N5|]. intros H. apply in_map_iff in H. destruct H as (u & E1 & H). assert (X : existsb (fun v => Nat.eqb (sport v) sp) (svcs s) = true) by (apply existsb_exists; exists u; split; [exact H|apply Nat.eqb_eq; exact E1]). congruence.
  - unfold remove_service. destruct (find_id i s); [|exact N]. apply names_filter, N.
  - constructor; cbn [deinit fst]; flds; auto; first [apply NoDup_nil | intros v []].
  - unfold limit. destruct (int_max <? n)%N; [|destruct a; cbn [negb]]; (constructor; cbn [fst]; flds; auto).
  - unfold add_meta. destruct (find_id i s); [|exact N]. apply names_upd; auto.
  - unfold rem_meta. destruct (find_id i s); [|exact N]. apply names_upd; auto.
  - unfold incoming. destruct (find_port p s); [|exact N]. destruct a; [apply names_ask, N|exact N].
  - unfold list_services. destruct a; [apply names_ask, N|exact N].
  - unfold get_service. destruct (find_id i s); [|exact N]. destruct a; [apply names_ask, N|exact N].
  - unfold verdict. destruct (find _ (pend s)) as [[m y]|]; [|exact N]. pose proof (names_pend s (fun x => negb (Nat.eqb (fst x) n)) N) as P. set (t := set_pend (filter (fun x => negb (Nat.eqb (fst x) n)) (pend s)) s) in *. destruct y; [|exact P|].
    + unfold stream_verdict. destruct (find_weak w t); [|exact P]. destruct allow; [|exact P]. cbn [negb]. match goal with |- context [if ?b then _ else _] => destruct b end; [exact P|]. destruct a; [|exact P]. cbn [negb fst]. apply names_upd; auto.
    + unfold get_verdict. destruct allow; [|exact P]. cbn [negb]. destruct (find_id i t); exact P.
  - unfold conn_end. cbn [fst]. set (f := fun v => with_conns (filter (fun c => negb (Nat.eqb c stream)) (conns v)) v). assert (E1 : map weak (map f (svcs s)) = map weak (svcs s)) by (rewrite map_map; reflexivity). assert (E2 : map sport (map f (svcs s)) = map sport (svcs s)) by (rewrite map_map; reflexivity).
    constructor; flds; rewrite ?E1, ?E2; auto. intros v H. apply in_map_iff in H. destruct H as (u & <- & H). apply (N2 u H).
Qed.
Lemma init_names : Names init. Proof. constructor; cbn; first [apply NoDup_nil | intros v []]. Qed.
Lemma run_names : forall l s, Names s -> Names (fst (run s l)).
Proof. induction l as [|v l IH]; intros s N; cbn [run]; [exact N|]. pose proof (step_names s v N) as X. destruct (step s v) as [s1 o1]. specialize (IH s1 X). destruct (run s1 l). exact IH. Qed.

(** * What becomes of a stream *)
Definition arr (x : nat) (s : st) (v : op) : nat := match v with Incoming p _ y _ => if Nat.eqb y x && match find_port p s with Some _ => true | None => false end then 1 else 0 | _ => 0 end.
Definition asks (r : nat) (v : op) : nat := match v with ListServices _ q _ | GetService _ _ _ q _ => if Nat.eqb q r then 1 else 0 | _ => 0 end.
Definition b2n (b : bool) : nat := if b then 1 else 0.
Lemma count_remove : forall (f : nat * why -> bool) n y p, NoDup (map fst p) -> find (fun x => Nat.eqb (fst x) n) p = Some (n, y) ->
  List.length (filter f p) = b2n (f (n, y)) + List.length (filter f (filter (fun x => negb (Nat.eqb (fst x) n)) p)).
Proof.
  intros f n y. induction p as [|[m z] p IH]; intros N E; cbn [find] in E; [discriminate|]. cbn [map fst] in N. inversion N; subst. cbn [fst] in E. cbn [filter fst]. destruct (Nat.eqb m n) eqn:Q; cbn [negb].
  - inversion E; subst. assert (F : filter (fun x => negb (Nat.eqb (fst x) n)) p = p).
    { clear -H1. induction p as [|[k u] p IH]; [reflexivity|]. cbn [filter fst map] in *. destruct (Nat.eqb k n) eqn:K; [apply Nat.eqb_eq in K; subst; contradiction H1; left; reflexivity|]. cbn [negb]. rewrite IH; [reflexivity|]. intros X. apply H1. right. exact X. }
    rewrite F. destruct (f (n, y)); reflexivity.
  - specialize (IH H2 E). cbn [filter]. destruct (f (m, z)); cbn [List.length]; lia.
Qed.
Lemma find_fst : forall n p m y, find (fun x : nat * why => Nat.eqb (fst x) n) p = Some (m, y) -> m = n. Proof. intros n p m y H. apply find_some in H. destruct H as [_ H]. apply Nat.eqb_eq in H. exact H. Qed.
Lemma settled_app : forall x a b, settled x (a ++ b) = settled x a + settled x b. Proof. intros. unfold settled. rewrite filter_app, app_length. reflexivity. Qed.
Lemma answers_app : forall x a b, answers x (a ++ b) = answers x a + answers x b. Proof. intros. unfold answers. rewrite filter_app, app_length. reflexivity. Qed.
Lemma quiet_stop : forall x v, settled x (stop_all v) = 0 /\ answers x (stop_all v) = 0. Proof. intros x v. unfold stop_all, settled, answers. induction (conns v); cbn; auto. Qed.
Lemma quiet_stops : forall x l, settled x (flat_map stop_all l) = 0 /\ answers x (flat_map stop_all l) = 0.
Proof. intros x l. induction l as [|v l IH]; [split; reflexivity|]. cbn [flat_map]. rewrite settled_app, answers_app. destruct IH as [-> ->]. destruct (quiet_stop x v) as [-> ->]. auto. Qed.
Lemma step_fate : forall x s v, Names s -> let (s', o) := step s v in settled x o + waits_stream x s' = waits_stream x s + arr x s v /\ answers x o + waits_request x s' = waits_request x s + asks x v.
Proof.
  intros x s v N. destruct v; cbn [step arr asks].
  - unfold add_service. destruct host; [|unfold waits_stream, waits_request; split; cbn; lia]. destruct a1, a2, lst; cbn [negb]; try (destruct (existsb _ (svcs s))); unfold waits_stream, waits_request; flds; split; cbn; lia.
  - unfold remove_service. destruct (find_id i s); [|unfold waits_stream, waits_request; split; cbn; lia]. rewrite settled_app, answers_app. destruct (quiet_stop x s0) as [-> ->]. unfold waits_stream, waits_request. flds. split; cbn; lia.
  - cbn [deinit]. destruct (quiet_stops x (svcs s)) as [-> ->]. unfold waits_stream, waits_request. flds. split; lia.
  - unfold limit. destruct (int_max <? n)%N; [|destruct a; cbn [negb]]; unfold waits_stream, waits_request; flds; split; cbn; lia.
  - unfold add_meta. destruct (find_id i s); unfold waits_stream, waits_request; flds; split; cbn; lia.
  - unfold rem_meta. destruct (find_id i s); unfold waits_stream, waits_request; flds; split; cbn; lia.
  - unfold incoming. destruct (find_port p s); [|rewrite andb_false_r; unfold waits_stream, waits_request; split; cbn; lia]. rewrite andb_true_r. destruct a; cbn [asking]; unfold waits_stream, waits_request, settled, answers; flds; cbn [filter snd]; destruct (Nat.eqb stream x); cbn [List.length]; lia.
  - unfold list_services. destruct a; cbn [asking]; unfold waits_stream, waits_request, settled, answers; flds; cbn [filter snd]; destruct (Nat.eqb req x); cbn [List.length]; lia.
  - unfold get_service. destruct (find_id i s); [destruct a|]; cbn [asking]; unfold waits_stream, waits_request, settled, answers; flds; cbn [filter snd]; destruct (Nat.eqb req x); cbn [List.length]; lia.
  - unfold verdict. destruct (find _ (pend s)) as [[m y]|] eqn:F; [|unfold waits_stream, waits_request; split; cbn; lia]. pose proof (find_fst _ _ _ _ F) as E. subst m.
    pose proof (count_remove (fun e => match snd e with ForStream _ c => Nat.eqb c x | _ => false end) n y (pend s) (n_pend _ N) F) as C1.
    pose proof (count_remove (fun e => match snd e with ForList q | ForGet _ q => Nat.eqb q x | _ => false end) n y (pend s) (n_pend _ N) F) as C2. cbn [snd] in *.
    set (t := set_pend (filter (fun x => negb (Nat.eqb (fst x) n)) (pend s)) s) in *.
    assert (W1 : waits_stream x s = b2n (match y with ForStream _ c => Nat.eqb c x | _ => false end) + waits_stream x t) by exact C1.
    assert (W2 : waits_request x s = b2n (match y with ForList q | ForGet _ q => Nat.eqb q x | _ => false end) + waits_request x t) by exact C2.
    clear C1 C2. clearbody t. destruct y; cbn [b2n] in *.
    + unfold stream_verdict. destruct (find_weak w t); [destruct allow; cbn [negb]; [match goal with |- context [if ?b then _ else _] => destruct b end; [|destruct a; cbn [negb]]|]|];
        unfold settled, answers; cbn [filter]; change (waits_stream x (set_svcs ?l t)) with (waits_stream x t); change (waits_request x (set_svcs ?l t)) with (waits_request x t); destruct (Nat.eqb stream x); cbn [List.length b2n] in *; split; try lia.
      all: unfold waits_stream, waits_request in *; flds; lia.
    + cbn [list_verdict]. unfold settled, answers. cbn [filter]. destruct (Nat.eqb req x); cbn [List.length b2n] in *; split; lia.
    + unfold get_verdict. destruct allow; cbn [negb]; [destruct (find_id i t)|]; unfold settled, answers; cbn [filter]; destruct (Nat.eqb req x); cbn [List.length b2n] in *; split; lia.
  - cbn [conn_end]. unfold waits_stream, waits_request. flds. split; cbn; lia.
Qed.
Fixpoint arrs (x : nat) (s : st) (l : list op) : nat := match l with [] => 0 | v :: l => arr x s v + arrs x (fst (step s v)) l end.
Fixpoint nasks (r : nat) (l : list op) : nat := match l with [] => 0 | v :: l => asks r v + nasks r l end.
Lemma run_fate : forall x l s, Names s -> let (s', o) := run s l in settled x o + waits_stream x s' = waits_stream x s + arrs x s l /\ answers x o + waits_request x s' = waits_request x s + nasks x l.
Proof.
  intros x l. induction l as [|v l IH]; intros s N; cbn [run arrs nasks]; [cbn; lia|]. pose proof (step_fate x s v N) as F. pose proof (step_names s v N) as M. destruct (step s v) as [s1 o1]. cbn [fst] in *. specialize (IH s1 M). destruct (run s1 l) as [s2 o2]. rewrite settled_app, answers_app. lia.
Qed.
Lemma arrs_le : forall x l s, arrs x s l <= count_occ Nat.eq_dec (streams l) x.
Proof.
  intros x l. induction l as [|v l IH]; intros s; cbn [arrs streams flat_map]; [lia|]. fold (streams l). specialize (IH (fst (step s v))). rewrite count_occ_app. destruct v; cbn [arr]; try lia. cbn [count_occ]. destruct (Nat.eq_dec stream x) as [-> |E]; [rewrite Nat.eqb_refl; cbn [andb]; destruct (find_port p s); lia|]. apply Nat.eqb_neq in E. rewrite E. cbn [andb]. lia.
Qed.
Lemma nasks_count : forall x l, nasks x l = count_occ Nat.eq_dec (requests l) x.
Proof.
  intros x l. induction l as [|v l IH]; cbn [nasks requests flat_map]; [reflexivity|]. fold (requests l). rewrite count_occ_app, IH. destruct v; cbn [asks]; try reflexivity; cbn [count_occ]; destruct (Nat.eq_dec req x) as [-> |E]; rewrite ?Nat.eqb_refl; try reflexivity; apply Nat.eqb_neq in E; rewrite E; reflexivity.
Qed.

(** * Connections *)
Lemma nodup_app : forall (A : Type) (a b : list A), NoDup (a ++ b) -> NoDup a /\ NoDup b.
Proof. induction a as [|x a IH]; intros b N; [split; [constructor|exact N]|]. cbn [app] in N. inversion N; subst. destruct (IH b H2) as [X Y]. split; [|exact Y]. constructor; [|exact X]. intros H. apply H1, in_or_app. left. exact H. Qed.
Definition ks_dec : forall a b : nat * string, {a = b} + {a <> b}. Proof. decide equality; [apply string_dec|apply Nat.eq_dec]. Defined.
Definition flat (l : list svc) : list (nat * string) := flat_map (fun v => map (fun c => (c, ty v)) (conns v)) l.
Definition cc (x : nat) (l : list svc) : nat := count_occ Nat.eq_dec (flat_map conns l) x.
Lemma flat_fst : forall l, map fst (flat l) = flat_map conns l.
Proof. induction l as [|v l IH]; [reflexivity|]. cbn [flat flat_map] in *. rewrite map_app, map_map. cbn [fst]. rewrite map_id. unfold flat in IH. rewrite IH. reflexivity. Qed.
Lemma by_type_flat : forall t l, by_type t l = of_type t (flat l).
Proof.
  intros t l. unfold of_type. induction l as [|v l IH]; [reflexivity|]. cbn [by_type fold_right flat flat_map]. unfold by_type in IH. rewrite IH, filter_app, app_length. unfold flat. f_equal.
  induction (conns v) as [|c cs IHc]; [destruct (String.eqb (ty v) t); reflexivity|]. cbn [map filter snd]. destruct (String.eqb (ty v) t); cbn [List.length] in *; lia.
Qed.
Lemma flat_upd : forall w f l, (forall v, conns (f v) = conns v /\ ty (f v) = ty v) -> flat (upd_weak w f l) = flat l.
Proof. intros w f l H. unfold flat, upd_weak. induction l as [|v l IH]; [reflexivity|]. cbn [map flat_map]. rewrite IH. destruct (Nat.eqb (weak v) w); [|reflexivity]. destruct (H v) as [-> ->]. reflexivity. Qed.
Lemma flat_open : forall w x l v, NoDup (map weak l) -> In v l -> weak v = w -> Permutation (flat (upd_weak w (fun v => with_conns (conns v ++ [x]) v) l)) (flat l ++ [(x, ty v)]).
Proof.
  intros w x l v N H E. subst w. induction l as [|u l IH]; [destruct H|]. cbn [map] in N. inversion N; subst. cbn [upd_weak map flat flat_map]. destruct H as [-> |H].
  - rewrite Nat.eqb_refl. flds. assert (S : upd_weak (weak v) (fun v => with_conns (conns v ++ [x]) v) l = l).
    { clear -H2. unfold upd_weak. rewrite <- (map_id l) at 2. apply map_ext_in. intros u H. destruct (Nat.eqb (weak u) (weak v)) eqn:E; [|reflexivity]. apply Nat.eqb_eq in E. contradiction H2. rewrite <- E. apply in_map, H. }
    unfold upd_weak in S. rewrite S. rewrite map_app. cbn [map]. rewrite <- !app_assoc. apply Permutation_app_head. apply Permutation_app_comm.
  - destruct (Nat.eqb (weak u) (weak v)) eqn:E; [apply Nat.eqb_eq in E; contradiction H2; rewrite E; apply in_map, H|]. rewrite <- app_assoc. apply Permutation_app_head. apply (IH H3 H).
Qed.
Lemma flat_end : forall x l, flat (map (fun v => with_conns (filter (fun c => negb (Nat.eqb c x)) (conns v)) v) l) = filter (fun e => negb (Nat.eqb (fst e) x)) (flat l).
Proof.
  intros x l. induction l as [|v l IH]; [reflexivity|]. cbn [map flat flat_map]. unfold flat in IH. rewrite IH, filter_app. f_equal. flds. induction (conns v) as [|c cs IHc]; [reflexivity|]. cbn [filter map fst]. destruct (Nat.eqb c x); cbn [negb map filter fst]; [exact IHc|rewrite IHc; reflexivity].
Qed.
Definition inb (x : nat) (l : list nat) : bool := existsb (Nat.eqb x) l.
Lemma inb_in : forall x l, inb x l = true <-> In x l.
Proof. intros x l. unfold inb. rewrite existsb_exists. split; [intros (y & H & E); apply Nat.eqb_eq in E; subst; exact H|intros H; exists x; split; [exact H|apply Nat.eqb_refl]]. Qed.
Lemma filter_all : forall (A : Type) p (l : list A), (forall x, In x l -> p x = true) -> filter p l = l. Proof. induction l as [|x l IH]; intros H; [reflexivity|]. cbn [filter]. rewrite (H x (or_introl eq_refl)), IH; [reflexivity|]. intros y Y. apply H. right. exact Y. Qed.
Lemma filter_none : forall (A : Type) p (l : list A), (forall x, In x l -> p x = false) -> filter p l = []. Proof. induction l as [|x l IH]; intros H; [reflexivity|]. cbn [filter]. rewrite (H x (or_introl eq_refl)), IH; [reflexivity|]. intros y Y. apply H. right. exact Y. Qed.
Lemma flat_drop : forall l v, NoDup (map weak l) -> NoDup (flat_map conns l) -> In v l -> flat (drop_weak (weak v) l) = filter (fun e => negb (inb (fst e) (conns v))) (flat l).
Proof.
  induction l as [|u l IH]; intros v N D H; [destruct H|]. cbn [map flat_map] in *. inversion N; subst. destruct (nodup_app _ _ _ D) as [_ D2]. cbn [drop_weak filter flat flat_map]. rewrite filter_app.
  assert (DJ : forall c, In c (conns u) -> In c (flat_map conns l) -> False).
  { clear -D. revert D. induction (conns u) as [|a cs IHc]; intros D c H1 H2; [destruct H1|]. cbn [app] in D. inversion D; subst. destruct H1 as [-> |H1]; [apply H3, in_or_app; right; exact H2|exact (IHc H4 c H1 H2)]. }
  destruct H as [-> |H].
  - rewrite Nat.eqb_refl. cbn [negb]. rewrite (filter_none _ (fun e => negb (inb (fst e) (conns v))) (map (fun c => (c, ty v)) (conns v))). 2: { intros [c t] X. apply in_map_iff in X. destruct X as (c' & E & X). inversion E; subst. cbn [fst]. apply negb_false_iff, inb_in, X. }
    cbn [app]. fold (flat l). rewrite (filter_all _ (fun e => negb (inb (fst e) (conns v))) (flat l)). 2: { intros [c t] X. cbn [fst]. apply negb_true_iff. destruct (inb c (conns v)) eqn:B; [|reflexivity]. apply inb_in in B. exfalso. apply (DJ c B). rewrite <- flat_fst. apply in_map_iff. exists (c, t). auto. }
    unfold flat. f_equal. apply filter_all. intros u X. apply negb_true_iff, Nat.eqb_neq. intros E. apply H2. rewrite <- E. apply in_map, X.
  - destruct (Nat.eqb (weak u) (weak v)) eqn:E; [apply Nat.eqb_eq in E; contradiction H2; rewrite E; apply in_map, H|]. cbn [negb flat_map]. f_equal; [|apply (IH v H3 D2 H)].
    symmetry. apply filter_all. intros [c t] X. apply in_map_iff in X. destruct X as (c' & E' & X). inversion E'; subst. cbn [fst]. apply negb_true_iff. destruct (inb c (conns v)) eqn:B; [|reflexivity]. apply inb_in in B. exfalso. apply (DJ c X). apply in_flat_map. exists v. auto.
Qed.
Lemma ledger_stops : forall cs L, fold_left ledger1 (map inr (map Stopped cs)) L = filter (fun e => negb (inb (fst e) cs)) L.
Proof.
  induction cs as [|c cs IH]; intros L; cbn [map fold_left ledger1]; [symmetry; apply filter_all; reflexivity|]. rewrite IH. clear IH. induction L as [|e L IH]; [reflexivity|]. cbn [filter]. unfold inb in *. cbn [existsb]. destruct (Nat.eqb (fst e) c); cbn [negb orb filter]; [exact IH|]. destruct (existsb (Nat.eqb (fst e)) cs); cbn [negb]; rewrite IH; reflexivity.
Qed.
Lemma perm_filter : forall (A : Type) p (l l' : list A), Permutation l l' -> Permutation (filter p l) (filter p l').
Proof. intros A p l l' H. induction H; cbn [filter]; auto. - destruct (p x); auto. - destruct (p x), (p y); auto. apply perm_swap. - eapply perm_trans; eauto. Qed.
(** Each stream is in one place. *)
Definition Once (l : list op) (s : st) : Prop := forall x, cc x (svcs s) + waits_stream x s <= count_occ Nat.eq_dec (streams l) x.
Lemma cc_flat : forall x l, cc x l = count_occ Nat.eq_dec (map fst (flat l)) x. Proof. intros. rewrite flat_fst. reflexivity. Qed.
Lemma count_filter : forall (x : nat) p l, count_occ Nat.eq_dec (map fst (filter p l)) x <= count_occ Nat.eq_dec (map (@fst nat string) l) x.
Proof. induction l as [|e l IH]; [cbn; lia|]. cbn [filter map count_occ]. destruct (p e); cbn [map count_occ]; destruct (Nat.eq_dec (fst e) x); lia. Qed.
Lemma cc_sub : forall x p l, cc x (filter p l) <= cc x l.
Proof. intros x p l. unfold cc. induction l as [|v l IH]; [cbn; lia|]. cbn [filter flat_map]. destruct (p v); cbn [flat_map]; rewrite !count_occ_app; lia. Qed.
Lemma streams_app : forall a b, streams (a ++ b) = streams a ++ streams b. Proof. intros. apply flat_map_app. Qed.
Lemma step_once : forall l s v, Names s -> Once l s -> Once (l ++ [v]) (fst (step s v)).
Proof.
  intros l s v N O x. specialize (O x). rewrite streams_app, count_occ_app. assert (SAME : forall s', flat (svcs s') = flat (svcs s) -> pend s' = pend s -> cc x (svcs s') + waits_stream x s' <= count_occ Nat.eq_dec (streams l) x + count_occ Nat.eq_dec (streams [v]) x).
  { intros s' E1 E2. rewrite cc_flat, E1, <- cc_flat. unfold waits_stream in *. rewrite E2. lia. }
  destruct v; cbn [step].
  - unfold add_service. destruct host; [|apply SAME; reflexivity]. destruct a1, a2, lst; cbn [negb]; try (destruct (existsb _ (svcs s))); cbn [fst]; apply SAME; flds; try reflexivity. unfold flat. rewrite flat_map_app. cbn [flat_map]. flds. cbn [map app]. apply app_nil_r.
  - unfold remove_service. destruct (find_id i s); [|apply SAME; reflexivity]. cbn [fst]. flds. pose proof (cc_sub x (fun v => negb (Nat.eqb (weak v) (weak s0))) (svcs s)) as S. unfold drop_weak, waits_stream in *. flds. lia.
  - cbn [deinit fst]. unfold waits_stream in *. flds. unfold cc. cbn [flat_map count_occ]. lia.
  - unfold limit. destruct (int_max <? n)%N; [|destruct a; cbn [negb]]; apply SAME; reflexivity.
  - unfold add_meta. destruct (find_id i s); [|apply SAME; reflexivity]. apply SAME; [|reflexivity]. cbn [fst]. flds. apply flat_upd. auto.
  - unfold rem_meta. destruct (find_id i s); [|apply SAME; reflexivity]. apply SAME; [|reflexivity]. cbn [fst]. flds. apply flat_upd. auto.
  - unfold incoming. destruct (find_port p s); [|apply SAME; reflexivity]. destruct a; [|apply SAME; reflexivity]. cbn [asking fst]. unfold waits_stream in *. flds. cbn [filter snd streams flat_map app count_occ]. destruct (Nat.eq_dec stream x) as [-> |E]; [rewrite Nat.eqb_refl; cbn [List.length]; lia|]. apply Nat.eqb_neq in E. rewrite E. lia.
  - unfold list_services. destruct a; [|apply SAME; reflexivity]. cbn [asking fst]. unfold waits_stream in *. flds. cbn [filter snd]. lia.
  - unfold get_service. destruct (find_id i s); [destruct a|]; try (apply SAME; reflexivity). cbn [asking fst]. unfold waits_stream in *. flds. cbn [filter snd]. lia.
  - unfold verdict. destruct (find _ (pend s)) as [[m y]|] eqn:F; [|apply SAME; reflexivity]. pose proof (find_fst _ _ _ _ F) as E. subst m.
    pose proof (count_remove (fun e => match snd e with ForStream _ c => Nat.eqb c x | _ => false end) n y (pend s) (n_pend _ N) F) as C1. cbn [snd] in C1.
    set (t := set_pend (filter (fun x => negb (Nat.eqb (fst x) n)) (pend s)) s) in *.
    assert (W1 : waits_stream x s = b2n (match y with ForStream _ c => Nat.eqb c x | _ => false end) + waits_stream x t) by exact C1. clear C1.
    assert (NT : Names t) by (apply names_pend, N). assert (ST : svcs t = svcs s) by reflexivity. clearbody t.
    assert (LESS : cc x (svcs t) + waits_stream x t <= count_occ Nat.eq_dec (streams l) x + count_occ Nat.eq_dec (streams [Verdict n allow a]) x) by (rewrite ST; lia).
    destruct y; [|exact LESS|].
    + unfold stream_verdict. destruct (find_weak w t) as [v|] eqn:FW; [|exact LESS]. destruct allow; [|exact LESS]. cbn [negb]. match goal with |- context [if ?b then _ else _] => destruct b end; [exact LESS|]. destruct a; [|exact LESS]. cbn [negb fst].
      destruct (find_weak_in _ _ _ FW) as [IV WV]. pose proof (flat_open w stream (svcs t) v (n_weak _ NT) IV WV) as P. apply (Permutation_map fst) in P. rewrite map_app in P. cbn [map fst] in P.
      rewrite cc_flat. flds. rewrite (proj1 (Permutation_count_occ Nat.eq_dec _ _) P x), count_occ_app, <- cc_flat. cbn [count_occ]. unfold waits_stream in *. flds. rewrite ST in *. destruct (Nat.eq_dec stream x) as [-> |E]; [rewrite Nat.eqb_refl in W1; cbn [b2n] in W1; lia|lia].
    + unfold get_verdict. destruct allow; [|exact LESS]. cbn [negb]. destruct (find_id i t); exact LESS.
  - cbn [conn_end fst]. rewrite cc_flat. flds. rewrite flat_end. pose proof (count_filter x (fun e => negb (Nat.eqb (fst e) stream)) (flat (svcs s))) as C. rewrite <- cc_flat in C. unfold waits_stream in *. flds. lia.
Qed.
Lemma run_once : forall l, Once l (fst (run init l)).
Proof.
  intros l. induction l as [|v l IH] using rev_ind; [intros x; cbn; lia|]. rewrite run_app. pose proof (run_names l init init_names) as N. destruct (run init l) as [s o]. cbn [run fst] in *. pose proof (step_once l s v N IH) as S. destruct (step s v). exact S.
Qed.
Lemma once_nodup : forall l s, Once l s -> NoDup (streams l) -> NoDup (flat_map conns (svcs s)).
Proof.
  intros l s O N. apply (NoDup_count_occ Nat.eq_dec). intros x. specialize (O x). unfold cc in O. pose proof (proj1 (NoDup_count_occ Nat.eq_dec _) N x). lia.
Qed.
Lemma ledger_run : forall l, NoDup (streams l) -> Permutation (ledger (history init l)) (flat (svcs (fst (run init l)))).
Proof.
  intros l. induction l as [|v l IH] using rev_ind; intros ND; [apply perm_nil|].
  assert (ND1 : NoDup (streams l)) by (rewrite streams_app in ND; exact (proj1 (nodup_app _ _ _ ND))). specialize (IH ND1).
  pose proof (run_once l) as O. pose proof (run_names l init init_names) as N. pose proof (once_nodup _ _ O ND1) as NF. unfold ledger in *. rewrite history_app, fold_left_app, run_app. destruct (run init l) as [s o]. cbn [fst history run] in *. destruct (step s v) as [s' o'] eqn:E. cbn [fst]. rewrite app_nil_r in *. cbn [fold_left].
  set (L := fold_left ledger1 (history init l) []) in *. clearbody L. 
  assert (SAME : forall o2, (forall x, In x o2 -> match x with Opened _ _ _ _ | Stopped _ => False | _ => True end) -> forall M, fold_left ledger1 (map inr o2) M = M).
  { clear. induction o2 as [|x o2 IH]; intros H M; [reflexivity|]. cbn [map fold_left]. rewrite (IH (fun y Y => H y (or_intror Y))). specialize (H x (or_introl eq_refl)). destruct x; try contradiction; reflexivity. }
  destruct v; cbn [step ledger1] in *.
  - unfold add_service in E. destruct host; [|inversion E; subst; cbn; exact IH]. destruct a1, a2, lst; cbn [negb] in E; try (destruct (existsb _ (svcs s))); inversion E; subst; cbn [map fold_left ledger1]; flds; try exact IH. unfold flat. rewrite flat_map_app. cbn [flat_map]. flds. cbn [map app]. rewrite app_nil_r. exact IH.
  - unfold remove_service in E. destruct (find_id i s) as [v|] eqn:F; inversion E; subst; [|cbn; exact IH]. rewrite map_app, fold_left_app. unfold stop_all. rewrite ledger_stops. cbn [map fold_left ledger1]. flds. destruct (find_id_in _ _ _ F) as [IV _]. rewrite (flat_drop _ v (n_weak _ N) NF IV). apply perm_filter, IH.
  - inversion E; subst. flds. assert (X : flat_map stop_all (svcs s) = map Stopped (flat_map conns (svcs s))) by (clear; induction (svcs s) as [|u l IH]; [reflexivity|]; cbn [flat_map]; rewrite map_app, IH; reflexivity). rewrite X, ledger_stops. rewrite filter_none; [apply perm_nil|].
    intros [c t] H. cbn [fst]. apply negb_false_iff, inb_in. apply (Permutation_in _ IH) in H. rewrite <- flat_fst. apply in_map_iff. exists (c, t). auto.
  - unfold limit in E. destruct (int_max <? n)%N; [|destruct a; cbn [negb] in E]; inversion E; subst; cbn; exact IH.
  - unfold add_meta in E. destruct (find_id i s); inversion E; subst; cbn [map fold_left ledger1]; flds; [|exact IH]. rewrite flat_upd by auto. exact IH.
  - unfold rem_meta in E. destruct (find_id i s); inversion E; subst; cbn [map fold_left ledger1]; flds; [|exact IH]. rewrite flat_upd by auto. exact IH.
  - unfold incoming in E. destruct (find_port p s); [destruct a|]; inversion E; subst; cbn; exact IH.
  - unfold list_services in E. destruct a; inversion E; subst; cbn; exact IH.
  - unfold get_service in E. destruct (find_id i s); [destruct a|]; inversion E; subst; cbn; exact IH.
  - unfold verdict in E. destruct (find _ (pend s)) as [[m y]|] eqn:F; [|inversion E; subst; cbn; exact IH]. set (t := set_pend (filter (fun x => negb (Nat.eqb (fst x) n)) (pend s)) s) in *. assert (NT : Names t) by (apply names_pend, N). change (svcs s) with (svcs t) in *. clearbody t.
    destruct y; [|inversion E; subst; cbn; exact IH|].
    + unfold stream_verdict in E. destruct (find_weak w t) as [v|] eqn:FW; [|inversion E; subst; cbn; exact IH]. destruct allow; [|inversion E; subst; cbn; exact IH]. cbn [negb] in E. match type of E with context [if ?b then _ else _] => destruct b end; [inversion E; subst; cbn; exact IH|]. destruct a; [|inversion E; subst; cbn; exact IH]. cbn [negb] in E.
      inversion E; subst. destruct (find_weak_in _ _ _ FW) as [IV WV]. cbn [map fold_left ledger1]. flds. eapply perm_trans; [apply Permutation_app_tail, IH|]. apply Permutation_sym, flat_open; auto. apply (n_weak _ NT).
    + unfold get_verdict in E. destruct allow; [|inversion E; subst; cbn; exact IH]. cbn [negb] in E. destruct (find_id i t); inversion E; subst; cbn; exact IH.
  - inversion E; subst. cbn [map fold_left]. flds. rewrite flat_end. apply perm_filter, IH.
Qed.
Lemma ledger_type : forall l t, NoDup (streams l) -> of_type t (ledger (history init l)) = by_type t (svcs (fst (run init l))).
Proof. intros l t N. rewrite by_type_flat. unfold of_type. apply Permutation_length, perm_filter, ledger_run, N. Qed.

(** * Limits *)
Lemma get_erase : forall (t k : string) (m : list (string * nat)), get t (erase k m) = if String.eqb k t then None else get t m.
Proof.
  intros t k m. unfold get, erase. induction m as [|[a n] m IH]; [destruct (String.eqb k t); reflexivity|]. cbn [filter fst find]. destruct (String.eqb a k) eqn:E; cbn [negb].
  - rewrite IH. apply String.eqb_eq in E. subst. destruct (String.eqb k t); reflexivity.
  - cbn [find fst]. destruct (String.eqb a t) eqn:E2; [|exact IH]. apply String.eqb_eq in E2. subst. rewrite String.eqb_sym in E. rewrite E. reflexivity.
Qed.
Lemma get_cons : forall (t k : string) n (m : list (string * nat)), get t ((k, n) :: m) = if String.eqb k t then Some n else get t m. Proof. intros. unfold get. cbn [find fst]. destruct (String.eqb k t); reflexivity. Qed.
Lemma limits_run : forall l t, get t (limits (fst (run init l))) = limit_of t l.
Proof.
  intros l t. unfold limit_of. induction l as [|v l IH] using rev_ind; [reflexivity|]. rewrite run_app, fold_left_app. destruct (run init l) as [s o]. cbn [fst run fold_left] in *. rewrite <- IH. clear IH.
  destruct (step s v) as [s' o'] eqn:E. cbn [fst]. destruct v; cbn [step limit1] in *.
  - unfold add_service in E. destruct host; [|inversion E; reflexivity]. destruct a1, a2, lst; cbn [negb] in E; try (destruct (existsb _ (svcs s))); inversion E; reflexivity.
  - unfold remove_service in E. destruct (find_id i s); inversion E; reflexivity.
  - inversion E. reflexivity.
  - unfold limit in E. destruct (int_max <? n)%N; [|destruct a; cbn [negb] in E]; inversion E; subst; flds; rewrite ?get_cons, ?get_erase; destruct (String.eqb t0 t); reflexivity.
  - unfold add_meta in E. destruct (find_id i s); inversion E; reflexivity.
  - unfold rem_meta in E. destruct (find_id i s); inversion E; reflexivity.
  - unfold incoming in E. destruct (find_port p s); [destruct a|]; inversion E; reflexivity.
  - unfold list_services in E. destruct a; inversion E; reflexivity.
  - unfold get_service in E. destruct (find_id i s); [destruct a|]; inversion E; reflexivity.
  - unfold verdict in E. destruct (find _ (pend s)) as [[m y]|]; [|inversion E; reflexivity]. destruct y.
    + unfold stream_verdict in E. destruct (find_weak w _); [destruct allow; cbn [negb] in E; [match type of E with context [if ?b then _ else _] => destruct b end; [|destruct a; cbn [negb] in E]|]|]; inversion E; reflexivity.
    + inversion E; reflexivity.
    + unfold get_verdict in E. destruct allow; cbn [negb] in E; [destruct (find_id i _)|]; inversion E; reflexivity.
  - inversion E. reflexivity.
Qed.
