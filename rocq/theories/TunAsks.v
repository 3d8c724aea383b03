(** What every pending request was asked for, and which services there are. *)
From Coq Require Import List Bool Arith NArith String Lia Permutation.
From Verif Require Import TunModel TunSpec TunProofs.
Import ListNotations.
Local Open Scope list_scope.

(** A step either leaves the services but for metadata and connections as they are, adds one at the end, or removes some. *)
Definition face (v : svc) : nat * string * string * nat * nat * nat := (weak v, id v, ty v, addr v, port v, sport v).
Lemma face_upd : forall w f l, (forall v, face (f v) = face v) -> map face (upd_weak w f l) = map face l.
Proof. intros w f l H. unfold upd_weak. rewrite map_map. apply map_ext. intros v. destruct (Nat.eqb (weak v) w); auto. Qed.
Lemma verdict_face : forall n y a s, map face (svcs (fst (verdict n y a s))) = map face (svcs s) /\ wkc (fst (verdict n y a s)) = wkc s.
Proof.
  intros n y a s. unfold verdict. destruct (find _ (pend s)) as [[m z]|]; [|auto]. set (t := set_pend (filter (fun x => negb (Nat.eqb (fst x) n)) (pend s)) s) in *. change (svcs s) with (svcs t). change (wkc s) with (wkc t). clearbody t. destruct z; [|auto|].
  - unfold stream_verdict. destruct (find_weak w t); [|auto]. destruct y; [|auto]. cbn [negb]. match goal with |- context [if ?b then _ else _] => destruct b end; [auto|]. destruct a; [|auto]. cbn [negb fst]. flds. split; [|reflexivity]. apply face_upd. reflexivity.
  - unfold get_verdict. destruct y; [|auto]. cbn [negb]. destruct (find_id i t); auto.
Qed.
Ltac done' := repeat split; intros; first [congruence | lia | reflexivity].
(** What a step does to the services, as seen from outside. *)
Lemma step_face : forall s v, Names s ->
  (map face (svcs (fst (step s v))) = map face (svcs s) /\ wkc s <= wkc (fst (step s v)) /\ (forall i t h p a b c, v = AddService i t h p a b c -> succeeded (snd (step s v)) = false) /\ (forall i, v = RemoveService i -> succeeded (snd (step s v)) = false) /\ v <> Deinit) \/
  (exists i t h p sp, v = AddService i t (Some h) p true true (Some sp) /\ map face (svcs (fst (step s v))) = map face (svcs s) ++ [(S (wkc s), i, t, h, p, sp)] /\ wkc (fst (step s v)) = S (wkc s) /\ succeeded (snd (step s v)) = true) \/
  (exists i u, v = RemoveService i /\ find_id i s = Some u /\ svcs (fst (step s v)) = drop_weak (weak u) (svcs s) /\ wkc (fst (step s v)) = wkc s /\ snd (step s v) = stop_all u ++ [Result Ok]) \/
  (v = Deinit /\ svcs (fst (step s v)) = [] /\ wkc (fst (step s v)) = wkc s).
Proof.
  intros s v N. destruct v; try (left; cbn [step]; done'; fail).
  - cbn [step]. unfold add_service. destruct host; [|left; cbn; done']. destruct a1, a2, lst; cbn [negb]; try (left; cbn; done'). destruct (existsb _ (svcs s)); [left; cbn; done'|].
    right. left. exists i, t, n, p, n0. cbn [fst snd]. flds. rewrite map_app. repeat split.
  - cbn [step]. unfold remove_service. destruct (find_id i s) as [u|] eqn:F; [|left; cbn; done']. right. right. left. exists i, u. cbn [fst snd]. flds. auto.
  - right. right. right. repeat split.
  - left. cbn [step]. unfold limit. destruct (int_max <? n)%N; [|destruct a]; cbn; done'.
  - left. cbn [step]. unfold add_meta. destruct (find_id i s); cbn [fst snd]; flds; repeat split; intros; try congruence; try lia; try (apply face_upd; reflexivity).
  - left. cbn [step]. unfold rem_meta. destruct (find_id i s); cbn [fst snd]; flds; repeat split; intros; try congruence; try lia; try (apply face_upd; reflexivity).
  - left. cbn [step]. unfold incoming. destruct (find_port p s); [destruct a|]; cbn; done'.
  - left. cbn [step]. unfold list_services. destruct a; cbn; done'.
  - left. cbn [step]. unfold get_service. destruct (find_id i s); [destruct a|]; cbn; done'.
  - left. cbn [step]. destruct (verdict_face n allow a s) as [E1 E2]. done'.
  - left. cbn [step conn_end fst]. flds. repeat split; intros; try congruence; try lia; try (rewrite map_map; reflexivity).
Qed.
(** Where a service after the step comes from. *)
Lemma step_origin : forall s v u, Names s -> In u (svcs (fst (step s v))) ->
  (exists u', In u' (svcs s) /\ face u' = face u) \/ (weak u = S (wkc s) /\ v = AddService (id u) (ty u) (Some (addr u)) (port u) true true (Some (sport u))).
Proof.
  intros s v u N H. destruct (step_face s v N) as [(F & _)|[(i & t & h & p & sp & -> & F & _)|[(i & x & -> & _ & F & _)|(-> & F & _)]]].
  - left. apply (in_map face) in H. rewrite F in H. apply in_map_iff in H. destruct H as (u' & E & H). eauto.
  - apply (in_map face) in H. rewrite F in H. apply in_app_or in H. destruct H as [H|[H|[]]]; [left; apply in_map_iff in H; destruct H as (u' & E & H); eauto|]. right. unfold face in H. inversion H. subst. auto.
  - left. rewrite F in H. apply filter_In in H. exists u. split; [apply H|reflexivity].
  - rewrite F in H. destruct H.
Qed.
Lemma step_wkc : forall s v, Names s -> wkc s <= wkc (fst (step s v)).
Proof. intros s v N. destruct (step_face s v N) as [(_ & F & _)|[(i & t & h & p & sp & _ & _ & F & _)|[(i & x & _ & _ & _ & F & _)|(_ & _ & F)]]]; lia. Qed.
Definition Added (l : list op) (s : st) : Prop := forall u, In u (svcs s) -> In (AddService (id u) (ty u) (Some (addr u)) (port u) true true (Some (sport u))) l.
Lemma step_added : forall l s v, Names s -> Added l s -> Added (l ++ [v]) (fst (step s v)).
Proof.
  intros l s v N A u H. apply in_or_app. destruct (step_origin s v u N H) as [(u' & H' & E)|[_ E]]; [|right; left; symmetry; auto]. left. specialize (A u' H'). unfold face in E. inversion E. congruence.
Qed.

(** * Requests *)
Definition Why (l : list op) (o : list out) (s : st) (n : nat) (y : why) : Prop :=
  match y with
  | ForStream w x => w <= wkc s /\ exists p conn i t, In (Incoming p conn x true) l /\ In (Ask n {| q_conn := conn; q_action := "TcpTunnel:Connect"; q_attrs := about i t |}) o /\ (forall u, In u (svcs s) -> weak u = w -> id u = i /\ ty u = t /\ sport u = p)
  | ForList r => exists conn, In (ListServices conn r true) l /\ In (Ask n {| q_conn := conn; q_action := "TcpTunnel:ListServices"; q_attrs := [] |}) o
  | ForGet i r => exists con conn t, In (GetService con i conn r true) l /\ In (Ask n {| q_conn := conn; q_action := if con then "TcpTunnel:Connect" else "TcpTunnel:GetService"; q_attrs := about i t |}) o
  end%string.
Record Asks (l : list op) (o : list out) (s : st) : Prop := {
  k_why : forall n y, In (n, y) (pend s) -> Why l o s n y;
  k_num : forall n, In n (asked o) -> n < nask s; k_once : NoDup (asked o) }.
(** Pending requests after a step: the old ones and what was asked. *)
Lemma step_pend : forall s v n y, In (n, y) (pend (fst (step s v))) -> In (n, y) (pend s) \/
  (n = nask s /\ match y with
   | ForStream w x => exists p conn u, v = Incoming p conn x true /\ find_port p s = Some u /\ weak u = w /\ snd (step s v) = [Ask n {| q_conn := conn; q_action := "TcpTunnel:Connect"; q_attrs := service_attrs u |}]
   | ForList r => exists conn, v = ListServices conn r true /\ snd (step s v) = [Ask n {| q_conn := conn; q_action := "TcpTunnel:ListServices"; q_attrs := [] |}]
   | ForGet i r => exists con conn u, v = GetService con i conn r true /\ find_id i s = Some u /\ snd (step s v) = [Ask n {| q_conn := conn; q_action := if con then "TcpTunnel:Connect" else "TcpTunnel:GetService"; q_attrs := service_attrs u |}]
   end)%string.
Proof.
  intros s v n y. destruct v; cbn [step]; try (left; assumption).
  - unfold add_service. destruct host; [|auto]. destruct a1, a2, lst; cbn [negb]; try (destruct (existsb _ (svcs s))); cbn [fst]; flds; auto.
  - unfold remove_service. destruct (find_id i s); cbn [fst]; flds; auto.
  - unfold limit. destruct (int_max <? n0)%N; [|destruct a]; cbn; auto.
  - unfold add_meta. destruct (find_id i s); cbn [fst]; flds; auto.
  - unfold rem_meta. destruct (find_id i s); cbn [fst]; flds; auto.
  - unfold incoming. destruct (find_port p s) as [u|] eqn:F; [|auto]. destruct a; [|auto]. cbn [asking fst snd]. flds. intros [E|H]; [|auto]. inversion E; subst. right. split; [reflexivity|]. exists p, conn, u. auto.
  - unfold list_services. destruct a; [|auto]. cbn [asking fst snd]. flds. intros [E|H]; [|auto]. inversion E; subst. right. split; [reflexivity|]. exists conn. auto.
  - unfold get_service. destruct (find_id i s) as [u|] eqn:F; [|auto]. destruct a; [|auto]. cbn [asking fst snd]. flds. intros [E|H]; [|auto]. inversion E; subst. right. split; [reflexivity|]. exists con, conn, u. auto.
  - unfold verdict. destruct (find _ (pend s)) as [[m z]|]; [|auto]. set (t := set_pend (filter (fun x => negb (Nat.eqb (fst x) n0)) (pend s)) s) in *. assert (X : In (n, y) (pend t) -> In (n, y) (pend s)) by (intros H; apply filter_In in H; apply H). clearbody t. destruct z; [|auto|].
    + unfold stream_verdict. destruct (find_weak w t); [|auto]. destruct allow; [|auto]. cbn [negb]. match goal with |- context [if ?b then _ else _] => destruct b end; [auto|]. destruct a; [|auto]. cbn [negb fst]. flds. auto.
    + unfold get_verdict. destruct allow; [|auto]. cbn [negb]. destruct (find_id i t); auto.
Qed.
Lemma step_asked : forall s v, (asked (snd (step s v)) = [] /\ nask (fst (step s v)) = nask s) \/ (asked (snd (step s v)) = [nask s] /\ nask (fst (step s v)) = S (nask s)).
Proof.
  intros s v. assert (Q : forall l, asked (map Stopped l) = []) by (induction l; auto). destruct v; cbn [step]; try (left; split; reflexivity).
  - unfold add_service. destruct host; [|auto]. destruct a1, a2, lst; cbn [negb]; try (destruct (existsb _ (svcs s))); cbn [fst]; flds; auto.
  - unfold remove_service. destruct (find_id i s); cbn [fst snd]; flds; [|auto]. left. unfold asked. rewrite flat_map_app. fold (asked (stop_all s0)). unfold stop_all. rewrite Q. auto.
  - left. cbn [deinit fst snd]. split; [|reflexivity]. induction (svcs s) as [|u l IH]; [reflexivity|]. cbn [flat_map]. unfold asked. rewrite flat_map_app. fold (asked (flat_map stop_all l)). rewrite IH. fold (asked (stop_all u)). unfold stop_all. rewrite Q. reflexivity.
  - unfold limit. destruct (int_max <? n)%N; [|destruct a]; cbn; auto.
  - unfold add_meta. destruct (find_id i s); cbn [fst]; flds; auto.
  - unfold rem_meta. destruct (find_id i s); cbn [fst]; flds; auto.
  - unfold incoming. destruct (find_port p s) as [u|] eqn:F; [|auto]. destruct a; auto.
  - unfold list_services. destruct a; auto.
  - unfold get_service. destruct (find_id i s) as [u|] eqn:F; [|auto]. destruct a; auto.
  - unfold verdict. destruct (find _ (pend s)) as [[m z]|]; [|auto]. set (t := set_pend (filter (fun x => negb (Nat.eqb (fst x) n)) (pend s)) s) in *. change (nask s) with (nask t). clearbody t. destruct z; [|auto|].
    + unfold stream_verdict. destruct (find_weak w t); [|auto]. destruct allow; [|auto]. cbn [negb]. match goal with |- context [if ?b then _ else _] => destruct b end; [auto|]. destruct a; auto.
    + unfold get_verdict. destruct allow; [|auto]. cbn [negb]. destruct (find_id i t); auto.
Qed.
Lemma asked_app : forall a b, asked (a ++ b) = asked a ++ asked b. Proof. intros. apply flat_map_app. Qed.
Lemma uniq_weak : forall s u v, Names s -> In u (svcs s) -> In v (svcs s) -> weak u = weak v -> u = v.
Proof.
  intros s u v N. pose proof (n_weak _ N) as D. induction (svcs s) as [|x l IH]; intros H1 H2 E; [destruct H1|]. cbn [map] in D. inversion D; subst. destruct H1 as [-> |H1], H2 as [-> |H2]; auto.
  - contradiction H3. rewrite E. apply in_map, H2. - contradiction H3. rewrite <- E. apply in_map, H1.
Qed.
Lemma step_asks : forall l o s v, Names s -> Asks l o s -> Asks (l ++ [v]) (o ++ snd (step s v)) (fst (step s v)).
Proof.
  intros l o s v N [K1 K2 K3]. constructor.
  - intros n y H. destruct (step_pend s v n y H) as [H'|[En H']].
    + specialize (K1 n y H'). unfold Why in *. destruct y.
      * destruct K1 as (L & p & conn & i & t & A & B & C). pose proof (step_wkc s v N). split; [lia|]. exists p, conn, i, t. split; [apply in_or_app; auto|]. split; [apply in_or_app; auto|]. intros u U E. destruct (step_origin s v u N U) as [(u' & U' & F)|[F _]]; [|lia]. unfold face in F. inversion F. specialize (C u' U' ltac:(congruence)). destruct C as (C1 & C2 & C3). repeat split; congruence.
      * destruct K1 as (conn & A & B). exists conn. split; apply in_or_app; auto.
      * destruct K1 as (con & conn & t & A & B). exists con, conn, t. split; apply in_or_app; auto.
    + unfold Why. destruct y.
      * destruct H' as (p & conn & u & -> & F & E & S). destruct (find_port_in _ _ _ F) as [U P]. pose proof (step_wkc s (Incoming p conn stream true) N). pose proof (n_wkc _ N u U). split; [lia|]. exists p, conn, (id u), (ty u). rewrite S. split; [apply in_or_app; right; left; reflexivity|]. split; [apply in_or_app; right; left; reflexivity|].
        intros x X W. destruct (step_origin s _ x N X) as [(u' & U' & G)|[G _]]; [|lia]. unfold face in G. inversion G. assert (u' = u) by (apply (uniq_weak s); auto; congruence). subst u'. repeat split; congruence.
      * destruct H' as (conn & -> & S). exists conn. rewrite S. split; apply in_or_app; right; left; reflexivity.
      * destruct H' as (con & conn & u & -> & F & S). destruct (find_id_in _ _ _ F) as [U P]. exists con, conn, (ty u). rewrite S. split; apply in_or_app; right; left; [reflexivity|]. unfold service_attrs, about. rewrite P. reflexivity.
  - intros n H. rewrite asked_app in H. destruct (step_asked s v) as [[E1 E2]|[E1 E2]]; rewrite E1 in H; apply in_app_or in H; rewrite E2; destruct H as [H|H]; try (specialize (K2 n H); lia); [destruct H|]; destruct H as [H|[]]; lia.
  - rewrite asked_app. destruct (step_asked s v) as [[E1 E2]|[E1 E2]]; rewrite E1; [rewrite app_nil_r; exact K3|]. apply nodup_snoc; [exact K3|]. intros H. specialize (K2 _ H). lia.
Qed.
Lemma run_all : forall l, let (s, o) := run init l in Names s /\ Added l s /\ Asks l o s.
Proof.
  intros l. induction l as [|v l IH] using rev_ind; [cbn [run]; split; [apply init_names|]; split; [intros u []|]; constructor; [intros n y []|intros n []|apply NoDup_nil]|].
  rewrite run_app. destruct (run init l) as [s o]. cbn [run]. destruct IH as (N & A & K). pose proof (step_names s v N) as N1. pose proof (step_added l s v N A) as A1. pose proof (step_asks l o s v N K) as K1. destruct (step s v) as [s' o']. cbn [fst snd] in *. rewrite app_nil_r. auto.
Qed.

(** * The services there are *)
Lemma calls_app : forall a b s, calls s (a ++ b) = calls s a ++ calls (fst (run s a)) b.
Proof. induction a as [|v a IH]; intros b s; cbn [calls run app]; [reflexivity|]. destruct (step s v) as [s1 o1]. rewrite IH. destruct (run s1 a) as [s2 o2]. reflexivity. Qed.
Definition fid (x : nat * string * string * nat * nat * nat) : string := snd (fst (fst (fst (fst x)))).
Lemma ids_face : forall l, map id l = map fid (map face l). Proof. intros. rewrite map_map. reflexivity. Qed.
Lemma face_id : forall l l', map face l = map face l' -> map id l = map id l'.
Proof. intros l l' H. apply (f_equal (map (fun x => snd (fst (fst (fst (fst x))))))) in H. rewrite !map_map in H. exact H. Qed.
Lemma drop_first_ids : forall i l u, NoDup (map weak l) -> find (fun v => String.eqb (id v) i) l = Some u -> map id (drop_weak (weak u) l) = drop_first i (map id l).
Proof.
  intros i l u. induction l as [|v l IH]; intros N F; [discriminate|]. cbn [find map] in *. inversion N; subst. cbn [drop_weak filter map drop_first]. destruct (String.eqb (id v) i) eqn:E.
  - inversion F; subst. rewrite Nat.eqb_refl. cbn [negb]. f_equal. apply filter_all. intros x X. apply negb_true_iff, Nat.eqb_neq. intros Q. apply H1. rewrite <- Q. apply in_map, X.
  - destruct (Nat.eqb (weak v) (weak u)) eqn:Q; [apply Nat.eqb_eq in Q; apply find_some in F; contradiction H1; rewrite Q; apply in_map, F|]. cbn [negb map]. f_equal. apply IH; auto.
Qed.
Lemma succeeded_stop : forall u, succeeded (stop_all u ++ [Result Ok]) = true. Proof. intros u. unfold succeeded. rewrite existsb_app. cbn. apply orb_true_r. Qed.
Lemma present_run : forall l, present l = map id (svcs (fst (run init l))).
Proof.
  intros l. unfold present. induction l as [|v l IH] using rev_ind; [reflexivity|]. rewrite calls_app, fold_left_app, run_app. pose proof (run_names l init init_names) as N. destruct (run init l) as [s o]. cbn [fst calls run] in *. rewrite IH. clear IH. pose proof (step_face s v N) as F. destruct (step s v) as [s' o']. cbn [fst snd fold_left] in *.
  destruct F as [(F & _ & A & R & D)|[(i & t & h & p & sp & -> & F & _ & S)|[(i & x & -> & I & F & _ & S)|(-> & F & _)]]].
  - rewrite (face_id _ _ F). destruct v; cbn [present1]; try reflexivity; [rewrite (A _ _ _ _ _ _ _ eq_refl)|rewrite (R _ eq_refl)|congruence]; reflexivity.
  - cbn [present1]. rewrite S. rewrite (ids_face (svcs s')), F, map_app, <- ids_face. reflexivity.
  - cbn [present1]. rewrite S, succeeded_stop, F. symmetry. apply drop_first_ids; [apply (n_weak _ N)|exact I].
  - cbn [present1]. rewrite F. reflexivity.
Qed.
(** With identifiers used once there is at most one service of each. *)
Lemma added_count : forall l i, count_occ string_dec (map id (svcs (fst (run init l)))) i <= count_occ string_dec (added l) i.
Proof.
  intros l i. induction l as [|v l IH] using rev_ind; [cbn; lia|]. rewrite run_app. unfold added in *. rewrite flat_map_app, count_occ_app. pose proof (run_names l init init_names) as N. destruct (run init l) as [s o]. cbn [fst run] in *. pose proof (step_face s v N) as F. destruct (step s v) as [s' o']. cbn [fst snd] in *.
  destruct F as [(F & _)|[(j & t & h & p & sp & -> & F & _ & S)|[(j & x & -> & I & F & _ & S)|(-> & F & _)]]].
  - rewrite (face_id _ _ F). lia.
  - rewrite (ids_face (svcs s')), F, map_app, <- ids_face, count_occ_app. cbn [map flat_map app fid fst snd] in *. lia.
  - rewrite F. assert (X : forall p L, count_occ string_dec (map id (filter p L)) i <= count_occ string_dec (map id L) i) by (clear; intros p L; induction L as [|u L IH]; [cbn; lia|]; cbn [filter map]; destruct (p u); cbn [map count_occ]; destruct (string_dec (id u) i); lia). unfold drop_weak. specialize (X (fun v => negb (Nat.eqb (weak v) (weak x))) (svcs s)). lia.
  - rewrite F. cbn. lia.
Qed.
Lemma added_once : forall l, NoDup (added l) -> NoDup (map id (svcs (fst (run init l)))).
Proof. intros l N. apply (NoDup_count_occ string_dec). intros i. pose proof (added_count l i). pose proof (proj1 (NoDup_count_occ string_dec _) N i). lia. Qed.
(** A service which is gone stays gone. *)
Definition Gone (w : nat) (s : st) : Prop := w <= wkc s /\ forall u, In u (svcs s) -> weak u <> w.
Lemma step_gone : forall w s v, Names s -> Gone w s -> Gone w (fst (step s v)).
Proof. intros w s v N [L G]. pose proof (step_wkc s v N). split; [lia|]. intros u U. destruct (step_origin s v u N U) as [(u' & U' & F)|[F _]]; [|lia]. unfold face in F. inversion F. specialize (G u' U'). congruence. Qed.
Lemma run_gone : forall w l s, Names s -> Gone w s -> Gone w (fst (run s l)).
Proof. intros w l. induction l as [|v l IH]; intros s N G; [exact G|]. cbn [run]. pose proof (step_names s v N) as N1. pose proof (step_gone w s v N G) as G1. destruct (step s v) as [s1 o1]. specialize (IH s1 N1 G1). destruct (run s1 l). exact IH. Qed.
(** A service stays the first with its identifier until it is removed. *)
Lemma find_app_some : forall (A : Type) (p : A -> bool) a b x, find p a = Some x -> find p (a ++ b) = Some x. Proof. induction a as [|y a IH]; intros b x H; [discriminate|]. cbn [find app] in *. destruct (p y); auto. Qed.
Definition First (i : string) (f : nat * string * string * nat * nat * nat) (s : st) : Prop := option_map face (find_id i s) = Some f.
Lemma find_map_face : forall i l, option_map face (find (fun v => String.eqb (id v) i) l) = find (fun f => String.eqb (snd (fst (fst (fst (fst f))))) i) (map face l).
Proof. intros i l. induction l as [|u l IH]; [reflexivity|]. cbn [find map]. change (snd (fst (fst (fst (fst (face u)))))) with (id u). destruct (String.eqb (id u) i); [reflexivity|exact IH]. Qed.
Lemma step_first : forall i f s v, Names s -> First i f s -> v <> RemoveService i -> v <> Deinit -> First i f (fst (step s v)).
Proof.
  intros i f s v N H R D. unfold First, find_id in *. rewrite find_map_face in *. destruct (step_face s v N) as [(F & _)|[(j & t & h & p & sp & -> & F & _ & S)|[(j & x & -> & I & F & _ & S)|(-> & F & _)]]]; [rewrite F; exact H| | |congruence].
  - rewrite F. apply find_app_some, H.
  - rewrite F. rewrite <- find_map_face in *. destruct (find_id_in _ _ _ I) as [IX EX]. clear -H IX EX R N. pose proof (n_weak _ N) as D. induction (svcs s) as [|u l IH]; [discriminate|]. cbn [map find] in *. inversion D; subst. unfold drop_weak. cbn [filter]. destruct (Nat.eqb (weak u) (weak x)) eqn:E; cbn [negb].
    + assert (u = x). { destruct IX as [X|IX]; [exact X|]. apply Nat.eqb_eq in E. contradiction H2. rewrite E. apply in_map, IX. } subst u. destruct (String.eqb (id x) i) eqn:Q; [apply String.eqb_eq in Q; congruence|]. rewrite filter_all; [exact H|]. intros y Y. apply negb_true_iff, Nat.eqb_neq. intros Z. apply H2. rewrite <- Z. apply in_map, Y.
    + cbn [find]. destruct (String.eqb (id u) i); [exact H|]. apply IH; auto. destruct IX as [-> |IX]; [rewrite Nat.eqb_refl in E; discriminate|exact IX].
Qed.
Lemma run_first : forall i f l s, Names s -> First i f s -> ~ In (RemoveService i) l -> ~ In Deinit l -> First i f (fst (run s l)).
Proof.
  intros i f l. induction l as [|v l IH]; intros s N H R D; [exact H|]. cbn [run]. pose proof (step_names s v N) as N1. assert (F1 : First i f (fst (step s v))) by (apply step_first; auto; intros ->; [apply R|apply D]; left; reflexivity). destruct (step s v) as [s1 o1]. specialize (IH s1 N1 F1 (fun X => R (or_intror X)) (fun X => D (or_intror X))). destruct (run s1 l). exact IH.
Qed.
