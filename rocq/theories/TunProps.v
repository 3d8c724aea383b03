(** C56 tunnels are opened only when authorised and within the limits; C88 what CoAP clients learn about tunnels; C89 what the configuration calls do. *)
From Coq Require Import List Bool Arith NArith String Lia Permutation.
From Verif Require Import TunModel TunSpec TunProofs TunAsks.
Import ListNotations.
Local Open Scope string_scope.
Local Open Scope list_scope.

(** * What a verdict does *)
Lemma step_opened : forall s v x t a p, In (Opened x t a p) (snd (step s v)) -> exists n w u, v = Verdict n true true /\ find (fun e => Nat.eqb (fst e) n) (pend s) = Some (n, ForStream w x) /\ find_weak w s = Some u /\ t = ty u /\ a = addr u /\ p = port u
  /\ match get (ty u) (limits s) with Some m => by_type (ty u) (svcs s) < m | None => True end /\ snd (step s v) = [Opened x t a p].
Proof.
  intros s v x t a p H. assert (Q : forall l, ~ In (Opened x t a p) (map Stopped l)) by (intros l X; apply in_map_iff in X; destruct X as (c & E & _); discriminate). destruct v; cbn [step] in H; cbn [step].
  - exfalso. unfold add_service in H. destruct host; [|destruct H as [H|[]]; discriminate]. destruct a1, a2, lst; cbn [negb] in H; try (destruct (existsb _ (svcs s))); destruct H as [H|[]]; discriminate.
  - exfalso. unfold remove_service in H. destruct (find_id i s); cbn [snd] in H; [|destruct H as [H|[]]; discriminate]. apply in_app_or in H. destruct H as [H|[H|[]]]; [exact (Q _ H)|discriminate].
  - exfalso. cbn [deinit snd] in H. apply in_flat_map in H. destruct H as (u & _ & H). exact (Q _ H).
  - exfalso. unfold limit in H. destruct (int_max <? n)%N; [|destruct a0]; destruct H as [H|[]]; discriminate.
  - exfalso. unfold add_meta in H. destruct (find_id i s); destruct H as [H|[]]; discriminate.
  - exfalso. unfold rem_meta in H. destruct (find_id i s); destruct H as [H|[]]; discriminate.
  - exfalso. unfold incoming in H. destruct (find_port p0 s); [destruct a0|destruct H]; destruct H as [H|[]]; discriminate.
  - exfalso. unfold list_services in H. destruct a0; destruct H as [H|[]]; discriminate.
  - exfalso. unfold get_service in H. destruct (find_id i s); [destruct a0|]; destruct H as [H|[]]; discriminate.
  - unfold verdict in *. destruct (find _ (pend s)) as [[m y]|] eqn:F; [|destruct H]. pose proof (find_fst _ _ _ _ F). subst m. destruct y; [|exfalso; destruct H as [H|[]]; discriminate|].
    + unfold stream_verdict in *. change (find_weak w (set_pend (filter (fun x => negb (Nat.eqb (fst x) n)) (pend s)) s)) with (find_weak w s) in *. destruct (find_weak w s) as [u|] eqn:FW; [|exfalso; destruct H as [H|[]]; discriminate]. destruct allow; cbn [negb] in *; [|exfalso; destruct H as [H|[]]; discriminate]. flds.
      destruct (get (ty u) (limits s)) as [m|] eqn:G.
      * destruct (Nat.leb m (by_type (ty u) (svcs s))) eqn:L; [exfalso; destruct H as [H|[]]; discriminate|]. destruct a0; cbn [negb] in *; [|exfalso; destruct H as [H|[]]; discriminate]. apply Nat.leb_gt in L. destruct H as [H|[]]. inversion H; subst. exists n, w, u. rewrite G. repeat split; auto.
      * destruct a0; cbn [negb] in *; [|exfalso; destruct H as [H|[]]; discriminate]. destruct H as [H|[]]. inversion H; subst. exists n, w, u. rewrite G. repeat split; auto.
    + exfalso. unfold get_verdict in H. destruct allow; cbn [negb] in H; [destruct (find_id i _)|]; destruct H as [H|[]]; discriminate.
  - destruct H.
Qed.
Lemma step_answer : forall s v r b, In (Answer r b) (snd (step s v)) -> (exists c, b = Code c) \/
  (exists n, v = Verdict n true true /\ In (n, ForList r) (pend s) /\ b = Ids (map id (svcs s))) \/
  (exists n i u, v = Verdict n true true /\ In (n, ForGet i r) (pend s) /\ find_id i s = Some u /\ b = Info (id u) (ty u) (addr u) (port u) (sport u) (meta u)).
Proof.
  intros s v r b H. assert (Q : forall l, ~ In (Answer r b) (map Stopped l)) by (intros l X; apply in_map_iff in X; destruct X as (c & E & _); discriminate). destruct v; cbn [step] in H.
  - exfalso. unfold add_service in H. destruct host; [|destruct H as [H|[]]; discriminate]. destruct a1, a2, lst; cbn [negb] in H; try (destruct (existsb _ (svcs s))); destruct H as [H|[]]; discriminate.
  - exfalso. unfold remove_service in H. destruct (find_id i s); cbn [snd] in H; [|destruct H as [H|[]]; discriminate]. apply in_app_or in H. destruct H as [H|[H|[]]]; [exact (Q _ H)|discriminate].
  - exfalso. cbn [deinit snd] in H. apply in_flat_map in H. destruct H as (u & _ & H). exact (Q _ H).
  - exfalso. unfold limit in H. destruct (int_max <? n)%N; [|destruct a]; destruct H as [H|[]]; discriminate.
  - exfalso. unfold add_meta in H. destruct (find_id i s); destruct H as [H|[]]; discriminate.
  - exfalso. unfold rem_meta in H. destruct (find_id i s); destruct H as [H|[]]; discriminate.
  - exfalso. unfold incoming in H. destruct (find_port p s); [destruct a|destruct H]; destruct H as [H|[]]; discriminate.
  - left. unfold list_services in H. destruct a; destruct H as [H|[]]; inversion H. eauto.
  - left. unfold get_service in H. destruct (find_id i s); [destruct a|]; destruct H as [H|[]]; inversion H; eauto.
  - unfold verdict in *. destruct (find _ (pend s)) as [[m y]|] eqn:F; [|destruct H]. pose proof (find_fst _ _ _ _ F). subst m. apply find_some in F. destruct F as [F _]. destruct y.
    + exfalso. unfold stream_verdict in *. destruct (find_weak w _) as [u|]; [destruct allow; cbn [negb] in H; [match type of H with context [if ?b then _ else _] => destruct b end; [|destruct a; cbn [negb] in H]|]|]; destruct H as [H|[]]; discriminate.
    + cbn [list_verdict snd] in H. destruct H as [H|[]]. inversion H; subst. destruct allow; cbn [negb]; [destruct a; cbn [negb]|]; eauto. right. left. exists n. flds. auto.
    + unfold get_verdict in H. change (find_id i (set_pend (filter (fun x => negb (Nat.eqb (fst x) n)) (pend s)) s)) with (find_id i s) in H. destruct allow; cbn [negb] in H; [|left; destruct H as [H|[]]; inversion H; eauto]. destruct (find_id i s) as [u|] eqn:I; [|left; destruct H as [H|[]]; inversion H; eauto]. destruct H as [H|[]]. inversion H; subst. destruct a; cbn [negb]; [|eauto]. right. right. exists n, i, u. auto.
  - destruct H.
Qed.

Ltac nodup := repeat match goal with |- _ /\ _ => split | |- _ = _ => reflexivity | |- NoDup [] => apply NoDup_nil | |- NoDup (_ :: _) => apply NoDup_cons | |- ~ _ => let H := fresh in intros H; repeat (destruct H as [H|H]; [discriminate H|]); destruct H end.
(** * C56 *)
(** A tunnel is opened only when the application allowed it: it was asked with the connection the stream came on, the action TcpTunnel:Connect and the identifier and type of the service; the request has that one question; the stream came to the port of that service, and the tunnel goes to its address and port. *)
Theorem C56_authorised : forall l s o v x t a p, run init l = (s, o) -> In (Opened x t a p) (snd (step s v)) ->
  exists n conn i sp, v = Verdict n true true /\ In (Ask n {| q_conn := conn; q_action := "TcpTunnel:Connect"; q_attrs := about i t |}) o /\ (forall q, In (Ask n q) o -> q = {| q_conn := conn; q_action := "TcpTunnel:Connect"; q_attrs := about i t |})
    /\ In (Incoming sp conn x true) l /\ In (AddService i t (Some a) p true true (Some sp)) l /\ In i (present l).
Proof.
  intros l s o v x t a p R H. pose proof (run_all l) as A. rewrite R in A. destruct A as (N & A & K). destruct (step_opened _ _ _ _ _ _ H) as (n & w & u & -> & F & W & -> & -> & -> & _ & _). apply find_some in F. destruct F as [F _]. destruct (k_why _ _ _ K n _ F) as (_ & sp & conn & i & t & I & Q & U). destruct (find_weak_in _ _ _ W) as [IU WU]. destruct (U u IU WU) as (<- & <- & <-).
  exists n, conn, (id u), (sport u). split; [reflexivity|]. split; [exact Q|]. split; [|split; [exact I|split; [apply A, IU|]]].
  - intros q Hq. pose proof (k_once _ _ _ K) as D. clear -D Q Hq. induction o as [|e o IH]; [destruct Q|]. cbn [asked flat_map] in D. fold (asked o) in D. assert (X : forall q, In (Ask n q) o -> In n (asked o)) by (intros q' H'; apply in_flat_map; exists (Ask n q'); split; [exact H'|left; reflexivity]).
    destruct Q as [-> |Q], Hq as [E|Hq].
    + inversion E. reflexivity.
    + inversion D; subst. contradiction H1. eapply X; eauto.
    + subst e. inversion D; subst. contradiction H1. eapply X; eauto.
    + apply IH; auto. destruct (nodup_app _ _ _ D). assumption.
  - rewrite present_run, R. apply in_map, IU.
Qed.
Print Assumptions C56_authorised.

(** If the application set a limit for a type, opening a tunnel never takes the number of open tunnels of that type above it. (Streams have names of their own.) *)
Theorem C56_limit : forall l s o v x t a p m, run init l = (s, o) -> NoDup (streams (l ++ [v])) -> In (Opened x t a p) (snd (step s v)) -> limit_of t l = Some m ->
  of_type t (ledger (history init (l ++ [v]))) <= m.
Proof.
  intros l s o v x t a p m R N H L. assert (ND : NoDup (streams l)) by (rewrite streams_app in N; apply (nodup_app _ _ _ N)). destruct (step_opened _ _ _ _ _ _ H) as (n & w & u & -> & F & W & -> & -> & -> & G & S). pose proof (ledger_type l (ty u) ND) as T. pose proof (limits_run l (ty u)) as M. rewrite R in T, M. cbn [fst] in *. rewrite M, L in G.
  unfold ledger in *. rewrite history_app, fold_left_app, R. cbn [fst history]. set (L0 := fold_left ledger1 (history init l) []) in *. destruct (step s (Verdict n true true)) as [s' o']. cbn [snd] in S. subst o'. cbn [map app fold_left ledger1]. unfold of_type in *. rewrite filter_app, app_length. cbn [filter snd]. rewrite String.eqb_refl. cbn [List.length]. lia.
Qed.
Print Assumptions C56_limit.

(** An authorised stream is not refused while its service is there, the limit is not reached and there is memory. *)
Lemma step_keep : forall s v n y, In (n, y) (pend s) -> (forall b c, v <> Verdict n b c) -> In (n, y) (pend (fst (step s v))).
Proof.
  intros s v n y H V. destruct v; cbn [step]; try assumption.
  - unfold add_service. destruct host; [|auto]. destruct a1, a2, lst; cbn [negb]; try (destruct (existsb _ (svcs s))); cbn [fst]; flds; auto.
  - unfold remove_service. destruct (find_id i s); cbn [fst]; flds; auto.
  - unfold limit. destruct (int_max <? n0)%N; [|destruct a]; cbn; auto.
  - unfold add_meta. destruct (find_id i s); cbn [fst]; flds; auto.
  - unfold rem_meta. destruct (find_id i s); cbn [fst]; flds; auto.
  - unfold incoming. destruct (find_port p s) as [u|]; [|auto]. destruct a; [|auto]. cbn [asking fst]. flds. right. exact H.
  - unfold list_services. destruct a; [|auto]. cbn [asking fst]. flds. right. exact H.
  - unfold get_service. destruct (find_id i s) as [u|]; [|auto]. destruct a; [|auto]. cbn [asking fst]. flds. right. exact H.
  - unfold verdict. destruct (find _ (pend s)) as [[m z]|]; [|auto]. set (t := set_pend (filter (fun x => negb (Nat.eqb (fst x) n0)) (pend s)) s) in *. assert (X : In (n, y) (pend t)). { apply filter_In. split; [exact H|]. cbn [fst]. destruct (Nat.eqb n n0) eqn:E; [|reflexivity]. apply Nat.eqb_eq in E. subst. exfalso. apply (V allow a). reflexivity. } clearbody t. destruct z; [|auto|].
    + unfold stream_verdict. destruct (find_weak w t); [|auto]. destruct allow; [|auto]. cbn [negb]. match goal with |- context [if ?b then _ else _] => destruct b end; [auto|]. destruct a; [|auto]. cbn [negb fst]. flds. auto.
    + unfold get_verdict. destruct allow; [|auto]. cbn [negb]. destruct (find_id i t); auto.
Qed.
Lemma step_stays : forall s v f, Names s -> In f (map face (svcs s)) -> v <> RemoveService (fid f) -> v <> Deinit -> In f (map face (svcs (fst (step s v)))).
Proof.
  intros s v f N H R D. destruct (step_face s v N) as [(F & _)|[(j & t & h & p & sp & -> & F & _ & S)|[(j & x & -> & I & F & _ & S)|(-> & F & _)]]]; [rewrite F; exact H|rewrite F; apply in_or_app; left; exact H| |congruence].
  rewrite F. apply in_map_iff in H. destruct H as (u & <- & H). apply in_map. apply filter_In. split; [exact H|]. apply negb_true_iff, Nat.eqb_neq. intros E. destruct (find_id_in _ _ _ I) as [IX EX]. assert (u = x) by (apply (uniq_weak s); auto). subst. apply R. reflexivity.
Qed.
Lemma run_stays : forall l s n y f, Names s -> In (n, y) (pend s) -> In f (map face (svcs s)) -> (forall b c, ~ In (Verdict n b c) l) -> ~ In (RemoveService (fid f)) l -> ~ In Deinit l ->
  In (n, y) (pend (fst (run s l))) /\ In f (map face (svcs (fst (run s l)))) /\ Names (fst (run s l)).
Proof.
  induction l as [|v l IH]; intros s n y f N P F V R D; [auto|]. cbn [run]. assert (P1 := step_keep s v n y P (fun b c X => V b c (or_introl X))). assert (F1 := step_stays s v f N F (fun X => R (or_introl X)) (fun X => D (or_introl X))). pose proof (step_names s v N) as N1. destruct (step s v) as [s1 o1]. cbn [fst] in *. specialize (IH s1 n y f N1 P1 F1 (fun b c X => V b c (or_intror X)) (fun X => R (or_intror X)) (fun X => D (or_intror X))). destruct (run s1 l). exact IH.
Qed.
Lemma find_pend : forall (p : list (nat * why)) n y, NoDup (map fst p) -> In (n, y) p -> find (fun e => Nat.eqb (fst e) n) p = Some (n, y).
Proof.
  induction p as [|[m z] p IH]; intros n y N H; [destruct H|]. cbn [map fst find] in *. inversion N; subst. destruct H as [H|H]; [inversion H; subst; rewrite Nat.eqb_refl; reflexivity|]. destruct (Nat.eqb m n) eqn:E; [apply Nat.eqb_eq in E; subst; contradiction H2; apply (in_map fst) in H; exact H|]. apply IH; auto.
Qed.
Lemma find_weak_some : forall s u, Names s -> In u (svcs s) -> find_weak (weak u) s = Some u.
Proof.
  intros s u N H. unfold find_weak. destruct (find _ (svcs s)) as [v|] eqn:F; [|exfalso; pose proof (find_none _ _ F u H) as X; cbn in X; rewrite Nat.eqb_refl in X; discriminate]. apply find_some in F. destruct F as [F E]. apply Nat.eqb_eq in E. f_equal. apply (uniq_weak s); auto.
Qed.
Theorem C56_granted : forall l1 l2 p conn x n i t s, let before := fst (run init l1) in
  snd (step before (Incoming p conn x true)) = [Ask n {| q_conn := conn; q_action := "TcpTunnel:Connect"; q_attrs := about i t |}] ->
  let l := l1 ++ Incoming p conn x true :: l2 in NoDup (streams l) -> fst (run init l) = s ->
  (forall b c, ~ In (Verdict n b c) l2) -> ~ In (RemoveService i) l2 -> ~ In Deinit l2 ->
  match limit_of t l with Some m => of_type t (ledger (history init l)) < m | None => True end ->
  exists a po, snd (step s (Verdict n true true)) = [Opened x t a po].
Proof.
  intros l1 l2 p conn x n i t s before Q l ND R V RM D LIM. pose proof (run_names l1 init init_names) as N. fold before in N. pose proof (limits_run l t) as ML. pose proof (ledger_type l t ND) as TL. rewrite R in ML, TL. 
  subst l. rewrite run_app in R. destruct (run init l1) as [s1 o1] eqn:R1. subst before. cbn [fst run] in *.
  cbn [step] in *. unfold incoming in *. destruct (find_port p s1) as [u|] eqn:FP; [|discriminate]. cbn [asking fst snd] in *. inversion Q as [[Q1 Q2 Q3]]. destruct (find_port_in _ _ _ FP) as [IU PU].
  set (s2 := {| svcs := svcs s1; limits := limits s1; wkc := wkc s1; pend := (nask s1, ForStream (weak u) x) :: pend s1; nask := S (nask s1); lost := lost s1 |}) in *.
  assert (N2 : Names s2) by (exact (names_ask s1 {| q_conn := 0; q_action := ""; q_attrs := [] |} (ForStream (weak u) x) N)).
  assert (RMU : ~ In (RemoveService (fid (face u))) l2) by (change (fid (face u)) with (id u); rewrite Q2; exact RM).
  rewrite <- Q1 in V. pose proof (run_stays l2 s2 (nask s1) (ForStream (weak u) x) (face u) N2 (or_introl eq_refl) (in_map face _ _ IU) V RMU D) as (P3 & F3 & N3).
  clearbody s2. destruct (run s2 l2) as [s3 o3]. cbn [fst] in *. subst s3. apply in_map_iff in F3. destruct F3 as (u' & E & U'). assert (EW : weak u' = weak u) by (unfold face in E; inversion E; auto). assert (ET : ty u' = ty u) by (unfold face in E; inversion E; auto).
  exists (addr u'), (port u'). unfold verdict. rewrite (find_pend _ _ _ (n_pend _ N3) P3). unfold stream_verdict. change (find_weak (weak u) (set_pend (filter (fun x0 => negb (Nat.eqb (fst x0) (nask s1))) (pend s)) s)) with (find_weak (weak u) s). rewrite <- EW, (find_weak_some s u' N3 U'). cbn [negb]. flds. rewrite ET, Q3, ML.
  destruct (limit_of t (l1 ++ Incoming p conn x true :: l2)) as [m|]; [|reflexivity]. rewrite TL in LIM. destruct (Nat.leb m (by_type t (svcs s))) eqn:LB; [apply Nat.leb_le in LB; lia|reflexivity].
Qed.
Print Assumptions C56_granted.

(** Each stream which came to the port of a service is waiting for a verdict, or was opened or destroyed, once. *)
Theorem C56_streams : forall l1 l2 p conn x a u, let l := l1 ++ Incoming p conn x a :: l2 in find_port p (fst (run init l1)) = Some u -> NoDup (streams l) ->
  let (s, o) := run init l in settled x o + waits_stream x s = 1.
Proof.
  intros l1 l2 p conn x a u l F ND. pose proof (run_fate x l init init_names) as H. pose proof (arrs_le x l init) as B. pose proof (proj1 (NoDup_count_occ Nat.eq_dec _) ND x) as C. destruct (run init l) as [s o]. destruct H as [H _]. change (waits_stream x init) with 0 in H.
  assert (X : 1 <= arrs x init l). { subst l. clear -F. set (s := init) in *. clearbody s. revert s F. induction l1 as [|v l1 IH]; intros s F; cbn [app arrs run fst] in *; [cbn [arr]; rewrite F, Nat.eqb_refl; cbn; lia|]. destruct (step s v) as [s1 o1] eqn:E. cbn [fst]. specialize (IH s1). destruct (run s1 l1). cbn [fst] in *. specialize (IH F). lia. }
  lia.
Qed.
Print Assumptions C56_streams.

(** Every open tunnel is one of a service which is there: the stream came to its port and the application, asked about that service, allowed it. So removing a service stops all tunnels through it. *)
Definition Open (l : list op) (o : list out) (s : st) : Prop := forall u c, In u (svcs s) -> In c (conns u) ->
  exists conn n, In (Incoming (sport u) conn c true) l /\ In (Ask n {| q_conn := conn; q_action := "TcpTunnel:Connect"; q_attrs := about (id u) (ty u) |}) o /\ In (Verdict n true true) l.
Lemma in_upd2 : forall w f l u, In u (upd_weak w f l) -> exists x, In x l /\ ((u = x /\ weak x <> w) \/ (u = f x /\ weak x = w)).
Proof. intros w f l u H. unfold upd_weak in H. apply in_map_iff in H. destruct H as (x & E & H). exists x. split; [exact H|]. destruct (Nat.eqb (weak x) w) eqn:Q; [apply Nat.eqb_eq in Q|apply Nat.eqb_neq in Q]; auto. Qed.
Lemma step_conns : forall s v u c, In u (svcs (fst (step s v))) -> In c (conns u) ->
  exists u', In u' (svcs s) /\ face u' = face u /\ (In c (conns u') \/ exists n, v = Verdict n true true /\ In (n, ForStream (weak u) c) (pend s)).
Proof.
  intros s v u c U C. assert (SAME : In u (svcs s) -> exists u', In u' (svcs s) /\ face u' = face u /\ (In c (conns u') \/ exists n, v = Verdict n true true /\ In (n, ForStream (weak u) c) (pend s))) by (intros X; exists u; auto).
  destruct v; cbn [step] in U; try (exact (SAME U)).
  - unfold add_service in U. destruct host; [|exact (SAME U)]. destruct a1, a2, lst; cbn [negb] in U; try (destruct (existsb _ (svcs s))); cbn [fst] in U; flds; try (exact (SAME U)). apply in_app_or in U. destruct U as [U|[U|[]]]; [exact (SAME U)|]. subst u. destruct C.
  - unfold remove_service in U. destruct (find_id i s); cbn [fst] in U; flds; [|exact (SAME U)]. apply filter_In in U. apply SAME, U.
  - destruct U.
  - unfold limit in U. destruct (int_max <? n)%N; [|destruct a]; exact (SAME U).
  - unfold add_meta in U. destruct (find_id i s); cbn [fst] in U; flds; [|exact (SAME U)]. apply in_upd2 in U. destruct U as (z & X & [[-> _]|[-> _]]); exists z; auto.
  - unfold rem_meta in U. destruct (find_id i s); cbn [fst] in U; flds; [|exact (SAME U)]. apply in_upd2 in U. destruct U as (z & X & [[-> _]|[-> _]]); exists z; auto.
  - unfold incoming in U. destruct (find_port p s); [destruct a|]; exact (SAME U).
  - unfold list_services in U. destruct a; exact (SAME U).
  - unfold get_service in U. destruct (find_id i s); [destruct a|]; exact (SAME U).
  - unfold verdict in U. destruct (find _ (pend s)) as [[m y]|] eqn:F; [|exact (SAME U)]. pose proof (find_fst _ _ _ _ F). subst m. apply find_some in F. destruct F as [F _]. destruct y; [|exact (SAME U)|].
    + unfold stream_verdict in U. destruct (find_weak w _); [|exact (SAME U)]. destruct allow; [|exact (SAME U)]. cbn [negb] in U. match type of U with context [if ?b then _ else _] => destruct b end; [exact (SAME U)|]. destruct a; [|exact (SAME U)]. cbn [negb fst] in U. flds. apply in_upd2 in U. destruct U as (x & X & [[-> _]|[-> W]]); exists x; split; auto. flds. split; [reflexivity|]. apply in_app_or in C. destruct C as [C|[<- |[]]]; [auto|]. right. exists n. subst w. auto.
    + unfold get_verdict in U. destruct allow; [|exact (SAME U)]. cbn [negb] in U. destruct (find_id i _); exact (SAME U).
  - cbn [conn_end fst] in U. flds. apply in_map_iff in U. destruct U as (x & <- & X). flds. apply filter_In in C. exists x. split; [exact X|]. split; [reflexivity|]. left. apply C.
Qed.
Lemma face_inv : forall u v, face u = face v -> weak u = weak v /\ id u = id v /\ ty u = ty v /\ sport u = sport v. Proof. intros u v H. unfold face in H. inversion H. auto. Qed.
Lemma run_open : forall l, let (s, o) := run init l in Open l o s.
Proof.
  intros l. induction l as [|v l IH] using rev_ind; [intros u c []|]. rewrite run_app. pose proof (run_all l) as A. destruct (run init l) as [s o]. destruct A as (N & A & K). cbn [run]. pose proof (step_conns s v) as SC. destruct (step s v) as [s' o']. cbn [fst] in *. rewrite app_nil_r. intros u c U C. destruct (SC u c U C) as (u' & U' & F & [C'|(n & -> & P)]); destruct (face_inv _ _ F) as (H0 & H1 & H2 & H5).
  - destruct (IH u' c U' C') as (conn & n & A1 & A2 & A3). exists conn, n. rewrite <- H1, <- H2, <- H5. repeat split; apply in_or_app; auto.
  - destruct (k_why _ _ _ K n _ P) as (_ & p & conn & i & t & A1 & A2 & A3). destruct (A3 u' U' H0) as (<- & <- & <-). exists conn, n. rewrite <- H1, <- H2, <- H5. repeat split; apply in_or_app; auto. right. left. reflexivity.
Qed.
Theorem C56_open : forall l s o c t, run init l = (s, o) -> NoDup (streams l) -> In (c, t) (ledger (history init l)) ->
  exists i sp conn n a p, In i (present l) /\ In (AddService i t (Some a) p true true (Some sp)) l /\ In (Incoming sp conn c true) l /\ In (Ask n {| q_conn := conn; q_action := "TcpTunnel:Connect"; q_attrs := about i t |}) o /\ In (Verdict n true true) l.
Proof.
  intros l s o c t R ND H. pose proof (ledger_run l ND) as P. pose proof (run_open l) as O. pose proof (run_all l) as A. pose proof (present_run l) as PR. rewrite R in *. cbn [fst] in *. destruct A as (N & A & _). apply (Permutation_in _ P) in H. apply in_flat_map in H. destruct H as (u & U & H). apply in_map_iff in H. destruct H as (c' & E & C). inversion E; subst. destruct (O u c U C) as (conn & n & A1 & A2 & A3).
  exists (id u), (sport u), conn, n, (addr u), (port u). split; [rewrite PR; apply in_map, U|]. auto.
Qed.
Print Assumptions C56_open.

(** A stream which waits for a verdict when its service is removed is never opened, even if a service with the same identifier is added afterwards. (Identifiers of services are used once before.) *)
Definition Own (n : nat) (y : why) (s : st) : Prop := n < nask s /\ forall z, In (n, z) (pend s) -> z = y.
Lemma step_own : forall n y s v, Own n y s -> Own n y (fst (step s v)).
Proof.
  intros n y s v [L O]. destruct (step_asked s v) as [[_ E]|[_ E]]; (split; [lia|]); intros z H; destruct (step_pend s v n z H) as [H'|[H' _]]; auto; lia.
Qed.
Lemma run_own : forall n y l s, Own n y s -> Own n y (fst (run s l)).
Proof. intros n y l. induction l as [|v l IH]; intros s O; [exact O|]. cbn [run]. pose proof (step_own n y s v O) as O1. destruct (step s v) as [s1 o1]. specialize (IH s1 O1). destruct (run s1 l). exact IH. Qed.
Lemma run_origin : forall l s u, Names s -> In u (svcs (fst (run s l))) -> weak u <= wkc s -> exists u', In u' (svcs s) /\ face u' = face u.
Proof.
  induction l as [|v l IH]; intros s u N H W; [eauto|]. cbn [run] in H. pose proof (step_names s v N) as N1. pose proof (step_wkc s v N) as W1. pose proof (fun x => step_origin s v x N) as O. destruct (step s v) as [s1 o1]. cbn [fst] in *. specialize (IH s1 u N1). destruct (run s1 l). cbn [fst] in *. destruct (IH H ltac:(lia)) as (u1 & U1 & F1). destruct (O u1 U1) as [(u2 & U2 & F2)|[F2 _]]; [exists u2; split; [exact U2|congruence]|]. unfold face in F1. inversion F1. lia.
Qed.
Lemma uniq_id : forall l (u v : svc), NoDup (map id l) -> In u l -> In v l -> id u = id v -> u = v.
Proof.
  induction l as [|x l IH]; intros u v D H1 H2 E; [destruct H1|]. cbn [map] in D. inversion D; subst. destruct H1 as [-> |H1], H2 as [-> |H2]; auto.
  - contradiction H3. rewrite E. apply in_map, H2. - contradiction H3. rewrite <- E. apply in_map, H1.
Qed.
Theorem C56_removed : forall l1 l2 l3 p conn x n i t, 
  snd (step (fst (run init l1)) (Incoming p conn x true)) = [Ask n {| q_conn := conn; q_action := "TcpTunnel:Connect"; q_attrs := about i t |}] ->
  NoDup (added (l1 ++ Incoming p conn x true :: l2)) -> In i (present (l1 ++ Incoming p conn x true :: l2)) ->
  let s := fst (run init ((l1 ++ Incoming p conn x true :: l2) ++ RemoveService i :: l3)) in
  forall b a y t' ad po, ~ In (Opened y t' ad po) (snd (step s (Verdict n b a))).
Proof.
  intros l1 l2 l3 p conn x n i t Q ND PR s b a y t' ad po H. pose proof (added_once _ ND) as NI. pose proof (run_names (l1 ++ Incoming p conn x true :: l2) init init_names) as N2. rewrite present_run in PR. pose proof (run_names l1 init init_names) as N. subst s. rewrite run_app in H.
  assert (X : exists w, Own n (ForStream w x) (fst (run init (l1 ++ Incoming p conn x true :: l2))) /\ w <= wkc (fst (run init (l1 ++ Incoming p conn x true :: l2))) /\ forall u, In u (svcs (fst (run init (l1 ++ Incoming p conn x true :: l2)))) -> weak u = w -> id u = i).
  { rewrite run_app. pose proof (run_all l1) as ALL. destruct (run init l1) as [s1 o1]. destruct ALL as (_ & _ & K). cbn [fst run] in *. cbn [step] in *. unfold incoming in *. destruct (find_port p s1) as [u|] eqn:FP; [|discriminate]. cbn [asking fst snd] in *. inversion Q as [[Q1 Q2 Q3]]. destruct (find_port_in _ _ _ FP) as [IU PU].
    set (s2 := {| svcs := svcs s1; limits := limits s1; wkc := wkc s1; pend := (nask s1, ForStream (weak u) x) :: pend s1; nask := S (nask s1); lost := lost s1 |}) in *.
    assert (NS2 : Names s2) by (exact (names_ask s1 {| q_conn := 0; q_action := ""; q_attrs := [] |} (ForStream (weak u) x) N)). exists (weak u).
    assert (OW : Own (nask s1) (ForStream (weak u) x) s2). { split; [cbn; lia|]. intros z [E|E]; [inversion E; reflexivity|]. pose proof (n_nask _ N _ E) as L. cbn [fst] in L. lia. }
    pose proof (run_own _ _ l2 s2 OW) as OW2. pose proof (fun u' => run_origin l2 s2 u' NS2) as OR. pose proof (n_wkc _ N u IU) as LW. assert (WK : wkc s2 = wkc s1) by reflexivity. assert (MONO : forall l s, Names s -> wkc s <= wkc (fst (run s l))) by (clear; induction l as [|v l IH]; intros s N; [cbn; lia|]; cbn [run]; pose proof (step_names s v N) as N1; pose proof (step_wkc s v N) as W1; destruct (step s v) as [s1 o1]; specialize (IH s1 N1); destruct (run s1 l); cbn [fst] in *; lia).
    pose proof (MONO l2 s2 NS2) as M. assert (S2 : svcs s2 = svcs s1) by reflexivity. clearbody s2. destruct (run s2 l2) as [s3 o3]. cbn [fst] in *. split; [exact OW2|]. split; [lia|]. intros u' U' W'. destruct (OR u' U' ltac:(lia)) as (u2 & U2 & F2). rewrite S2 in U2. unfold face in F2. inversion F2. assert (u2 = u) by (apply (uniq_weak s1); auto; congruence). subst u2. congruence. }
  destruct X as (w & OW & LW & IDW). destruct (run init (l1 ++ Incoming p conn x true :: l2)) as [s2 o2]. cbn [fst snd run] in *.
  assert (G : Gone w (fst (step s2 (RemoveService i)))). { cbn [step]. unfold remove_service. destruct (find_id i s2) as [r|] eqn:FI. - cbn [fst]. split; [exact LW|]. flds. intros u U E. apply filter_In in U. destruct U as [U NE]. destruct (find_id_in _ _ _ FI) as [IR ER]. assert (u = r) by (apply (uniq_id (svcs s2)); auto; rewrite (IDW u U E); auto). subst. rewrite Nat.eqb_refl in NE. discriminate. - exfalso. apply in_map_iff in PR. destruct PR as (u & E & U). pose proof (find_none _ _ FI u U) as Z. cbn in Z. rewrite E, String.eqb_refl in Z. discriminate. }
  pose proof (step_names s2 (RemoveService i) N2) as N3. pose proof (step_own _ _ s2 (RemoveService i) OW) as O3. destruct (step s2 (RemoveService i)) as [s3 o3]. cbn [fst] in *. pose proof (run_gone w l3 s3 N3 G) as G4. pose proof (run_own _ _ l3 s3 O3) as O4. destruct (run s3 l3) as [s4 o4]. cbn [fst] in *.
  destruct (step_opened _ _ _ _ _ _ H) as (m & w' & u & E & F & W & _). inversion E; subst. apply find_some in F. destruct F as [F _]. pose proof (proj2 O4 _ F) as Y. inversion Y; subst. destruct (find_weak_in _ _ _ W) as [U WU]. exact (proj2 G4 u U WU).
Qed.
Print Assumptions C56_removed.

(** But the limit counts the tunnels of the services there are: when a service is removed, its tunnels take a while to end and are not counted. *)
Definition two_alive : list op := [AddService "a" "ssh" (Some 1) 22 true true (Some 1); Limit "ssh" 1 true; Incoming 1 7 100 true; Verdict 0 true true; RemoveService "a"; AddService "b" "ssh" (Some 1) 22 true true (Some 1); Incoming 1 7 101 true; Verdict 1 true true].
Theorem C56_alive_refuted : exists l t m, NoDup (streams l) /\ limit_of t l = Some m /\ m < of_type t (alive (history init l)).
Proof. exists two_alive, "ssh", 1. split; [vm_compute; nodup|]. split; [reflexivity|]. vm_compute. auto. Qed.
Print Assumptions C56_alive_refuted.

Definition opened3 : list op := [AddService "a" "ssh" (Some 1) 22 true true (Some 1); AddService "b" "http" (Some 2) 80 true true (Some 2); Limit "ssh" 2 true; Incoming 1 7 100 true; Incoming 2 8 101 true; Incoming 1 9 102 true; Verdict 1 true true; Verdict 0 true true].
Example C56_ex_open : let (s, o) := run init opened3 in snd (step s (Verdict 2 true true)) = [Opened 102 "ssh" 1 22] /\ limit_of "ssh" opened3 = Some 2 /\ NoDup (streams opened3)
  /\ ledger (history init opened3) = [(101, "http"); (100, "ssh")] /\ of_type "ssh" (ledger (history init (opened3 ++ [Verdict 2 true true]))) = 2 /\ waits_stream 102 s = 1.
Proof. vm_compute. nodup. Qed.
Example C56_ex_refused : let (s, o) := run init (opened3 ++ [Verdict 2 true true; Incoming 1 7 103 true]) in snd (step s (Verdict 3 true true)) = [Destroyed 103] /\ snd (step s (RemoveService "a")) = [Stopped 100; Stopped 102; Result Ok].
Proof. vm_compute. split; reflexivity. Qed.

(** * C88 *)
(** The list of services is sent only to a client for which the application allowed TcpTunnel:ListServices, and it has the services there are. *)
Theorem C88_list : forall l s o v r ids, run init l = (s, o) -> In (Answer r (Ids ids)) (snd (step s v)) ->
  exists n conn, v = Verdict n true true /\ In (ListServices conn r true) l /\ In (Ask n {| q_conn := conn; q_action := "TcpTunnel:ListServices"; q_attrs := [] |}) o /\ ids = present l.
Proof.
  intros l s o v r ids R H. pose proof (run_all l) as A. pose proof (present_run l) as PR. rewrite R in *. destruct A as (N & A & K). cbn [fst] in PR. destruct (step_answer _ _ _ _ H) as [(c & E)|[(n & -> & P & E)|(n & i & u & _ & _ & _ & E)]]; [discriminate| |discriminate]. destruct (k_why _ _ _ K n _ P) as (conn & A1 & A2). exists n, conn. inversion E. repeat split; auto.
Qed.
Print Assumptions C88_list.
(** What is sent about a service is about the identifier the client asked for, the application allowed TcpTunnel:GetService or TcpTunnel:Connect for that identifier and some type, and a service with those data was added. *)
Theorem C88_info_partial : forall l s o v r i t a p sp m, run init l = (s, o) -> In (Answer r (Info i t a p sp m)) (snd (step s v)) ->
  exists n conn con t', v = Verdict n true true /\ In (GetService con i conn r true) l /\ In (Ask n {| q_conn := conn; q_action := if con : bool then "TcpTunnel:Connect" else "TcpTunnel:GetService"; q_attrs := about i t' |}) o
    /\ In (AddService i t (Some a) p true true (Some sp)) l /\ In i (present l).
Proof.
  intros l s o v r i t a p sp m R H. pose proof (run_all l) as A. pose proof (present_run l) as PR. rewrite R in *. destruct A as (N & A & K). cbn [fst] in PR. destruct (step_answer _ _ _ _ H) as [(c & E)|[(n & -> & P & E)|(n & j & u & -> & P & F & E)]]; [discriminate|discriminate|]. inversion E; subst. destruct (find_id_in _ _ _ F) as [U J]. subst j. destruct (k_why _ _ _ K n _ P) as (con & conn & t' & A1 & A2). exists n, conn, con, t'. repeat split; auto. rewrite PR; apply in_map, U.
Qed.
Print Assumptions C88_info_partial.
(** The type is the one the application allowed, unless a service with that identifier was removed before the verdict. *)
Theorem C88_info_same_partial : forall l1 l2 con i conn r n t t' a p sp m,
  snd (step (fst (run init l1)) (GetService con i conn r true)) = [Ask n {| q_conn := conn; q_action := if con : bool then "TcpTunnel:Connect" else "TcpTunnel:GetService"; q_attrs := about i t |}] ->
  ~ In (RemoveService i) l2 -> ~ In Deinit l2 ->
  let s := fst (run init (l1 ++ GetService con i conn r true :: l2)) in
  forall b c r', In (Answer r' (Info i t' a p sp m)) (snd (step s (Verdict n b c))) -> t' = t /\ r' = r.
Proof.
  intros l1 l2 con i conn r n t t' a p sp m Q RM D s b c r' H. subst s. rewrite run_app in H. pose proof (run_names l1 init init_names) as N. destruct (run init l1) as [s1 o1]. cbn [fst run] in *. cbn [step] in Q, H. unfold get_service in *. destruct (find_id i s1) as [u|] eqn:F; [|discriminate]. cbn [asking fst snd] in *. inversion Q as [[Q1 Q2 Q3]].
  set (s2 := {| svcs := svcs s1; limits := limits s1; wkc := wkc s1; pend := (nask s1, ForGet i r) :: pend s1; nask := S (nask s1); lost := lost s1 |}) in *.
  assert (N2 : Names s2) by (exact (names_ask s1 {| q_conn := 0; q_action := ""; q_attrs := [] |} (ForGet i r) N)).
  assert (F2 : First i (face u) s2) by (unfold First; change (find_id i s2) with (find_id i s1); rewrite F; reflexivity).
  assert (OW : Own (nask s1) (ForGet i r) s2). { split; [cbn; lia|]. intros z [E|E]; [inversion E; reflexivity|]. pose proof (n_nask _ N _ E) as L. cbn [fst] in L. lia. }
  pose proof (run_first _ _ l2 s2 N2 F2 RM D) as F3. pose proof (run_own _ _ l2 s2 OW) as O3. clearbody s2. destruct (run s2 l2) as [s3 o3]. cbn [fst] in *.
  change (verdict n b c s3) with (step s3 (Verdict n b c)) in H. destruct (step_answer _ _ _ _ H) as [(k & E)|[(k & _ & _ & E)|(k & j & x & V & P & I & E)]]; [discriminate|discriminate|]. inversion V; subst. pose proof (proj2 O3 _ P) as Y. inversion Y; subst. inversion E; subst. unfold First in F3. destruct (find_id_in _ _ _ I) as [_ EI]. rewrite EI in *. 
  match type of F3 with context [find_id ?j s3] => assert (Z : find_id j s3 = Some x) by congruence end. rewrite Z in F3. cbn [option_map] in F3. unfold face in F3. inversion F3. split; congruence.
Qed.
Print Assumptions C88_info_same_partial.
(** Otherwise the client may be told about a service of a type the application was never asked about: the service is looked up again by its identifier after the verdict. *)
Definition swapped : list op := [AddService "a" "http" (Some 1) 80 true true (Some 1); GetService false "a" 7 50 true; RemoveService "a"; AddService "a" "ssh" (Some 9) 22 true true (Some 2)].
Theorem C88_info_refuted : exists l s o n r i t a p sp m, run init l = (s, o) /\ In (Answer r (Info i t a p sp m)) (snd (step s (Verdict n true true))) /\ forall k q, In (Ask k q) o -> ~ In ("TcpTunnel:ServiceType", t) (q_attrs q).
Proof.
  exists swapped. destruct (run init swapped) as [s o] eqn:R. exists s, o. exists 0, 50, "a", "ssh", 9, 22, 2, []. vm_compute in R. inversion R; subst. split; [reflexivity|]. split; [left; reflexivity|]. intros k q H. repeat (destruct H as [H|H]; [try discriminate; inversion H; subst; cbn; intros [X|[X|[]]]; discriminate|]). destruct H.
Qed.
Print Assumptions C88_info_refuted.
(** Each request is answered once, at the latest when the application gives its verdict. *)
Theorem C88_once : forall l s o r, run init l = (s, o) -> NoDup (requests l) -> In r (requests l) -> answers r o + waits_request r s = 1.
Proof.
  intros l s o r R ND H. pose proof (run_fate r l init init_names) as F. rewrite R in F. destruct F as [_ F]. rewrite nasks_count in F. rewrite (proj1 (NoDup_count_occ' Nat.eq_dec _) ND r H) in F. unfold waits_request at 2 in F. cbn in F. exact F.
Qed.
Print Assumptions C88_once.
Example C88_ex : let l := [AddService "a" "http" (Some 1) 80 true true (Some 1); AddMeta "a" "k" "v" true; GetService true "a" 7 50 true; ListServices 7 51 true; GetService false "b" 7 52 true] in let (s, o) := run init l in
  snd (step s (Verdict 0 true true)) = [Answer 50 (Info "a" "http" 1 80 1 [("k", "v")])] /\ snd (step s (Verdict 1 true true)) = [Answer 51 (Ids ["a"])] /\ snd (step s (Verdict 1 false true)) = [Answer 51 (Code 403)] /\ answers 52 o = 1 /\ waits_request 50 s = 1 /\ NoDup (requests l).
Proof. vm_compute. nodup. Qed.

(** * C89 *)
(** A call which reports that there is no such service changes nothing, and it does so exactly when there is none. *)
Theorem C89_not_found : forall l s o v i, run init l = (s, o) -> v = RemoveService i \/ (exists k x a, v = AddMeta i k x a) \/ (exists k, v = RemMeta i k) ->
  (snd (step s v) = [Result NotFound] <-> ~ In i (present l)) /\ (snd (step s v) = [Result NotFound] -> fst (step s v) = s).
Proof.
  intros l s o v i R V. pose proof (present_run l) as PR. rewrite R in PR. cbn [fst] in PR. rewrite PR.
  assert (X : find_id i s = None <-> ~ In i (map id (svcs s))). { split; [intros F I; apply in_map_iff in I; destruct I as (u & E & U); pose proof (find_none _ _ F u U) as Z; cbn in Z; rewrite E, String.eqb_refl in Z; discriminate|]. intros NI. destruct (find_id i s) as [u|] eqn:F; [|reflexivity]. destruct (find_id_in _ _ _ F) as [U E]. contradiction NI. rewrite <- E. apply in_map, U. }
  destruct V as [-> |[(k & x & a & ->)|(k & ->)]]; cbn [step]; [unfold remove_service|unfold add_meta|unfold rem_meta]; (destruct (find_id i s) as [u|]; cbn [fst snd]; [split; [split; [intros E; exfalso|intros E; exfalso; rewrite <- X in E; discriminate]|intros E; exfalso]|split; [split; [intros _; apply X; reflexivity|reflexivity]|reflexivity]]).
  all: try discriminate. all: unfold stop_all in E; destruct (conns u); cbn in E; discriminate.
Qed.
Print Assumptions C89_not_found.
(** Adding a service adds that service and nothing else, and a failure leaves the services, the limits and the requests as they were. *)
Theorem C89_add : forall l s o i t h p a b c, run init l = (s, o) -> let v := AddService i t h p a b c in let s' := fst (step s v) in
  limits s' = limits s /\ pend s' = pend s /\ ((snd (step s v) = [Result Ok] /\ present (l ++ [v]) = present l ++ [i]) \/ (exists e, e <> Ok /\ snd (step s v) = [Result e] /\ svcs s' = svcs s)).
Proof.
  intros l s o i t h p a b c R v s'. subst v s'. rewrite !present_run, run_app, R. cbn [run fst]. cbn [step]. unfold add_service. destruct h; [|cbn; repeat split; right; exists InvalidArgument; repeat split; discriminate]. destruct a, b; cbn [negb]; try (cbn; repeat split; right; exists OutOfMemory; repeat split; discriminate). destruct c; [|cbn; repeat split; right; exists NoListener; repeat split; discriminate]. destruct (existsb _ (svcs s)); [cbn; repeat split; right; exists NoListener; repeat split; discriminate|].
  cbn [fst snd]. flds. repeat split. left. split; [reflexivity|]. rewrite map_app. reflexivity.
Qed.
Print Assumptions C89_add.
(** The limits in force are the ones the application set last; a limit for one type leaves the others. *)
Theorem C89_limit : forall l t, get t (limits (fst (run init l))) = limit_of t l.
Proof. exact limits_run. Qed.
Print Assumptions C89_limit.
(** The metadata set last is what clients are told, if there was memory for it; other metadata is left. *)
Lemma get_snoc : forall (k k' : string) (x : string) m, get k' (erase k m ++ [(k, x)]) = if String.eqb k k' then Some x else get k' m.
Proof.
  intros k k' x m. unfold get, erase. induction m as [|[a y] m IH]; [cbn; destruct (String.eqb k k'); reflexivity|]. cbn [filter fst]. destruct (String.eqb a k) eqn:E; cbn [negb app find fst].
  - rewrite IH. apply String.eqb_eq in E. subst. destruct (String.eqb k k'); reflexivity.
  - destruct (String.eqb a k') eqn:E2; [|exact IH]. apply String.eqb_eq in E2. subst. rewrite String.eqb_sym in E. rewrite E. reflexivity.
Qed.
Lemma find_upd : forall i w f l u, NoDup (map weak l) -> (forall v, face (f v) = face v) -> find (fun v => String.eqb (id v) i) l = Some u -> weak u = w -> find (fun v => String.eqb (id v) i) (upd_weak w f l) = Some (f u).
Proof.
  intros i w f l u. induction l as [|v l IH]; intros N H F W; [discriminate|]. cbn [map find upd_weak] in *. inversion N; subst. assert (IV : id (f v) = id v) by (specialize (H v); unfold face in H; inversion H; auto). destruct (Nat.eqb (weak v) (weak u)) eqn:Q.
  - rewrite IV. destruct (String.eqb (id v) i); [inversion F; reflexivity|]. apply Nat.eqb_eq in Q. apply find_some in F. contradiction H2. rewrite Q. apply in_map, F.
  - destruct (String.eqb (id v) i); [inversion F; subst; rewrite Nat.eqb_refl in Q; discriminate|]. apply IH; auto.
Qed.
Theorem C89_metadata_partial : forall l s o i k x conn r, run init l = (s, o) -> In i (present l) ->
  let ask2 (s : st) := step (fst (step s (GetService false i conn r true))) (Verdict (nask s) true true) in
  exists t a p sp m m', snd (ask2 s) = [Answer r (Info i t a p sp m)] /\ snd (ask2 (fst (step s (AddMeta i k x true)))) = [Answer r (Info i t a p sp m')] /\ forall k', get k' m' = if String.eqb k k' then Some x else get k' m.
Proof.
  intros l s o i k x conn r R I. rewrite present_run, R in I. pose proof (run_names l init init_names) as N. rewrite R in N. cbn [fst] in *. destruct (find_id i s) as [u|] eqn:F. 2: { exfalso. apply in_map_iff in I. destruct I as (u & E & U). pose proof (find_none _ _ F u U) as Z. cbn in Z. rewrite E, String.eqb_refl in Z. discriminate. }
  assert (G : forall s' u', find_id i s' = Some u' -> snd (step (fst (step s' (GetService false i conn r true))) (Verdict (nask s') true true)) = [Answer r (Info (id u') (ty u') (addr u') (port u') (sport u') (meta u'))]).
  { intros s' u' F'. cbn [step]. unfold get_service. rewrite F'. cbn [asking fst]. unfold verdict. flds. cbn [find fst]. rewrite Nat.eqb_refl. unfold get_verdict. cbn [negb]. match goal with |- context [find_id i ?q] => change (find_id i q) with (find_id i s') end. rewrite F'. reflexivity. }
  rewrite (G s u F). assert (F2 : find_id i (fst (step s (AddMeta i k x true))) = Some (with_meta (erase k (meta u) ++ [(k, x)]) u)). { cbn [step]. unfold add_meta. rewrite F. cbn [fst]. unfold find_id. flds. apply find_upd; auto. apply (n_weak _ N). }
  rewrite (G _ _ F2). destruct (find_id_in _ _ _ F) as [_ <-]. exists (ty u), (addr u), (port u), (sport u), (meta u), (erase k (meta u) ++ [(k, x)]). repeat split. intros k'. apply get_snoc.
Qed.
Print Assumptions C89_metadata_partial.
(** When memory runs out: adding metadata reports success although the old value is gone and the new one is not there, *)
Theorem C89_metadata_refuted : exists l s o i k, run init l = (s, o) /\ snd (step s (AddMeta i k "new" false)) = [Result Ok] /\
  exists u u', find_id i s = Some u /\ get k (meta u) = Some "old" /\ find_id i (fst (step s (AddMeta i k "new" false))) = Some u' /\ get k (meta u') = None.
Proof.
  exists [AddService "a" "http" (Some 1) 80 true true (Some 1); AddMeta "a" "k" "old" true]. destruct (run init _) as [s o] eqn:R. exists s, o, "a", "k". vm_compute in R. inversion R; subst. split; [reflexivity|]. split; [reflexivity|]. eexists _, _. repeat split; reflexivity.
Qed.
Print Assumptions C89_metadata_refuted.
(** setting a limit fails but the old limit is gone, so that an unlimited number of tunnels may be opened, *)
Theorem C89_limit_refuted : exists l t, let (s, o) := run init l in limit_of t l = Some 1 /\ snd (step s (Limit t 0 false)) = [Result OutOfMemory] /\ get t (limits (fst (step s (Limit t 0 false)))) = None.
Proof. exists [Limit "ssh" 1 true], "ssh". repeat split; reflexivity. Qed.
Print Assumptions C89_limit_refuted.
(** and adding a service fails but its memory is not given back, not even when the device is freed. *)
Theorem C89_leak_refuted : exists l, let (s, o) := run init l in o = [Result OutOfMemory] /\ svcs s = [] /\ lost s <> [] /\ forall l2, lost (fst (run s l2)) <> [].
Proof.
  exists [AddService "a" "ssh" (Some 1) 22 true false None; Deinit]. cbn [run step add_service negb app]. repeat split; try discriminate.
  assert (G : forall l s, lost s <> [] -> lost (fst (run s l)) <> []).
  { induction l as [|v l IH]; intros s H; [exact H|]. cbn [run]. assert (S : lost (fst (step s v)) = lost s \/ exists w, lost (fst (step s v)) = w :: lost s).
    { destruct v; cbn [step]; auto.
      - unfold add_service. destruct host; [|auto]. destruct a1, a2, lst; cbn [negb]; try (destruct (existsb _ (svcs s))); cbn [fst]; flds; eauto.
      - unfold remove_service. destruct (find_id i s); auto.
      - unfold limit. destruct (int_max <? n)%N; [|destruct a]; auto.
      - unfold add_meta. destruct (find_id i s); auto.
      - unfold rem_meta. destruct (find_id i s); auto.
      - unfold incoming. destruct (find_port p s); [destruct a|]; auto.
      - unfold list_services. destruct a; auto.
      - unfold get_service. destruct (find_id i s); [destruct a|]; auto.
      - unfold verdict. destruct (find _ (pend s)) as [[m z]|]; [|auto]. set (t := set_pend (filter (fun x => negb (Nat.eqb (fst x) n)) (pend s)) s) in *. change (lost s) with (lost t). clearbody t. destruct z; [|auto|].
        + unfold stream_verdict. destruct (find_weak w t); [|auto]. destruct allow; [|auto]. cbn [negb]. match goal with |- context [if ?b then _ else _] => destruct b end; [auto|]. destruct a; auto.
        + unfold get_verdict. destruct allow; [|auto]. cbn [negb]. destruct (find_id i t); auto. }
    destruct (step s v) as [s1 o1]. cbn [fst] in S. assert (H1 : lost s1 <> []) by (destruct S as [-> |(w & ->)]; [exact H|discriminate]). specialize (IH s1 H1). destruct (run s1 l). exact IH. }
  intros l2. apply G. discriminate.
Qed.
Print Assumptions C89_leak_refuted.
Example C89_ex : let l := [AddService "a" "http" (Some 1) 80 true true (Some 1); AddService "b" "ssh" (Some 1) 22 true true (Some 1); AddService "b" "ssh" None 22 true true (Some 3); RemoveService "b"; Limit "http" 3 true; Limit "ssh" 5000000000 true] in
  snd (run init l) = [Result Ok; Result NoListener; Result InvalidArgument; Result NotFound; Result Ok; Result Ok] /\ present l = ["a"] /\ limit_of "http" l = Some 3 /\ limit_of "ssh" l = None.
Proof. vm_compute. repeat split; reflexivity. Qed.
