(** C57, C86, C87: tunnel connections. *)
From Coq Require Import List Bool Arith NArith Lia.
From Verif Require Import RlyModel RlySpec RlyProofs RlyEnds RlyStop.
Import ListNotations.

(** C57: the bytes passed to one side are always a prefix of the bytes which arrived from the other. *)
Theorem C57_relay : forall i ok gone l s o, run (start i ok gone) l = (s, o) -> prefix (to_service o) (from_client o) /\ prefix (to_client o) (from_service o).
Proof.
  intros i ok gone l s o E. pose proof (run_inv l i ok gone) as I. rewrite E in I. unfold Inv in I. destruct (live s).
  - destruct I as [C _]. split; [rewrite (c_gots _ _ _ _ C)|rewrite (c_gott _ _ _ _ C)]; eexists; reflexivity.
  - tauto.
Qed.
Print Assumptions C57_relay.
Definition ex_relay : list ev := [Connected; Run 0 true; TcpData [1; 2]; StrData [7]; TcpReady; Run 1 true; Run 0 true; TcpDrained; StrWritten Ok; Run 1 true; Run 0 true; TcpData [3]].
Example C57_ex_relay : forall i, let o := snd (run (start i true false) ex_relay) in to_service o = [7] /\ from_client o = [7] /\ to_client o = [1; 2] /\ prefix [1; 2] (from_service o).
Proof. intros i. destruct i; vm_compute; repeat split; eauto. Qed.

(** C57: it is released at most once, an event is never used after that, and it is released when it has ended. *)
Theorem C57_once : forall i ok gone l s o, run (start i ok gone) l = (s, o) -> releases o <= 1 /\ (releases o = 1 <-> live s = false) /\ crashed s = false.
Proof.
  intros i ok gone l s o E. pose proof (run_inv l i ok gone) as I. rewrite E in I. unfold Inv in I. destruct (live s).
  - destruct I as [C _]. rewrite (c_rel _ _ _ _ C), (c_crash _ _ _ _ C). split; [lia|]. split; [split; discriminate|reflexivity].
  - destruct I as (I1 & I2 & _). rewrite I1, I2. split; [lia|]. split; [tauto|reflexivity].
Qed.
Print Assumptions C57_once.
Definition ex_end : list ev := [Connected; Run 0 true; TcpData [1; 2]; TcpReady; Run 0 true; StrWritten Ok; Run 0 true; TcpEof; Run 0 true; StrClosed Ok; Run 0 true; StrEnd Eof; Run 0 true; Run 0 true].
Example C57_ex_once : forall i, let (s, o) := run (start i true false) ex_end in releases o = 1 /\ live s = false /\ In CloseStr o /\ In ShutTcp o.
Proof. intros i. destruct i; vm_compute; auto 20. Qed.

Lemma all_zero : forall s, cT s - b2n (tre s) = 0 -> cS s - b2n (sre s) = 0 -> idle s /\ posted s = [].
Proof.
  intros s T S. unfold cT, cS, idle in *. split.
  - repeat split; [destruct (sk_conn s)|destruct (sk_read s)|destruct (sk_write s)|destruct (st_read s)|destruct (st_write s)|destruct (st_close s)]; cbn [b2n] in *; try reflexivity; lia.
  - destruct (posted s) as [|[k e] p]; [reflexivity|]. exfalso. unfold cnt in *. cbn [filter fst] in *. destruct k; cbn [opk_eqb length] in *; lia.
Qed.
Lemma one_left : forall n (p : list (opk * ec)) x, nth_error p n = Some x -> remove_nth n p = [] -> p = [x].
Proof. intros [|n] [|y p] x H R; try discriminate; cbn in *; congruence. Qed.
Lemma rel_ended : forall s, In Released (snd (is_ended s)) -> tre s = true /\ sre s = true. Proof. intros s H. unfold is_ended in H. destruct (tre s), (sre s); cbn in H; tauto. Qed.
Lemma rel_tre : forall s, In Released (snd (abort_tre s)) -> sre s = true.
Proof.
  intros s H. unfold abort_tre in H. cbn [abort_connection] in H. destruct (is_ended (upd_tre true (str_stop (tcp_abort s)))) as [s' o] eqn:E. cbn [snd] in H. destruct H as [H|[H|H]]; try discriminate.
  pose proof (rel_ended (upd_tre true (str_stop (tcp_abort s)))) as R. rewrite E in R. destruct (R H) as [_ X]. change (sre (str_stop (tcp_abort s)) = true) in X. destruct (ends_str_stop (tcp_abort s)) as [_ Y]. destruct (ends_tcp_abort s) as [_ Z]. congruence.
Qed.
Lemma rel_sre : forall s, In Released (snd (abort_sre s)) -> tre s = true.
Proof.
  intros s H. unfold abort_sre in H. cbn [abort_connection] in H. destruct (is_ended (upd_sre true (str_stop (tcp_abort s)))) as [s' o] eqn:E. cbn [snd] in H. destruct H as [H|[H|H]]; try discriminate.
  pose proof (rel_ended (upd_sre true (str_stop (tcp_abort s)))) as R. rewrite E in R. destruct (R H) as [X _]. change (tre (str_stop (tcp_abort s)) = true) in X. destruct (ends_str_stop (tcp_abort s)) as [Y _]. destruct (ends_tcp_abort s) as [Z _]. congruence.
Qed.
(** C57: it is released by its last completion, when no other operation is outstanding. *)
Theorem C57_release_idle : forall i ok gone l s o v, run (start i ok gone) l = (s, o) -> In Released (snd (step s v)) ->
  exists n b k e, v = Run n b /\ posted s = [(k, e)] /\ idle s.
Proof.
  intros i ok gone l s o v E R. pose proof (run_inv l i ok gone) as I. rewrite E in I. unfold step in R. destruct (live s) eqn:L; cbn [negb] in R; [|destruct R].
  unfold Inv in I. rewrite L in I. destruct I as [C T].
  destruct v; cbn [snd] in R; try (cbn in R; tauto).
  - destruct (fin s); cbn in R; [tauto|]. destruct R as [R|[]]. discriminate.
  - destruct (input s); cbn in R; tauto.
  - destruct (im s); cbn in R; tauto.
  - destruct (st_read s && _ && _); cbn in R; [|tauto]. destruct R as [R|[]]. discriminate.
  - destruct (st_read s && negb (is_ok e)); cbn in R; tauto.
  - cbn in R. destruct R as [R|[R|[]]]; discriminate.
  - destruct (nth_error (posted s) n) as [[k e]|] eqn:N; [|destruct R]. exists n, ok0, k, e. split; [reflexivity|].
    pose proof (pop_core n k e o s N C) as P. set (s1 := upd_posted (remove_nth n (posted s)) s) in *.
    assert (F : idle s1 /\ posted s1 = [] -> posted s = [(k, e)] /\ idle s) by (intros [X Y]; split; [apply (one_left n); auto|exact X]). apply F.
    pose proof (c_t _ _ _ _ P) as PT. pose proof (c_s _ _ _ _ P) as PS.
    assert (Z1 : sre s1 = true -> inT k = 0 -> idle s1 /\ posted s1 = []). { intros X Y. apply all_zero; rewrite ?X; cbn [b2n]; [lia|]. destruct k; cbn [inT inS] in *; lia. }
    assert (Z2 : tre s1 = true -> inS k = 0 -> idle s1 /\ posted s1 = []). { intros X Y. apply all_zero; rewrite ?X; cbn [b2n]; [|lia]. destruct k; cbn [inT inS] in *; lia. }
    destruct k; cbn [callback] in R.
    + unfold connect_callback in R. destruct (is_ok e); [destruct R|]. apply all_zero; cbn [inT inS] in *; lia.
    + apply Z1; [|reflexivity]. unfold tcp_readen in R. destruct (Nat.eqb (rlen s1) 0 || is_eof e); [cbn [snd] in R; destruct (stopped s1); cbn in R; [tauto|]; destruct R as [R|[]]; discriminate|]. destruct (is_ok e); [cbn [snd] in R; destruct R as [R|[]]; discriminate|]. apply rel_tre, R.
    + apply Z2; [|reflexivity]. unfold tcp_written in R. destruct (is_ok e); [destruct R|]. apply rel_sre, R.
    + apply Z2; [|reflexivity]. unfold stream_readen in R. destruct (Nat.eqb (srs s1) 0 || is_eof e).
      * pose proof (rel_ended (upd_sre true s1)) as X. destruct (is_ended (upd_sre true s1)) as [s2 o2]. cbn [snd] in *. destruct R as [R|R]; [discriminate|]. apply X, R.
      * destruct (is_ok e); [cbn [snd] in R; destruct R as [R|[]]; discriminate|]. apply rel_sre, R.
    + apply Z1; [|reflexivity]. unfold stream_written in R. destruct (is_ok e); [destruct R|]. apply rel_tre, R.
    + apply Z1; [|reflexivity]. unfold stream_closed in R. destruct (rel_ended _ R) as [_ X]. exact X.
Qed.
Print Assumptions C57_release_idle.
Example C57_ex_release_idle : forall i, let (s, o) := run (start i true false) (firstn 12 ex_end) in In Released (snd (step s (Run 0 true))).
Proof. intros i. destruct i; vm_compute; auto. Qed.

(** C57: until then something is outstanding: it never sits forgotten. *)
Theorem C57_never_forgotten : forall i ok gone l s o, run (start i ok gone) l = (s, o) -> live s = true -> ~ (idle s /\ posted s = []).
Proof.
  intros i ok gone l s o E L (D & P). pose proof (run_inv l i ok gone) as I. rewrite E in I. unfold Inv in I. rewrite L in I. destruct I as [C T]. destruct D as (I1 & I2 & I3 & I4 & I5 & I6).
  pose proof (c_t _ _ _ _ C) as X. pose proof (c_s _ _ _ _ C) as Y. unfold cT, cS in *. rewrite P, I1, I2, I3, I4, I5, I6 in *. cbn in X, Y. destruct (tre s), (sre s); cbn in *; try lia; discriminate.
Qed.
Print Assumptions C57_never_forgotten.
Example C57_ex_never_forgotten : forall i, live (fst (run (start i true false) ex_relay)) = true.
Proof. intros i. destruct i; vm_compute; reflexivity. Qed.

(** C86 fails: when the connection to the service fails before any byte was read, the client sees a clean end of the data. Bytes which had arrived from the service are lost without a sign. *)
Definition ex_reset : list ev := [Connected; Run 0 true; TcpData [1; 2; 3]; TcpError; Run 0 true].
Theorem C86_service_refuted : forall i, exists l, ~ In TcpEof l /\ In TcpError l /\ (let o := snd (run (start i true false) l) in In CloseStr o /\ from_service o = [1; 2; 3] /\ to_client o = []).
Proof. intros i. exists ex_reset. split; [cbn; intuition discriminate|]. split; [cbn; auto|]. destruct i; vm_compute; auto 20. Qed.
Print Assumptions C86_service_refuted.
(** C86 fails: when the stream of the client is aborted, or its connection is lost, the service sees a clean end of the data. *)
Theorem C86_client_refuted : forall i, exists l, ~ (exists e, In (StrEnd e) l) /\ In StrGone l /\ (let o := snd (run (start i true false) l) in In ShutTcp o /\ ~ In AbortTcp o).
Proof.
  intros i. exists [Connected; Run 0 true; StrGone; Run 0 true]. split; [intros [e H]; cbn in H; intuition discriminate|]. split; [cbn; auto|]. destruct i; vm_compute; (split; [auto 20|intuition discriminate]).
Qed.
Print Assumptions C86_client_refuted.
Theorem C86_abort_refuted : forall i, exists l, ~ In (StrEnd Eof) l /\ In (StrEnd Fail) l /\ (let o := snd (run (start i true false) l) in In ShutTcp o /\ ~ In AbortTcp o).
Proof.
  intros i. exists [Connected; Run 0 true; StrEnd Fail; Run 0 true]. split; [cbn; intuition discriminate|]. split; [cbn; auto|]. destruct i; vm_compute; (split; [auto 20|intuition discriminate]).
Qed.
Print Assumptions C86_abort_refuted.

(** C86, what holds: the client is told that the data has ended only if the service has closed and every byte of it has been passed on, or if the connection to the service
    has failed and not one byte was passed on. *)
Theorem C86_close_partial : forall i ok gone l s o v, run (start i ok gone) l = (s, o) -> In CloseStr (snd (step s v)) ->
  (In TcpEof l /\ from_service o = to_client o) \/ (In TcpError l /\ to_client o = []).
Proof.
  intros i ok gone l s o v E R. pose proof (run_inv l i ok gone) as I. pose proof (run_why l i ok gone) as W. rewrite E in I, W. unfold step in R. destruct (live s) eqn:L; cbn [negb] in R; [|destruct R].
  unfold Inv in I. rewrite L in I. destruct I as [C T].
  assert (NE : forall s, ~ In CloseStr (snd (is_ended s))) by (intros t X; unfold is_ended in X; destruct (tre t && sre t); cbn in X; intuition discriminate).
  assert (NT : forall s, ~ In CloseStr (snd (abort_tre s))) by (intros t X; unfold abort_tre in X; cbn [abort_connection] in X; pose proof (NE (upd_tre true (str_stop (tcp_abort t)))) as Y; destruct (is_ended _); cbn in *; intuition discriminate).
  assert (NS : forall s, ~ In CloseStr (snd (abort_sre s))) by (intros t X; unfold abort_sre in X; cbn [abort_connection] in X; pose proof (NE (upd_sre true (str_stop (tcp_abort t)))) as Y; destruct (is_ended _); cbn in *; intuition discriminate).
  destruct v; cbn [snd] in R; try (cbn in R; tauto).
  - destruct (fin s); cbn in R; [tauto|]. destruct R as [R|[]]. discriminate.
  - destruct (input s); cbn in R; tauto.
  - destruct (im s); cbn in R; tauto.
  - destruct (st_read s && _ && _); cbn in R; [|tauto]. destruct R as [R|[]]. discriminate.
  - destruct (st_read s && negb (is_ok e)); cbn in R; tauto.
  - cbn in R. destruct R as [R|[R|[]]]; discriminate.
  - destruct (nth_error (posted s) n) as [[k e]|] eqn:N; [|destruct R].
    pose proof (pop_core n k e o s N C) as P. pose proof (w_just _ _ _ W (k, e) (nth_error_In _ _ N)) as J. set (s1 := upd_posted (remove_nth n (posted s)) s) in *.
    destruct k; cbn [callback] in R.
    + unfold connect_callback in R. destruct (is_ok e); [destruct R|]. cbn in R. destruct R as [R|[]]. discriminate.
    + unfold tcp_readen in R. destruct (Nat.eqb (rlen s1) 0 || is_eof e) eqn:Z.
      * change (rlen s1) with (rlen s) in Z. cbn [snd] in R. change (stopped s1) with (stopped s) in R. destruct (stopped s) eqn:ST; [destruct R|]. clear R.
        assert (OV : is_ok e = true -> rlen s <> 0) by (intros K; apply (c_okt _ _ _ _ C); rewrite (okev_remove TcpRead _ _ _ _ N), K; reflexivity).
        assert (IO : is_ok e = false) by (destruct e; auto; cbn [is_eof] in Z; rewrite orb_false_r in Z; apply Nat.eqb_eq in Z; exfalso; apply (OV eq_refl Z)).
        destruct (is_eof e) eqn:EE.
        -- left. destruct e; try discriminate. cbn [just] in J. destruct J as (J1 & J2 & J3). split; [exact J1|].
           unfold moved in P. cbn [is_ok] in P. rewrite app_nil_r in P. pose proof (c_gott _ _ _ _ P) as G. pose proof (c_t _ _ _ _ P) as X. unfold cT in X. cbn [inT] in X. rewrite okev_cnt in G by lia. change (input s1) with (input s) in G. rewrite J2 in G. rewrite app_nil_r in G. exact G.
        -- right. rewrite orb_false_r in Z. apply Nat.eqb_eq in Z. assert (J' : In TcpError l \/ stopped s = true) by (destruct e; try discriminate; exact J). destruct J' as [J'|J']; [|congruence]. split; [exact J'|].
           destruct (to_client o) eqn:TC; [reflexivity|]. exfalso. apply (w_rlen _ _ _ W); [congruence|exact Z].
      * destruct (is_ok e); [cbn [snd] in R; destruct R as [R|[]]; discriminate|]. contradiction (NT _ R).
    + unfold tcp_written in R. destruct (is_ok e); [destruct R|]. contradiction (NS _ R).
    + unfold stream_readen in R. destruct (Nat.eqb (srs s1) 0 || is_eof e).
      * pose proof (NE (upd_sre true s1)) as X. destruct (is_ended (upd_sre true s1)) as [s2 o2]. cbn [snd] in *. destruct R as [R|R]; [discriminate|]. contradiction (X R).
      * destruct (is_ok e); [cbn [snd] in R; destruct R as [R|[]]; discriminate|]. contradiction (NS _ R).
    + unfold stream_written in R. destruct (is_ok e); [destruct R|]. contradiction (NT _ R).
    + unfold stream_closed in R. contradiction (NE _ R).
Qed.
Print Assumptions C86_close_partial.
Example C86_ex_close : forall i, let (s, o) := run (start i true false) (firstn 8 ex_end) in In CloseStr (snd (step s (Run 0 true))) /\ to_client o = [1; 2].
Proof. intros i. destruct i; vm_compute; auto. Qed.

(** C86, what holds: when the service has closed, and the stream still stands, the client is told, and it has all the bytes. *)
Theorem C86_eof_passed : forall i ok gone l s o n b, run (start i ok gone) l = (s, o) -> live s = true -> nth_error (posted s) n = Some (TcpRead, Eof) -> stopped s = false ->
  snd (step s (Run n b)) = [CloseStr] /\ to_client o = from_service o.
Proof.
  intros i ok gone l s o n b E L N ST. assert (R : snd (step s (Run n b)) = [CloseStr]).
  { unfold step. rewrite L, N. cbn [negb callback tcp_readen is_eof]. unfold tcp_readen. cbn [is_eof]. rewrite orb_true_r. cbn [snd]. change (stopped (upd_posted (remove_nth n (posted s)) s)) with (stopped s). rewrite ST. reflexivity. }
  split; [exact R|]. pose proof (run_inv l i ok gone) as I. pose proof (run_why l i ok gone) as W. rewrite E in I, W. unfold Inv in I. rewrite L in I. destruct I as [C T].
  destruct (w_just _ _ _ W _ (nth_error_In _ _ N)) as (_ & J2 & _). pose proof (pop_core n _ _ o s N C) as P. unfold moved in P. cbn [is_ok] in P. rewrite app_nil_r in P. pose proof (c_gott _ _ _ _ P) as G. pose proof (c_t _ _ _ _ P) as X. unfold cT in X. cbn [inT] in X. rewrite okev_cnt in G by lia. flds. rewrite J2, app_nil_r in G. auto.
Qed.
Print Assumptions C86_eof_passed.
Example C86_ex_eof : forall i, let s := fst (run (start i true false) (firstn 8 ex_end)) in live s = true /\ nth_error (posted s) 0 = Some (TcpRead, Eof) /\ stopped s = false.
Proof. intros i. destruct i; vm_compute; auto. Qed.

Definition told (x : bool) (l : list ev) (o : list out) : Prop := x = true \/ In StrGone l \/ In StopStr o.
Lemma sto_end : forall s, live (fst (is_ended s)) = true -> stopped (fst (is_ended s)) = stopped s. Proof. intros s H. unfold is_ended in *. destruct (tre s && sre s); [discriminate|reflexivity]. Qed.
Lemma sto_step : forall s v, live (fst (step s v)) = true -> stopped (fst (step s v)) = true -> stopped s = true \/ v = StrGone \/ In StopStr (snd (step s v)).
Proof.
  intros s v L S. unfold step in *. destruct (live s); cbn [negb] in *; [|left; exact S]. destruct v; cbn [fst snd] in *.
  - left. destruct (ab_fail_conn Ok s) as (_ & X & _). congruence.
  - destruct (fin s); left; exact S.
  - left. destruct (ab_take s). congruence.
  - left. destruct (input s); [|exact S]. cbn [fst] in *. destruct (ab_fail_read Eof (fail_conn Eof (upd_fin s))) as (_ & X & _). destruct (ab_fail_conn Eof (upd_fin s)) as (_ & Y & _). change (stopped (upd_fin s)) with (stopped s) in Y. congruence.
  - left. destruct (im s); cbn [fst] in *.
    + destruct (ab_fail_read Aborted (fail_conn Aborted (upd_fin s))) as (_ & X & _). destruct (ab_fail_conn Aborted (upd_fin s)) as (_ & Y & _). change (stopped (upd_fin s)) with (stopped s) in Y. congruence.
    + destruct (ab_fail_write Fail (fail_read Fail (fail_conn Aborted (upd_fin s)))) as (_ & V). destruct (ab_fail_read Fail (fail_conn Aborted (upd_fin s))) as (_ & X & _). destruct (ab_fail_conn Aborted (upd_fin s)) as (_ & Y & _). change (stopped (upd_fin s)) with (stopped s) in Y. congruence.
  - left. destruct (ab_fail_write Ok s). congruence.
  - left. destruct (st_read s && _ && _); exact S.
  - left. destruct (st_read s && negb (is_ok e)); exact S.
  - left. unfold resolve_if in S. destruct (st_write s); exact S.
  - left. unfold resolve_if in S. destruct (st_close s); exact S.
  - right. left. reflexivity.
  - right. right. cbn. auto.
  - destruct (nth_error (posted s) n) as [[k e]|]; [|left; exact S]. set (t := upd_posted (remove_nth n (posted s)) s) in *. change (stopped s) with (stopped t).
    assert (ATR : forall t, In StopStr (snd (abort_tre t))) by (intros u; unfold abort_tre; cbn [abort_connection]; destruct (is_ended _); cbn; auto).
    assert (ASR : forall t, In StopStr (snd (abort_sre t))) by (intros u; unfold abort_sre; cbn [abort_connection]; destruct (is_ended _); cbn; auto).
    assert (SR : forall t, stopped (str_read t) = stopped t) by (intros u; unfold str_read; destruct (stopped u) eqn:X; auto).
    destruct k; cbn [callback] in *.
    + unfold connect_callback in *. destruct (is_ok e); [|discriminate]. cbn [fst] in *. rewrite SR in S. destruct (ab_tcp_read t). left. congruence.
    + unfold tcp_readen in *. destruct (Nat.eqb (rlen t) 0 || is_eof e); [left; cbn [fst] in S; unfold str_close in S; destruct (stopped t) eqn:X; auto|]. destruct (is_ok e); [|right; right; apply ATR]. left. cbn [fst] in S. unfold str_write in S. destruct (stopped t) eqn:X; auto. destruct (closed t); flds; congruence.
    + unfold tcp_written in *. destruct (is_ok e); [left; cbn [fst] in S; rewrite SR in S; exact S|right; right; apply ASR].
    + unfold stream_readen in *. destruct (Nat.eqb (srs t) 0 || is_eof e).
      * left. pose proof (sto_end (upd_sre true t)) as X. destruct (is_ended (upd_sre true t)). cbn [fst] in *. rewrite X in S by exact L. exact S.
      * destruct (is_ok e); [|right; right; apply ASR]. left. cbn [fst] in S. unfold tcp_write in S. destruct (im t); [destruct ok|destruct (aborted t)]; exact S.
    + unfold stream_written in *. destruct (is_ok e); [|right; right; apply ATR]. left. cbn [fst] in S. destruct (ab_tcp_read t). congruence.
    + unfold stream_closed in *. left. rewrite (sto_end (upd_tre true t)) in S by exact L. exact S.
Qed.
Lemma live_step : forall s v, live (fst (step s v)) = true -> live s = true. Proof. intros s v H. unfold step in H. destruct (live s) eqn:L; [reflexivity|]. cbn [negb fst] in H. congruence. Qed.
Lemma run_told : forall l i ok gone s o, run (start i ok gone) l = (s, o) -> live s = true -> stopped s = true -> told gone l o.
Proof.
  induction l as [|v l IH] using rev_ind; intros i ok gone s o E L S.
  - cbn [run] in E. inversion E; subst. left. unfold start, tcp_connect in S. flds. destruct i, ok; exact S.
  - rewrite run_app in E. destruct (run (start i ok gone) l) as [s1 o1] eqn:E1. cbn [run] in E. destruct (step s1 v) as [s2 o2] eqn:E2. rewrite app_nil_r in E. inversion E; subst s2 o.
    pose proof (live_step s1 v) as LS. pose proof (sto_step s1 v) as SS. rewrite E2 in LS, SS. cbn [fst snd] in *. destruct (SS L S) as [X|[X|X]].
    + destruct (IH _ _ _ _ _ E1 (LS L) X) as [Y|[Y|Y]]; [left; exact Y|right; left; apply in_or_app; auto|right; right; apply in_or_app; auto].
    + right. left. subst. apply in_last.
    + right. right. apply in_or_app. auto.
Qed.
(** C86, what holds: the service is told that the data has ended only when every byte of the client has been passed on, and only if the stream of the client has ended, cleanly or not, or
    the connection of the client is gone, or the tunnel connection stopped it. *)
Theorem C86_shut_partial : forall i ok gone l s o v, run (start i ok gone) l = (s, o) -> In ShutTcp (snd (step s v)) ->
  from_client o = to_service o /\ ((exists e, e <> Ok /\ In (StrEnd e) l) \/ gone = true \/ In StrGone l \/ In StopStr o).
Proof.
  intros i ok gone l s o v E R. pose proof (run_inv l i ok gone) as I. pose proof (run_why l i ok gone) as W. rewrite E in I, W. unfold step in R. destruct (live s) eqn:L; cbn [negb] in R; [|destruct R].
  unfold Inv in I. rewrite L in I. destruct I as [C T].
  assert (NE : forall s, ~ In ShutTcp (snd (is_ended s))) by (intros t X; unfold is_ended in X; destruct (tre t && sre t); cbn in X; intuition discriminate).
  assert (NT : forall s, ~ In ShutTcp (snd (abort_tre s))) by (intros t X; unfold abort_tre in X; cbn [abort_connection] in X; pose proof (NE (upd_tre true (str_stop (tcp_abort t)))) as Y; destruct (is_ended _); cbn in *; intuition discriminate).
  assert (NS : forall s, ~ In ShutTcp (snd (abort_sre s))) by (intros t X; unfold abort_sre in X; cbn [abort_connection] in X; pose proof (NE (upd_sre true (str_stop (tcp_abort t)))) as Y; destruct (is_ended _); cbn in *; intuition discriminate).
  destruct v; cbn [snd] in R; try (cbn in R; tauto).
  - destruct (fin s); cbn in R; [tauto|]. destruct R as [R|[]]. discriminate.
  - destruct (input s); cbn in R; tauto.
  - destruct (im s); cbn in R; tauto.
  - destruct (st_read s && _ && _); cbn in R; [|tauto]. destruct R as [R|[]]. discriminate.
  - destruct (st_read s && negb (is_ok e)); cbn in R; tauto.
  - cbn in R. destruct R as [R|[R|[]]]; discriminate.
  - destruct (nth_error (posted s) n) as [[k e]|] eqn:N; [|destruct R].
    pose proof (pop_core n k e o s N C) as P. pose proof (w_just _ _ _ W (k, e) (nth_error_In _ _ N)) as J. set (s1 := upd_posted (remove_nth n (posted s)) s) in *.
    destruct k; cbn [callback] in R.
    + unfold connect_callback in R. destruct (is_ok e); [destruct R|]. cbn in R. destruct R as [R|[]]. discriminate.
    + unfold tcp_readen in R. destruct (Nat.eqb (rlen s1) 0 || is_eof e); [cbn [snd] in R; destruct (stopped s1); cbn in R; intuition discriminate|]. destruct (is_ok e); [cbn [snd] in R; destruct R as [R|[]]; discriminate|]. contradiction (NT _ R).
    + unfold tcp_written in R. destruct (is_ok e); [destruct R|]. contradiction (NS _ R).
    + unfold stream_readen in R. destruct (Nat.eqb (srs s1) 0 || is_eof e) eqn:Z.
      * clear R. change (srs s1) with (srs s) in Z.
        assert (OV : is_ok e = true -> srs s <> 0) by (intros K; apply (c_oks _ _ _ _ C); rewrite (okev_remove StrRead _ _ _ _ N), K; reflexivity).
        assert (IO : is_ok e = false) by (destruct e; auto; cbn [is_eof] in Z; rewrite orb_false_r in Z; apply Nat.eqb_eq in Z; exfalso; apply (OV eq_refl Z)).
        split. { unfold moved in P. rewrite IO in P. rewrite app_nil_r in P. pose proof (c_gots _ _ _ _ P) as G. pose proof (c_s _ _ _ _ P) as X. unfold cS in X. cbn [inS] in X. rewrite okev_cnt in G by lia. rewrite app_nil_r in G. exact G. }
        assert (J' : stopped s = true \/ In (StrEnd e) l) by (destruct e; try discriminate; exact J). destruct J' as [J'|J']; [right; apply (run_told l i ok gone s o E L J')|left; exists e; split; [intros ->; discriminate|exact J']].
      * destruct (is_ok e); [cbn [snd] in R; destruct R as [R|[]]; discriminate|]. contradiction (NS _ R).
    + unfold stream_written in R. destruct (is_ok e); [destruct R|]. contradiction (NT _ R).
    + unfold stream_closed in R. contradiction (NE _ R).
Qed.
Print Assumptions C86_shut_partial.
Example C86_ex_shut : forall i, let (s, o) := run (start i true false) [Connected; Run 0 true; StrData [7; 8]; Run 0 true; TcpDrained; Run 0 true; StrEnd Eof] in In ShutTcp (snd (step s (Run 0 true))) /\ to_service o = [7; 8].
Proof. intros i. destruct i; vm_compute; auto. Qed.

(** C87 fails with libevent: when a service is removed just after a tunnel connection was opened, the tunnel connection stays until the service acts, whatever else happens. *)
Definition of_tcp (v : ev) : bool := match v with TcpReady | TcpEof | TcpError => true | _ => false end.
Definition Lost (s : st) : Prop := live s = true /\ im s = Libevent /\ aborted s = true /\ stopped s = true /\ sk_conn s = false /\ sk_read s = true /\ sk_write s = false /\ st_read s = false /\ st_write s = false /\ st_close s = false /\ posted s = [].
Lemma lost_step : forall s v, Lost s -> of_tcp v = false -> Lost (fst (step s v)).
Proof.
  intros s v (L & I & A & S & C1 & C2 & C3 & C4 & C5 & C6 & P) N. unfold step. rewrite L. cbn [negb]. unfold Lost. destruct v; try discriminate; cbn [fst].
  - unfold fail_conn, resolve_if. rewrite C1. flds. tauto.
  - destruct (fin s); flds; tauto.
  - unfold fail_write, resolve_if. rewrite C3. flds. tauto.
  - rewrite C4. cbn [andb fst]. tauto.
  - rewrite C4. cbn [andb fst]. tauto.
  - rewrite C5. unfold resolve_if. flds. tauto.
  - rewrite C6. unfold resolve_if. flds. tauto.
  - unfold str_stop. rewrite S. tauto.
  - rewrite (abort_id s A S). cbn [fst]. tauto.
  - rewrite P. destruct n; cbn [nth_error fst]; tauto.
Qed.
Lemma lost_run : forall l s, Lost s -> (forall v, In v l -> of_tcp v = false) -> live (fst (run s l)) = true.
Proof.
  induction l as [|v l IH]; intros s H N; cbn [run]; [apply H|]. pose proof (lost_step s v H (N v (or_introl eq_refl))) as X. destruct (step s v) as [s1 o1]. specialize (IH s1 X (fun u U => N u (or_intror U))). destruct (run s1 l). exact IH.
Qed.
Theorem C87_remove_refuted : exists l, In Remove l /\ forall l', (forall v, In v l' -> of_tcp v = false) -> live (fst (run (start Libevent true false) (l ++ l'))) = true.
Proof.
  exists [Connected; Remove; Run 0 true; Run 0 true]. split; [cbn; auto|]. intros l' N. rewrite run_app. destruct (run (start Libevent true false) _) as [s o] eqn:E. pose proof (lost_run l' s) as X. destruct (run s l'). cbn [fst] in *. apply X; [|exact N].
  vm_compute in E. inversion E; subst. unfold Lost. cbn. tauto.
Qed.
Print Assumptions C87_remove_refuted.

(** C87 fails with libevent: the connection to the service fails while bytes are being written to it. The write never completes, even when the client has ended its side or has gone. *)
Definition no_more (v : ev) : bool := match v with TcpDrained | Remove => true | _ => false end.
Definition Hang (s : st) : Prop := live s = true /\ im s = Libevent /\ tre s = true /\ sk_conn s = false /\ sk_read s = false /\ sk_write s = true /\ st_read s = false /\ st_write s = false /\ st_close s = false /\ posted s = [].
Lemma hang_step : forall s v, Hang s -> no_more v = false -> Hang (fst (step s v)).
Proof.
  intros s v (L & I & T & C1 & C2 & C3 & C4 & C5 & C6 & P) N. unfold step. rewrite L. cbn [negb]. unfold Hang. destruct v; try discriminate; cbn [fst].
  - unfold fail_conn, resolve_if. rewrite C1. flds. tauto.
  - destruct (fin s); flds; tauto.
  - unfold take. rewrite C2. cbn [andb]. tauto.
  - destruct (input s); cbn [fst]; [|tauto]. unfold fail_read, fail_conn, resolve_if. flds. rewrite C1. flds. rewrite C2. flds. tauto.
  - rewrite I. cbn [fst]. unfold fail_read, fail_conn, resolve_if. flds. rewrite C1. flds. rewrite C2. flds. tauto.
  - rewrite C4. cbn [andb fst]. tauto.
  - rewrite C4. cbn [andb fst]. tauto.
  - rewrite C5. unfold resolve_if. flds. tauto.
  - rewrite C6. unfold resolve_if. flds. tauto.
  - unfold str_stop. rewrite C4, C5, C6. destruct (stopped s); unfold resolve_if; flds; tauto.
  - rewrite P. destruct n; cbn [nth_error fst]; tauto.
Qed.
Lemma hang_run : forall l s, Hang s -> (forall v, In v l -> no_more v = false) -> live (fst (run s l)) = true.
Proof.
  induction l as [|v l IH]; intros s H N; cbn [run]; [apply H|]. pose proof (hang_step s v H (N v (or_introl eq_refl))) as X. destruct (step s v) as [s1 o1]. specialize (IH s1 X (fun u U => N u (or_intror U))). destruct (run s1 l). exact IH.
Qed.
Theorem C87_failure_refuted : exists l, In TcpError l /\ forall l', (forall v, In v l' -> no_more v = false) -> live (fst (run (start Libevent true false) (l ++ l'))) = true.
Proof.
  exists [Connected; Run 0 true; StrData [7]; Run 0 true; TcpError; Run 0 true; StrClosed Ok; Run 0 true]. split; [cbn; auto 20|]. intros l' N. rewrite run_app. destruct (run (start Libevent true false) _) as [s o] eqn:E. pose proof (hang_run l' s) as X. destruct (run s l'). cbn [fst] in *. apply X; [|exact N].
  vm_compute in E. inversion E; subst. unfold Hang. cbn. tauto.
Qed.
Print Assumptions C87_failure_refuted.

(** C87 fails with both: the connection of the client is gone; the tunnel connection stays until the service acts or is removed. *)
Definition acts (v : ev) : bool := match v with TcpReady | TcpEof | TcpError | Remove => true | _ => false end.
Definition Alone (s : st) : Prop := live s = true /\ stopped s = true /\ sre s = true /\ sk_conn s = false /\ sk_read s = true /\ sk_write s = false /\ st_read s = false /\ st_write s = false /\ st_close s = false /\ posted s = [].
Lemma alone_step : forall s v, Alone s -> acts v = false -> Alone (fst (step s v)).
Proof.
  intros s v (L & S & T & C1 & C2 & C3 & C4 & C5 & C6 & P) N. unfold step. rewrite L. cbn [negb]. unfold Alone. destruct v; try discriminate; cbn [fst].
  - unfold fail_conn, resolve_if. rewrite C1. flds. tauto.
  - destruct (fin s); flds; tauto.
  - unfold fail_write, resolve_if. rewrite C3. flds. tauto.
  - rewrite C4. cbn [andb fst]. tauto.
  - rewrite C4. cbn [andb fst]. tauto.
  - rewrite C5. unfold resolve_if. flds. tauto.
  - rewrite C6. unfold resolve_if. flds. tauto.
  - unfold str_stop. rewrite S. tauto.
  - rewrite P. destruct n; cbn [nth_error fst]; tauto.
Qed.
Lemma alone_run : forall l s, Alone s -> (forall v, In v l -> acts v = false) -> live (fst (run s l)) = true.
Proof.
  induction l as [|v l IH]; intros s H N; cbn [run]; [apply H|]. pose proof (alone_step s v H (N v (or_introl eq_refl))) as X. destruct (step s v) as [s1 o1]. specialize (IH s1 X (fun u U => N u (or_intror U))). destruct (run s1 l). exact IH.
Qed.
Theorem C87_client_refuted : forall i, exists l, In StrGone l /\ forall l', (forall v, In v l' -> acts v = false) -> live (fst (run (start i true false) (l ++ l'))) = true.
Proof.
  intros i. exists [Connected; Run 0 true; StrGone; Run 0 true]. split; [cbn; auto|]. intros l' N. rewrite run_app. destruct (run (start i true false) _) as [s o] eqn:E. pose proof (alone_run l' s) as X. destruct (run s l'). cbn [fst] in *. apply X; [|exact N].
  destruct i; vm_compute in E; inversion E; subst; unfold Alone; cbn; tauto.
Qed.
Print Assumptions C87_client_refuted.

(** C87, what holds: with the select implementation a tunnel connection is released once its service was removed and five events have run, whatever else happens. *)
Theorem C87_remove_select_partial : forall ok gone l l', 5 <= turns l' -> let (s, o) := run (start SelectUnix ok gone) (l ++ Remove :: l') in live s = false /\ releases o = 1.
Proof.
  intros ok gone l l' T. pose proof (run_inv (l ++ Remove :: l') SelectUnix ok gone) as I. destruct (run (start SelectUnix ok gone) (l ++ Remove :: l')) as [s o] eqn:E.
  assert (L : live s = false).
  { rewrite run_app in E. pose proof (run_inv l SelectUnix ok gone) as I1. pose proof (run_sel l _ (start_sel SelectUnix ok gone)) as S1. pose proof (im_run l (start SelectUnix ok gone)) as M. destruct (run (start SelectUnix ok gone) l) as [s1 o1]. cbn [fst run] in *.
    assert (IM : im (start SelectUnix ok gone) = SelectUnix) by (destruct ok; reflexivity). rewrite IM in M.
    destruct (live s1) eqn:L1.
    - destruct (remove_K o1 s1 I1 L1 S1) as [K1 L2]; [congruence|]. pose proof (step_inv o1 s1 Remove I1) as I2. destruct (step s1 Remove) as [s2 o2]. cbn [fst] in *. pose proof (stop_released s2 l' _ K1 L2 I2 T) as R. destruct (run s2 l') as [s3 o3]. inversion E; subst. exact R.
    - unfold step in E. rewrite L1 in E. cbn [negb] in E. pose proof (dead_run l' s1 L1) as D. destruct (run s1 l') as [s3 o3]. cbn [fst] in D. inversion E; subst. exact L1. }
  split; [exact L|]. unfold Inv in I. rewrite L in I. tauto.
Qed.
Print Assumptions C87_remove_select_partial.
Example C87_ex_select : exists l', live (fst (run (start SelectUnix true false) (ex_relay ++ [Remove]))) = true /\ 5 <= turns l'.
Proof. exists [Run 0 true; Run 0 true; Run 0 true; TcpData [4]; Run 0 true; StrGone; Run 0 true]. split; vm_compute; lia. Qed.

(** C87, what holds with libevent: the same, if it is the first time the connection is told to stop and no completion which succeeded waits to run at that moment. *)
Theorem C87_remove_libevent_partial : forall ok gone l l', (let s := fst (run (start Libevent ok gone) l) in aborted s = false /\ forall o e, In (o, e) (posted s) -> e <> Ok) -> 5 <= turns l' ->
  let (s, o) := run (start Libevent ok gone) (l ++ Remove :: l') in live s = false /\ releases o = 1.
Proof.
  intros ok gone l l' N T. pose proof (run_inv (l ++ Remove :: l') Libevent ok gone) as I. destruct (run (start Libevent ok gone) (l ++ Remove :: l')) as [s o] eqn:E.
  assert (L : live s = false).
  { rewrite run_app in E. pose proof (run_inv l Libevent ok gone) as I1. pose proof (run_sel l _ (start_sel Libevent ok gone)) as S1. destruct (run (start Libevent ok gone) l) as [s1 o1]. cbn [fst run] in *.
    destruct (live s1) eqn:L1.
    - destruct (remove_K o1 s1 I1 L1 S1) as [K1 L2]; [intros _; destruct N as [N1 N2]; split; [exact N1|]; intros k e H; specialize (N2 k e H); destruct e; try reflexivity; contradiction N2; reflexivity|]. pose proof (step_inv o1 s1 Remove I1) as I2. destruct (step s1 Remove) as [s2 o2]. cbn [fst] in *. pose proof (stop_released s2 l' _ K1 L2 I2 T) as R. destruct (run s2 l') as [s3 o3]. inversion E; subst. exact R.
    - unfold step in E. rewrite L1 in E. cbn [negb] in E. pose proof (dead_run l' s1 L1) as D. destruct (run s1 l') as [s3 o3]. cbn [fst] in D. inversion E; subst. exact L1. }
  split; [exact L|]. unfold Inv in I. rewrite L in I. tauto.
Qed.
Print Assumptions C87_remove_libevent_partial.
Example C87_ex_libevent : let s := fst (run (start Libevent true false) [Connected; Run 0 true; TcpData [1]; TcpReady; Run 0 true]) in live s = true /\ aborted s = false /\ forall o e, In (o, e) (posted s) -> e <> Ok.
Proof. vm_compute. repeat split. intros o e []. Qed.
