(** How the ends of a tunnel connection are passed on, and when it is released. *)
From Coq Require Import List Bool Arith NArith Lia.
From Verif Require Import RlyModel RlySpec RlyProofs.
Import ListNotations.

(** s' is s with some more events posted. *)
Record ext (s s' : st) (N : list (opk * ec)) : Prop := {
  x_post : forall x, In x (posted s') -> In x (posted s) \/ In x N;
  x_input : input s = [] -> input s' = []; x_fin : fin s = true -> fin s' = true;
  x_stop : stopped s = true -> stopped s' = true; x_rlen : rlen s <> 0 -> rlen s' <> 0 }.
Lemma ext_refl : forall s, ext s s []. Proof. intros s. constructor; auto. Qed.
Lemma ext_trans : forall s s1 s2 N M, ext s s1 N -> ext s1 s2 M -> ext s s2 (N ++ M).
Proof. intros s s1 s2 N M [A1 A2 A3 A4 A5] [B1 B2 B3 B4 B5]. constructor; auto. intros x H. destruct (B1 x H) as [H1|H1]; [destruct (A1 x H1); [left; assumption|right; apply in_or_app; left; assumption]|right; apply in_or_app; right; assumption]. Qed.
Lemma ext_more : forall s s' N M, ext s s' N -> incl N M -> ext s s' M.
Proof. intros s s' N M [A1 A2 A3 A4 A5] I. constructor; auto. intros x H. destruct (A1 x H); auto. Qed.
Ltac exts := constructor; flds; auto; try (intros x H; apply in_app_or in H; exact H).
Lemma ext_resolve : forall o e s, ext s (resolve o e s) [(o, e)]. Proof. intros. exts. Qed.
Lemma ext_upd : forall s s' N, posted s' = posted s -> input s' = input s -> fin s' = fin s -> stopped s' = stopped s -> rlen s' = rlen s -> ext s s' N.
Proof. intros s s' N E1 E2 E3 E4 E5. constructor; rewrite ?E1, ?E2, ?E3, ?E4, ?E5; auto. Qed.
Lemma ext_fail_conn : forall e s, ext s (fail_conn e s) [(Connect, e)]. Proof. intros e s. unfold fail_conn, resolve_if. destruct (sk_conn s); [exts|apply ext_upd; reflexivity]. Qed.
Lemma ext_fail_read : forall e s, ext s (fail_read e s) [(TcpRead, e)]. Proof. intros e s. unfold fail_read, resolve_if. destruct (sk_read s); [exts|apply ext_upd; reflexivity]. Qed.
Lemma ext_fail_write : forall e s, ext s (fail_write e s) [(TcpWrite, e)]. Proof. intros e s. unfold fail_write, resolve_if. destruct (sk_write s); [exts|apply ext_upd; reflexivity]. Qed.
Lemma ext_take : forall s, ext s (take s) [(TcpRead, Ok)].
Proof.
  intros s. unfold take. destruct (sk_read s); [|eapply ext_more; [apply ext_refl|intros x []]]. destruct (input s) as [|y i] eqn:I; [eapply ext_more; [apply ext_refl|intros x []]|]. cbn [andb negb].
  destruct (split_bytes (y :: i) ltac:(discriminate)) as [L _]. exts. intros Z. rewrite I in Z. discriminate.
Qed.
Lemma ext_tcp_abort : forall s, ext s (tcp_abort s) [(Connect, Aborted); (TcpRead, Aborted); (TcpWrite, Aborted)].
Proof.
  intros s. unfold tcp_abort. destruct (aborted s); [eapply ext_more; [apply ext_refl|intros x []]|].
  assert (E : ext s (set_aborted s) []) by (apply ext_upd; reflexivity).
  pose proof (ext_trans _ _ _ _ _ E (ext_fail_conn Aborted _)) as E1. pose proof (ext_trans _ _ _ _ _ E1 (ext_fail_read Aborted _)) as E2. exact (ext_trans _ _ _ _ _ E2 (ext_fail_write Aborted _)).
Qed.
Lemma ext_str_stop : forall s, ext s (str_stop s) [(StrRead, Aborted); (StrWrite, Aborted); (StrClose, Aborted)].
Proof.
  intros s. unfold str_stop. destruct (stopped s) eqn:S; [eapply ext_more; [apply ext_refl|intros x []]|]. unfold resolve_if. destruct (st_close s), (st_write s), (st_read s); exts; intros x H; rewrite ?in_app_iff in H; cbn [In] in *; tauto.
Qed.
Lemma str_stop_stopped : forall s, stopped (str_stop s) = true. Proof. intros s. unfold str_stop. destruct (stopped s) eqn:S; [exact S|]. unfold resolve_if. destruct (st_close s), (st_write s), (st_read s); reflexivity. Qed.
Lemma tcp_abort_aborted : forall s, aborted (tcp_abort s) = true.
Proof. intros s. unfold tcp_abort. destruct (aborted s) eqn:A; [exact A|]. unfold fail_write, fail_read, fail_conn, resolve_if, set_aborted. destruct (sk_conn s) eqn:E1, (sk_read s) eqn:E2, (sk_write s) eqn:E3; flds; rewrite ?E1, ?E2, ?E3; reflexivity. Qed.
Lemma ext_tcp_read : forall s, ext s (tcp_read s) (if aborted s then [(TcpRead, Ok); (TcpRead, Aborted)] else [(TcpRead, Ok)]).
Proof.
  intros s. assert (E : ext s (upd_sock (sk_conn s) true (sk_write s) (aborted s) (input s) s) []) by (apply ext_upd; reflexivity). unfold tcp_read. destruct (im s).
  - eapply ext_more; [apply (ext_trans _ _ _ _ _ E (ext_take _))|]. destruct (aborted s); intros x H; cbn [app In] in *; tauto.
  - destruct (aborted s); [eapply ext_more; [apply ext_resolve|]; intros x H; cbn [In] in *; tauto|]. eapply ext_more; [exact E|intros x []].
Qed.
Lemma ext_tcp_write : forall ok s, ext s (tcp_write ok s) [(TcpWrite, Fail); (TcpWrite, Aborted)].
Proof.
  intros ok s. assert (E : ext s (upd_sock (sk_conn s) (sk_read s) true (aborted s) (input s) s) [(TcpWrite, Fail); (TcpWrite, Aborted)]) by (apply ext_upd; reflexivity).
  unfold tcp_write. destruct (im s); [destruct ok|destruct (aborted s)]; auto; (eapply ext_more; [apply ext_resolve|]; intros x H; cbn [In] in *; tauto).
Qed.
Lemma ext_str_read : forall s, ext s (str_read s) (if stopped s then [(StrRead, Stopped)] else []).
Proof. intros s. unfold str_read. destruct (stopped s) eqn:S; [apply ext_resolve|apply ext_upd; flds; auto]. Qed.
Lemma ext_str_write : forall s, ext s (str_write s) [(StrWrite, Stopped); (StrWrite, Fail)].
Proof. intros s. unfold str_write. destruct (stopped s) eqn:S; [|destruct (closed s)]; [eapply ext_more; [apply ext_resolve|]; intros x H; cbn [In] in *; tauto|eapply ext_more; [apply ext_resolve|]; intros x H; cbn [In] in *; tauto|apply ext_upd; flds; auto]. Qed.
Lemma ext_str_close : forall s, ext s (str_close s) [(StrClose, Stopped)].
Proof. intros s. unfold str_close. destruct (stopped s) eqn:S; [apply ext_resolve|apply ext_upd; flds; auto]. Qed.

(** Why an event was posted. *)
Definition just (l : list ev) (s : st) (x : opk * ec) : Prop :=
  match x with
  | (TcpRead, Ok) | (StrRead, Ok) => True
  | (TcpRead, Eof) => In TcpEof l /\ input s = [] /\ fin s = true
  | (TcpRead, _) => In TcpError l \/ stopped s = true
  | (StrRead, e) => stopped s = true \/ In (StrEnd e) l
  | _ => True
  end.
Record Why (l : list ev) (o : list out) (s : st) : Prop := {
  w_just : forall x, In x (posted s) -> just l s x;
  w_rlen : to_client o <> [] -> rlen s <> 0;
  w_abort : aborted s = true -> stopped s = true }.
Lemma just_mono : forall l l' s s' N x, ext s s' N -> incl l l' -> just l s x -> just l' s' x.
Proof. intros l l' s s' N [o e] [A1 A2 A3 A4 A5] I J. destruct o, e; cbn [just] in *; auto; try (destruct J as [J|J]; auto). destruct J as (J1 & J2 & J3). auto. Qed.
Definition nodata (o : list out) : Prop := to_client o = [].
Lemma why_ext : forall l l' o o' s s' N, Why l o s -> ext s s' N -> incl l l' -> nodata o' -> (aborted s' = true -> stopped s' = true) -> (forall x, In x N -> just l' s' x) -> Why l' (o ++ o') s'.
Proof.
  intros l l' o o' s s' N [W1 W2 W3] E I D A J. constructor; [|unfold to_client, nodata in *; rewrite flat_map_app; unfold to_client in D; rewrite D, app_nil_r; intros X; apply (x_rlen _ _ _ E), W2, X|exact A].
  intros x H. destruct (x_post _ _ _ E x H) as [H1|H1]; [apply (just_mono _ _ _ _ _ _ E I), W1, H1|apply J, H1].
Qed.
Lemma why_pop : forall l o s n, Why l o s -> Why l o (upd_posted (remove_nth n (posted s)) s).
Proof.
  intros l o s n [W1 W2 W3]. constructor; flds; auto. intros x H. assert (In x (posted s)). { clear -H. revert n H. induction (posted s) as [|y p IH]; intros [|n] H; cbn [remove_nth] in H; try contradiction; [right; exact H|]. destruct H as [H|H]; [left; exact H|right; apply (IH _ H)]. }
  exact (W1 x H0).
Qed.
Lemma incl_app1 : forall (l : list ev) v, incl l (l ++ [v]). Proof. intros l v x H. apply in_or_app. left. exact H. Qed.
Lemma in_last : forall (l : list ev) v, In v (l ++ [v]). Proof. intros l v. apply in_or_app. right. left. reflexivity. Qed.
Lemma ab_tcp_read : forall s, aborted (tcp_read s) = aborted s /\ stopped (tcp_read s) = stopped s.
Proof. intros s. unfold tcp_read, take. destruct (im s); flds; [destruct (input s); split; reflexivity|destruct (aborted s) eqn:A; flds; rewrite ?A; auto]. Qed.
Lemma abort_why : forall l o s, Why l o s -> let (s', x) := abort_connection s in Why l (o ++ x) s' /\ stopped s' = true.
Proof.
  intros l o s W. unfold abort_connection. split; [|apply str_stop_stopped].
  eapply why_ext; [exact W|apply (ext_trans _ _ _ _ _ (ext_tcp_abort s) (ext_str_stop _))|apply incl_refl|reflexivity|intros _; apply str_stop_stopped|].
  intros x H. cbn [app In] in H. pose proof (str_stop_stopped (tcp_abort s)) as S. destruct H as [<-|[<-|[<-|[<-|[<-|[<-|[]]]]]]]; cbn [just]; auto.
Qed.
Lemma dead_why : forall l o s s' x, Why l o s -> the_end s = (s', x) -> Why l (o ++ x) s'.
Proof. intros l o s s' x [W1 W2 W3] E. inversion E; subst. constructor; flds; auto; [intros y []|]. unfold to_client in *. rewrite flat_map_app. cbn [flat_map]. rewrite !app_nil_r. exact W2. Qed.
Lemma ended_why : forall l o s s' x, Why l o s -> is_ended s = (s', x) -> Why l (o ++ x) s'.
Proof. intros l o s s' x W E. unfold is_ended in E. destruct (tre s && sre s); [eapply dead_why; eauto|inversion E; subst; rewrite app_nil_r; exact W]. Qed.
Lemma tre_why : forall l o s, Why l o s -> Why l o (upd_tre true s). Proof. intros l o s [W1 W2 W3]. constructor; flds; auto. Qed.
Lemma sre_why : forall l o s, Why l o s -> Why l o (upd_sre true s). Proof. intros l o s [W1 W2 W3]. constructor; flds; auto. Qed.
Lemma abort_tre_why : forall l o s, Why l o s -> let (s', x) := abort_tre s in Why l (o ++ x) s'.
Proof. intros l o s W. unfold abort_tre. pose proof (abort_why _ _ _ W) as A. destruct (abort_connection s) as [s1 o1]. destruct A as [A _]. destruct (is_ended (upd_tre true s1)) as [s2 o2] eqn:E. rewrite app_assoc. eapply ended_why; [apply tre_why, A|exact E]. Qed.
Lemma abort_sre_why : forall l o s, Why l o s -> let (s', x) := abort_sre s in Why l (o ++ x) s'.
Proof. intros l o s W. unfold abort_sre. pose proof (abort_why _ _ _ W) as A. destruct (abort_connection s) as [s1 o1]. destruct A as [A _]. destruct (is_ended (upd_sre true s1)) as [s2 o2] eqn:E. rewrite app_assoc. eapply ended_why; [apply sre_why, A|exact E]. Qed.
Lemma callback_why : forall ok k e l o s, Why l o s -> let (s', x) := callback ok k e s in Why l (o ++ x) s'.
Proof.
  intros ok k e l o s W. assert (RD : Why l (o ++ []) (tcp_read s)).
  { eapply why_ext; [exact W|apply ext_tcp_read|apply incl_refl|reflexivity|destruct (ab_tcp_read s) as [-> ->]; apply (w_abort _ _ _ W)|]. destruct (aborted s) eqn:A; intros x H; cbn [In] in H; [destruct H as [<-|[<-|[]]]|destruct H as [<-|[]]]; cbn [just]; auto.
    right. destruct (ab_tcp_read s) as [_ ->]. apply (w_abort _ _ _ W), A. }
  assert (SR : forall o s, Why l o s -> Why l (o ++ []) (str_read s)).
  { clear. intros o s W. eapply why_ext; [exact W|apply ext_str_read|apply incl_refl|reflexivity| |].
    - unfold str_read. destruct (stopped s) eqn:S; flds; auto. intros X; apply (w_abort _ _ _ W) in X; congruence.
    - unfold str_read. destruct (stopped s) eqn:S; intros x H; [|destruct H]. destruct H as [<-|[]]. cbn [just]. flds. auto. }
  destruct k; cbn [callback].
  - unfold connect_callback. destruct (is_ok e); [|destruct (the_end s) eqn:E; eapply dead_why; eauto]. rewrite app_nil_r in RD. apply SR, RD.
  - unfold tcp_readen. destruct (Nat.eqb (rlen s) 0 || is_eof e) eqn:Z.
    + eapply why_ext; [exact W|apply ext_str_close|apply incl_refl|destruct (stopped s); reflexivity| |].
      * unfold str_close. destruct (stopped s) eqn:S; flds; auto. intros X; apply (w_abort _ _ _ W) in X; congruence.
      * intros x [<-|[]]. exact I.
    + destruct (is_ok e); [|apply abort_tre_why, W]. apply orb_false_iff in Z. destruct Z as [Z _]. apply Nat.eqb_neq in Z.
      assert (V : Why l (o ++ []) (str_write s)).
      { eapply why_ext; [exact W|apply ext_str_write|apply incl_refl|reflexivity| |].
        - unfold str_write. destruct (stopped s) eqn:S; [flds; auto|]. destruct (closed s); flds; intros X; apply (w_abort _ _ _ W) in X; congruence.
        - intros x [<-|[<-|[]]]; exact I. }
      destruct V as [V1 V2 V3]. constructor; auto. intros _. apply (x_rlen _ _ _ (ext_str_write s)), Z.
  - unfold tcp_written. destruct (is_ok e); [|apply abort_sre_why, W]. apply SR, W.
  - unfold stream_readen. destruct (Nat.eqb (srs s) 0 || is_eof e).
    + destruct (is_ended (upd_sre true s)) as [s' x] eqn:E. pose proof (ended_why l o _ _ _ (sre_why _ _ _ W) E) as V. destruct V as [V1 V2 V3]. constructor; auto. unfold to_client in *. rewrite flat_map_app in *. cbn [flat_map app] in *. exact V2.
    + destruct (is_ok e); [|apply abort_sre_why, W]. eapply why_ext; [exact W|apply (ext_tcp_write ok)|apply incl_refl|reflexivity| |].
      * unfold tcp_write. destruct (im s), ok, (aborted s) eqn:A; flds; rewrite ?A; try discriminate; intros _; apply (w_abort _ _ _ W), A.
      * intros x [<-|[<-|[]]]; exact I.
  - unfold stream_written. destruct (is_ok e); [exact RD|apply abort_tre_why, W].
  - unfold stream_closed. destruct (is_ended (upd_tre true s)) as [s' x] eqn:E. eapply ended_why; [apply tre_why, W|exact E].
Qed.
Ltac abst := unfold fail_conn, fail_read, fail_write, take, resolve_if; repeat (match goal with |- context [if ?b then _ else _] => destruct b end; flds); auto.
Lemma ab_fail_conn : forall e s, aborted (fail_conn e s) = aborted s /\ stopped (fail_conn e s) = stopped s /\ input (fail_conn e s) = input s /\ fin (fail_conn e s) = fin s. Proof. intros e s. abst. Qed.
Lemma ab_fail_read : forall e s, aborted (fail_read e s) = aborted s /\ stopped (fail_read e s) = stopped s /\ input (fail_read e s) = input s /\ fin (fail_read e s) = fin s. Proof. intros e s. abst. Qed.
Lemma ab_fail_write : forall e s, aborted (fail_write e s) = aborted s /\ stopped (fail_write e s) = stopped s. Proof. intros e s. abst. Qed.
Lemma ab_take : forall s, aborted (take s) = aborted s /\ stopped (take s) = stopped s. Proof. intros s. abst. Qed.
Lemma ext_fin : forall s, ext s (upd_fin s) []. Proof. intros s. constructor; flds; auto. Qed.
Lemma why_same : forall l l' o s, Why l o s -> incl l l' -> Why l' (o ++ []) s.
Proof. intros l l' o s W I. eapply why_ext; [exact W|apply ext_refl|exact I|reflexivity|apply (w_abort _ _ _ W)|intros x []]. Qed.
Lemma step_why : forall l o s v, Why l o s -> let (s', x) := step s v in Why (l ++ [v]) (o ++ x) s'.
Proof.
  intros l o s v W. pose proof (incl_app1 l v) as IN. unfold step. destruct (live s) eqn:L; cbn [negb]; [|apply (why_same l); auto].
  destruct v.
  - eapply why_ext; [exact W|apply (ext_fail_conn Ok)|exact IN|reflexivity|destruct (ab_fail_conn Ok s) as (-> & -> & _); apply (w_abort _ _ _ W)|]. intros x [<-|[]]. exact I.
  - destruct (fin s) eqn:F; [apply (why_same l); auto|]. destruct W as [W1 W2 W3]. constructor; flds; auto.
    + intros [k e] H. specialize (W1 _ H). destruct k, e; cbn [just] in *; flds; auto; try (destruct W1 as [W1|W1]; auto). destruct W1 as (_ & _ & W1). rewrite W1 in F. discriminate.
    + unfold to_client in *. rewrite flat_map_app. cbn [flat_map]. rewrite !app_nil_r. exact W2.
  - eapply why_ext; [exact W|apply ext_take|exact IN|reflexivity|destruct (ab_take s) as [-> ->]; apply (w_abort _ _ _ W)|]. intros x [<-|[]]. exact I.
  - destruct (input s) eqn:Z; [|apply (why_same l); auto].
    eapply why_ext; [exact W|apply (ext_trans _ _ _ _ _ (ext_fin s) (ext_trans _ _ _ _ _ (ext_fail_conn Eof _) (ext_fail_read Eof _)))|exact IN|reflexivity| |].
    + destruct (ab_fail_read Eof (fail_conn Eof (upd_fin s))) as (-> & -> & _). destruct (ab_fail_conn Eof (upd_fin s)) as (-> & -> & _). apply (w_abort _ _ _ W).
    + intros x [<-|[<-|[]]]; [exact I|]. cbn [just]. destruct (ab_fail_read Eof (fail_conn Eof (upd_fin s))) as (_ & _ & -> & ->). destruct (ab_fail_conn Eof (upd_fin s)) as (_ & _ & -> & ->). flds. split; [apply in_last|auto].
  - destruct (im s).
    + eapply why_ext; [exact W|apply (ext_trans _ _ _ _ _ (ext_fin s) (ext_trans _ _ _ _ _ (ext_fail_conn Aborted _) (ext_fail_read Aborted _)))|exact IN|reflexivity| |].
      * destruct (ab_fail_read Aborted (fail_conn Aborted (upd_fin s))) as (-> & -> & _). destruct (ab_fail_conn Aborted (upd_fin s)) as (-> & -> & _). apply (w_abort _ _ _ W).
      * intros x [<-|[<-|[]]]; [exact I|]. left. apply in_last.
    + eapply why_ext; [exact W|apply (ext_trans _ _ _ _ _ (ext_fin s) (ext_trans _ _ _ _ _ (ext_fail_conn Aborted _) (ext_trans _ _ _ _ _ (ext_fail_read Fail _) (ext_fail_write Fail _))))|exact IN|reflexivity| |].
      * destruct (ab_fail_write Fail (fail_read Fail (fail_conn Aborted (upd_fin s)))) as (-> & ->). destruct (ab_fail_read Fail (fail_conn Aborted (upd_fin s))) as (-> & -> & _). destruct (ab_fail_conn Aborted (upd_fin s)) as (-> & -> & _). apply (w_abort _ _ _ W).
      * intros x [<-|[<-|[<-|[]]]]; [exact I| |exact I]. left. apply in_last.
  - eapply why_ext; [exact W|apply (ext_fail_write Ok)|exact IN|reflexivity|destruct (ab_fail_write Ok s) as (-> & ->); apply (w_abort _ _ _ W)|]. intros x [<-|[]]. exact I.
  - destruct (st_read s && negb (match b with [] => true | _ => false end) && Nat.leb (length b) bufsize); [|apply (why_same l); auto].
    eapply why_ext with (N := [(StrRead, Ok)]); [exact W|exts|exact IN|reflexivity|flds; apply (w_abort _ _ _ W)|]. intros x [<-|[]]. exact I.
  - destruct (st_read s && negb (is_ok e)) eqn:K; [|apply (why_same l); auto]. apply andb_true_iff in K. destruct K as [_ K]. apply negb_true_iff in K.
    eapply why_ext with (N := [(StrRead, e)]); [exact W|exts|exact IN|reflexivity|flds; apply (w_abort _ _ _ W)|]. intros x [<-|[]]. destruct e; try discriminate; cbn [just]; right; apply in_last.
  - unfold resolve_if. destruct (st_write s); (eapply why_ext with (N := [(StrWrite, e)]); [exact W|try (exts; fail); apply ext_upd; reflexivity|exact IN|reflexivity|flds; apply (w_abort _ _ _ W)|]; intros x [<-|[]]; destruct e; exact I).
  - unfold resolve_if. destruct (st_close s); (eapply why_ext with (N := [(StrClose, e)]); [exact W|try (exts; fail); apply ext_upd; reflexivity|exact IN|reflexivity|flds; apply (w_abort _ _ _ W)|]; intros x [<-|[]]; destruct e; exact I).
  - eapply why_ext; [exact W|apply ext_str_stop|exact IN|reflexivity|intros _; apply str_stop_stopped|]. pose proof (str_stop_stopped s). intros x [<-|[<-|[<-|[]]]]; cbn [just]; auto.
  - pose proof (abort_why _ _ _ (why_same _ _ _ _ W IN)) as A. rewrite app_nil_r in A. destruct (abort_connection s) as [s' x]. apply A.
  - destruct (nth_error (posted s) n) as [[k e]|]; [|apply (why_same l); auto]. pose proof (why_same _ _ _ _ W IN) as V. rewrite app_nil_r in V. apply callback_why, why_pop, V.
Qed.
Lemma run_why : forall l i ok gone, let (s, o) := run (start i ok gone) l in Why l o s.
Proof.
  intros l i ok gone. induction l as [|v l IH] using rev_ind.
  - cbn [run]. constructor; [|intros X; contradiction X; reflexivity|]; unfold start, tcp_connect; flds; destruct i, ok, gone; flds; try discriminate; intros x H; cbn in H; try contradiction; destruct H as [<-|[]]; exact I.
  - rewrite run_app. destruct (run (start i ok gone) l) as [s o]. cbn [run]. pose proof (step_why l o s v IH) as S. destruct (step s v) as [s' o']. rewrite app_nil_r. exact S.
Qed.
