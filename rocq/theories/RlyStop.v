(** When a tunnel connection is released after it was told to stop. *)
From Coq Require Import List Bool Arith NArith Lia.
From Verif Require Import RlyModel RlySpec RlyProofs RlyEnds.
Import ListNotations.

(** select: a socket which is aborted has no operations. *)
Definition Sel (s : st) : Prop := im s = SelectUnix -> aborted s = true -> sk_conn s = false /\ sk_read s = false /\ sk_write s = false.
Lemma im_same : forall s v, im (fst (step s v)) = im s.
Proof.
  assert (FC : forall e s, im (fail_conn e s) = im s) by (intros e s; unfold fail_conn, resolve_if; destruct (sk_conn s); reflexivity).
  assert (FR : forall e s, im (fail_read e s) = im s) by (intros e s; unfold fail_read, resolve_if; destruct (sk_read s); reflexivity).
  assert (FW : forall e s, im (fail_write e s) = im s) by (intros e s; unfold fail_write, resolve_if; destruct (sk_write s); reflexivity).
  assert (TK : forall s, im (take s) = im s) by (intros s; unfold take; match goal with |- context [if ?b then _ else _] => destruct b end; reflexivity).
  assert (TA : forall s, im (tcp_abort s) = im s) by (intros s; unfold tcp_abort; destruct (aborted s); [reflexivity|]; rewrite FW, FR, FC; reflexivity).
  assert (SS : forall s, im (str_stop s) = im s) by (intros s; unfold str_stop, resolve_if; destruct (stopped s), (st_close s), (st_write s), (st_read s); reflexivity).
  assert (TR : forall s, im (tcp_read s) = im s) by (intros s; unfold tcp_read; destruct (im s) eqn:I; [rewrite TK; exact I|destruct (aborted s); exact I]).
  assert (IE : forall s, im (fst (is_ended s)) = im s) by (intros s; unfold is_ended; destruct (tre s && sre s); reflexivity).
  assert (AT : forall s, im (fst (abort_tre s)) = im s) by (intros s; unfold abort_tre; cbn [abort_connection]; pose proof (IE (upd_tre true (str_stop (tcp_abort s)))) as X; destruct (is_ended _); cbn [fst] in *; rewrite X; change (im (str_stop (tcp_abort s)) = im s); rewrite SS, TA; reflexivity).
  assert (AS : forall s, im (fst (abort_sre s)) = im s) by (intros s; unfold abort_sre; cbn [abort_connection]; pose proof (IE (upd_sre true (str_stop (tcp_abort s)))) as X; destruct (is_ended _); cbn [fst] in *; rewrite X; change (im (str_stop (tcp_abort s)) = im s); rewrite SS, TA; reflexivity).
  assert (SR : forall s, im (str_read s) = im s) by (intros s; unfold str_read; destruct (stopped s); reflexivity).
  assert (CB : forall ok o e s, im (fst (callback ok o e s)) = im s).
  { intros ok o e s. destruct o; cbn [callback].
    - unfold connect_callback. destruct (is_ok e); [cbn [fst]; rewrite SR, TR|]; reflexivity.
    - unfold tcp_readen. destruct (Nat.eqb (rlen s) 0 || is_eof e); [unfold str_close; destruct (stopped s); reflexivity|]. destruct (is_ok e); [unfold str_write; destruct (stopped s), (closed s); reflexivity|apply AT].
    - unfold tcp_written. destruct (is_ok e); [apply SR|apply AS].
    - unfold stream_readen. destruct (Nat.eqb (srs s) 0 || is_eof e); [pose proof (IE (upd_sre true s)) as X; destruct (is_ended _); exact X|]. destruct (is_ok e); [|apply AS]. cbn [fst]. unfold tcp_write. destruct (im s) eqn:I; [destruct ok|destruct (aborted s)]; exact I.
    - unfold stream_written. destruct (is_ok e); [apply TR|apply AT].
    - unfold stream_closed. exact (IE (upd_tre true s)). }
  intros s v. unfold step. destruct (live s); cbn [negb]; [|reflexivity]. destruct v; cbn [fst]; auto.
  - destruct (fin s); reflexivity.
  - destruct (input s); [cbn [fst]; rewrite FR, FC|]; reflexivity.
  - destruct (im s) eqn:I; cbn [fst]; rewrite ?FW, FR, FC; exact I.
  - destruct (st_read s && _ && _); reflexivity.
  - destruct (st_read s && negb (is_ok e)); reflexivity.
  - unfold resolve_if. destruct (st_write s); reflexivity.
  - unfold resolve_if. destruct (st_close s); reflexivity.
  - cbn [abort_connection fst]. rewrite SS, TA. reflexivity.
  - destruct (nth_error (posted s) n) as [[o e]|]; [|reflexivity]. rewrite CB. reflexivity.
Qed.
Lemma im_run : forall l s, im (fst (run s l)) = im s.
Proof. induction l as [|v l IH]; intros s; cbn [run]; [reflexivity|]. pose proof (im_same s v) as X. destruct (step s v) as [s1 o1]. specialize (IH s1). destruct (run s1 l). cbn [fst] in *. congruence. Qed.

(** The socket after each operation. *)
Definition soc (s : st) : bool * bool * bool * bool := (sk_conn s, sk_read s, sk_write s, aborted s).
Lemma soc_fc : forall e s, soc (fail_conn e s) = (false, sk_read s, sk_write s, aborted s). Proof. intros. unfold fail_conn, resolve_if. destruct (sk_conn s); reflexivity. Qed.
Lemma soc_fr : forall e s, soc (fail_read e s) = (sk_conn s, false, sk_write s, aborted s). Proof. intros. unfold fail_read, resolve_if. destruct (sk_read s); reflexivity. Qed.
Lemma soc_fw : forall e s, soc (fail_write e s) = (sk_conn s, sk_read s, false, aborted s). Proof. intros. unfold fail_write, resolve_if. destruct (sk_write s); reflexivity. Qed.
Lemma soc_take : forall s, soc (take s) = soc s \/ soc (take s) = (sk_conn s, false, sk_write s, aborted s). Proof. intros. unfold take. match goal with |- context [if ?b then _ else _] => destruct b end; auto. Qed.
Lemma soc_stop : forall s, soc (str_stop s) = soc s. Proof. intros. unfold str_stop, resolve_if. destruct (stopped s), (st_close s), (st_write s), (st_read s); reflexivity. Qed.
Lemma soc_abort : forall s, aborted s = false -> soc (tcp_abort s) = (false, false, false, true).
Proof.
  intros s A. unfold tcp_abort. rewrite A. set (s1 := fail_conn Aborted (set_aborted s)). pose proof (soc_fc Aborted (set_aborted s)) as H1. fold s1 in H1. set (s2 := fail_read Aborted s1). pose proof (soc_fr Aborted s1) as H2. fold s2 in H2.
  pose proof (soc_fw Aborted s2) as H3. rewrite H3. unfold soc in *. inversion H1. inversion H2. flds. congruence.
Qed.
Definition quietsoc (s : st) : Prop := aborted s = true -> sk_conn s = false /\ sk_read s = false /\ sk_write s = false.
Lemma quiet_of : forall s, quietsoc s <-> (let '(c, r, w, a) := soc s in a = true -> c = false /\ r = false /\ w = false). Proof. intros s. unfold soc. split; auto. Qed.
Lemma q_soc : forall s s', soc s' = soc s -> quietsoc s -> quietsoc s'. Proof. intros s s' E. rewrite !quiet_of, E. auto. Qed.
Lemma q_fc : forall e s, quietsoc s -> quietsoc (fail_conn e s). Proof. intros e s Q. rewrite quiet_of, soc_fc. intros A. destruct (Q A). tauto. Qed.
Lemma q_fr : forall e s, quietsoc s -> quietsoc (fail_read e s). Proof. intros e s Q. rewrite quiet_of, soc_fr. intros A. destruct (Q A). tauto. Qed.
Lemma q_fw : forall e s, quietsoc s -> quietsoc (fail_write e s). Proof. intros e s Q. rewrite quiet_of, soc_fw. intros A. destruct (Q A). tauto. Qed.
Lemma q_take : forall s, quietsoc s -> quietsoc (take s). Proof. intros s Q. destruct (soc_take s) as [E|E]; [apply (q_soc _ _ E Q)|]. rewrite quiet_of, E. intros A. destruct (Q A). tauto. Qed.
Lemma q_abort : forall s, quietsoc s -> quietsoc (tcp_abort s). Proof. intros s Q. destruct (aborted s) eqn:A; [unfold tcp_abort; rewrite A; exact Q|]. rewrite quiet_of, (soc_abort s A). auto. Qed.
Lemma q_conn : forall s, quietsoc s -> quietsoc (fst (abort_connection s)). Proof. intros s Q. cbn [abort_connection fst]. apply (q_soc _ _ (soc_stop _)), q_abort, Q. Qed.
Lemma q_end : forall s, quietsoc (fst (the_end s)). Proof. intros s _. auto. Qed.
Lemma q_ended : forall s, quietsoc s -> quietsoc (fst (is_ended s)). Proof. intros s Q. unfold is_ended. destruct (tre s && sre s); [apply q_end|exact Q]. Qed.
Lemma q_tre : forall s, quietsoc s -> quietsoc (fst (abort_tre s)).
Proof. intros s Q. unfold abort_tre. pose proof (q_conn s Q) as A. destruct (abort_connection s) as [s1 o1]. cbn [fst] in A. pose proof (q_ended (upd_tre true s1) A) as B. destruct (is_ended _). exact B. Qed.
Lemma q_sre : forall s, quietsoc s -> quietsoc (fst (abort_sre s)).
Proof. intros s Q. unfold abort_sre. pose proof (q_conn s Q) as A. destruct (abort_connection s) as [s1 o1]. cbn [fst] in A. pose proof (q_ended (upd_sre true s1) A) as B. destruct (is_ended _). exact B. Qed.
Lemma q_read : forall s, im s = SelectUnix -> quietsoc s -> quietsoc (tcp_read s).
Proof. intros s I Q. unfold tcp_read. rewrite I. destruct (aborted s) eqn:A; [intros _; apply Q, A|]. intros X. flds. congruence. Qed.
Lemma soc_sr : forall s, soc (str_read s) = soc s. Proof. intros s. unfold str_read. destruct (stopped s); reflexivity. Qed.
Lemma step_sel : forall s v, Sel s -> Sel (fst (step s v)).
Proof.
  intros s v S I. rewrite im_same in I. specialize (S I). change (quietsoc s) in S. change (quietsoc (fst (step s v))). unfold step. destruct (live s); cbn [negb]; [|exact S]. destruct v; cbn [fst].
  - apply q_fc, S. - destruct (fin s); exact S. - apply q_take, S. - destruct (input s); [cbn [fst]; apply q_fr, q_fc|]; exact S.
  - rewrite I. cbn [fst]. apply q_fw, q_fr, q_fc. exact S.
  - apply q_fw, S.
  - destruct (st_read s && _ && _); exact S.
  - destruct (st_read s && negb (is_ok e)); exact S.
  - unfold resolve_if. destruct (st_write s); exact S.
  - unfold resolve_if. destruct (st_close s); exact S.
  - apply (q_soc _ _ (soc_stop s)), S.
  - apply q_conn, S.
  - destruct (nth_error (posted s) n) as [[o e]|]; [|exact S]. set (t := upd_posted (remove_nth n (posted s)) s). assert (Q : quietsoc t) by exact S. assert (J : im t = SelectUnix) by exact I. clearbody t. clear -Q J. destruct o; cbn [callback].
    + unfold connect_callback. destruct (is_ok e); [cbn [fst]; apply (q_soc _ _ (soc_sr _)), q_read; auto|apply q_end].
    + unfold tcp_readen. destruct (Nat.eqb (rlen t) 0 || is_eof e); [unfold str_close; cbn [fst]; destruct (stopped t); exact Q|]. destruct (is_ok e); [unfold str_write; cbn [fst]; destruct (stopped t), (closed t); exact Q|apply q_tre, Q].
    + unfold tcp_written. destruct (is_ok e); [apply (q_soc _ _ (soc_sr _)), Q|apply q_sre, Q].
    + unfold stream_readen. destruct (Nat.eqb (srs t) 0 || is_eof e); [pose proof (q_ended (upd_sre true t) Q) as X; destruct (is_ended _); exact X|]. destruct (is_ok e); [|apply q_sre, Q]. cbn [fst]. unfold tcp_write. rewrite J. destruct (aborted t) eqn:A; [intros _; apply Q, A|intros X; flds; congruence].
    + unfold stream_written. destruct (is_ok e); [apply q_read; auto|apply q_tre, Q].
    + unfold stream_closed. apply q_ended, Q.
Qed.
Lemma run_sel : forall l s, Sel s -> Sel (fst (run s l)).
Proof. induction l as [|v l IH]; intros s S; cbn [run]; [exact S|]. pose proof (step_sel s v S) as X. destruct (step s v) as [s1 o1]. specialize (IH s1 X). destruct (run s1 l). exact IH. Qed.
Lemma start_sel : forall i ok gone, Sel (start i ok gone). Proof. intros i ok gone I. unfold start, tcp_connect in *. flds. destruct i, ok; flds; discriminate. Qed.

(** * A connection which has been told to stop *)
Record K (s : st) : Prop := { k_stop : stopped s = true; k_abort : aborted s = true; k_idle : idle s; k_lib : im s = Libevent -> forall o e, In (o, e) (posted s) -> is_ok e = false }.
Definition w (x : opk * ec) : nat :=
  match x with
  | (Connect, _) => 4 | (StrWrite, Ok) => 3 | (TcpRead, _) => 2 | (StrRead, Ok) => 2 | (TcpWrite, Ok) => 2 | _ => 1
  end.
Fixpoint mu (p : list (opk * ec)) : nat := match p with [] => 0 | x :: p => w x + mu p end.
Lemma mu_app : forall p q, mu (p ++ q) = mu p + mu q. Proof. induction p as [|x p IH]; intros q; cbn [app mu]; [reflexivity|rewrite IH; lia]. Qed.
Lemma mu_remove : forall n p x, nth_error p n = Some x -> mu p = w x + mu (remove_nth n p).
Proof. induction n as [|n IH]; intros [|y p] x H; try discriminate; cbn [nth_error remove_nth] in *; [inversion H; reflexivity|]. specialize (IH p x H). cbn [mu]. lia. Qed.
Lemma in_remove : forall (n : nat) (p : list (opk * ec)) x, In x (remove_nth n p) -> In x p.
Proof. induction n as [|n IH]; intros [|y p] x H; cbn [remove_nth] in H; try contradiction; [right; exact H|]. destruct H as [H|H]; [left; exact H|right; apply IH, H]. Qed.
Lemma abort_id : forall s, aborted s = true -> stopped s = true -> abort_connection s = (s, [AbortTcp; StopStr]).
Proof. intros s A S. unfold abort_connection, tcp_abort, str_stop. rewrite A, S. reflexivity. Qed.
Lemma K_post : forall s o e, K s -> is_ok e = false -> K (resolve o e s).
Proof. intros s o e [S A I L] N. constructor; flds; auto. intros M o' e' H. apply in_app_or in H. destruct H as [H|[H|[]]]; [apply (L M _ _ H)|inversion H; subst; exact N]. Qed.
Lemma K_tre : forall s, K s -> K (upd_tre true s). Proof. intros s [S A I L]. constructor; auto. Qed.
Lemma K_sre : forall s, K s -> K (upd_sre true s). Proof. intros s [S A I L]. constructor; auto. Qed.
Lemma K_ended : forall s, K s -> live (fst (is_ended s)) = true -> fst (is_ended s) = s. Proof. intros s _ L. unfold is_ended in *. destruct (tre s && sre s); [discriminate|reflexivity]. Qed.
Lemma K_abort_tre : forall s, K s -> live (fst (abort_tre s)) = true -> K (fst (abort_tre s)) /\ posted (fst (abort_tre s)) = posted s.
Proof.
  intros s H L. unfold abort_tre in *. rewrite (abort_id s (k_abort _ H) (k_stop _ H)) in *. pose proof (K_ended (upd_tre true s) (K_tre _ H)) as E. destruct (is_ended (upd_tre true s)) as [s' o]. cbn [fst] in *. rewrite (E L). split; [apply K_tre, H|reflexivity].
Qed.
Lemma K_abort_sre : forall s, K s -> live (fst (abort_sre s)) = true -> K (fst (abort_sre s)) /\ posted (fst (abort_sre s)) = posted s.
Proof.
  intros s H L. unfold abort_sre in *. rewrite (abort_id s (k_abort _ H) (k_stop _ H)) in *. pose proof (K_ended (upd_sre true s) (K_sre _ H)) as E. destruct (is_ended (upd_sre true s)) as [s' o]. cbn [fst] in *. rewrite (E L). split; [apply K_sre, H|reflexivity].
Qed.
Lemma K_read : forall s, K s -> im s = SelectUnix -> tcp_read s = resolve TcpRead Aborted s. Proof. intros s H I. unfold tcp_read. rewrite I, (k_abort _ H). reflexivity. Qed.
Lemma K_sr : forall s, K s -> str_read s = resolve StrRead Stopped s. Proof. intros s H. unfold str_read. rewrite (k_stop _ H). reflexivity. Qed.
Lemma K_callback : forall ok o e s, K s -> (im s = Libevent -> is_ok e = false) -> live (fst (callback ok o e s)) = true ->
  K (fst (callback ok o e s)) /\ mu (posted (fst (callback ok o e s))) < w (o, e) + mu (posted s).
Proof.
  intros ok o e s H M L. assert (J : is_ok e = true -> im s = SelectUnix) by (intros X; destruct (im s); [rewrite M in X by reflexivity; discriminate|reflexivity]). destruct o; cbn [callback] in *.
  - unfold connect_callback in *. destruct (is_ok e); [|discriminate]. cbn [fst] in *. rewrite (K_read s H (J eq_refl)). pose proof (K_post s TcpRead Aborted H eq_refl) as H1. rewrite (K_sr _ H1). split; [apply K_post; auto|]. flds. rewrite !mu_app. cbn. lia.
  - unfold tcp_readen in *. destruct (Nat.eqb (rlen s) 0 || is_eof e).
    + cbn [fst] in *. unfold str_close. rewrite (k_stop _ H). split; [apply K_post; auto|]. flds. rewrite mu_app. cbn. lia.
    + destruct (is_ok e) eqn:E.
      * cbn [fst] in *. unfold str_write. rewrite (k_stop _ H). split; [apply K_post; auto|]. flds. rewrite mu_app. cbn. lia.
      * destruct (K_abort_tre s H L) as [A ->]. split; [exact A|]. cbn [w]. lia.
  - unfold tcp_written in *. destruct (is_ok e) eqn:E.
    + cbn [fst] in *. rewrite (K_sr _ H). split; [apply K_post; auto|]. flds. rewrite mu_app. destruct e; try discriminate. cbn. lia.
    + destruct (K_abort_sre s H L) as [A ->]. split; [exact A|]. destruct e; cbn [w]; lia.
  - unfold stream_readen in *. destruct (Nat.eqb (srs s) 0 || is_eof e).
    + pose proof (K_ended (upd_sre true s) (K_sre _ H)) as E. destruct (is_ended (upd_sre true s)) as [s' x]. cbn [fst] in *. rewrite (E L). split; [apply K_sre, H|]. flds. destruct e; cbn [w]; lia.
    + destruct (is_ok e) eqn:E.
      * cbn [fst] in *. unfold tcp_write. rewrite (J eq_refl), (k_abort _ H). split; [apply K_post; auto|]. flds. rewrite mu_app. destruct e; try discriminate. cbn. lia.
      * destruct (K_abort_sre s H L) as [A ->]. split; [exact A|]. destruct e; cbn [w]; lia.
  - unfold stream_written in *. destruct (is_ok e) eqn:E.
    + cbn [fst] in *. rewrite (K_read s H (J eq_refl)). split; [apply K_post; auto|]. flds. rewrite mu_app. destruct e; try discriminate. cbn. lia.
    + destruct (K_abort_tre s H L) as [A ->]. split; [exact A|]. destruct e; cbn [w]; lia.
  - unfold stream_closed in *. pose proof (K_ended (upd_tre true s) (K_tre _ H)) as E. rewrite (E L). split; [apply K_tre, H|]. flds. destruct e; cbn [w]; lia.
Qed.
Lemma K_same : forall s s', K s -> stopped s' = stopped s -> soc s' = soc s -> st_read s' = st_read s -> st_write s' = st_write s -> st_close s' = st_close s -> posted s' = posted s -> im s' = im s -> K s'.
Proof. intros s s' [S A I L] E1 E2 E3 E4 E5 E6 E7. unfold soc in E2. inversion E2. unfold idle in *. constructor; unfold idle; rewrite ?E1, ?E3, ?E4, ?E5, ?E6, ?E7; try (repeat split; intuition congruence); auto; congruence. Qed.
Lemma step_K : forall s v, K s -> live (fst (step s v)) = true -> K (fst (step s v)) /\ mu (posted (fst (step s v))) <= mu (posted s) /\ (forall n ok, v = Run n ok -> n < length (posted s) -> mu (posted (fst (step s v))) < mu (posted s)).
Proof.
  intros s v H L. assert (HI := k_idle _ H). destruct HI as (I1 & I2 & I3 & I4 & I5 & I6).
  assert (SAME : forall s', stopped s' = stopped s -> soc s' = soc s -> st_read s' = st_read s -> st_write s' = st_write s -> st_close s' = st_close s -> posted s' = posted s -> im s' = im s -> (forall n ok, v <> Run n ok) ->
    K s' /\ mu (posted s') <= mu (posted s) /\ (forall n ok, v = Run n ok -> n < length (posted s) -> mu (posted s') < mu (posted s))).
  { intros s' E1 E2 E3 E4 E5 E6 E7 N. split; [eapply K_same; eauto|]. rewrite E6. split; [lia|]. intros n ok X. contradiction (N n ok X). }
  unfold step in *. destruct (live s) eqn:LV; cbn [negb] in *; [|cbn [fst] in L; congruence].
  destruct v; cbn [fst] in *.
  - unfold fail_conn. rewrite I1. match goal with |- K ?s' /\ _ => apply (SAME s') end; auto; try reflexivity; try discriminate. unfold soc. flds. rewrite I1. reflexivity.
  - destruct (fin s); match goal with |- K ?s' /\ _ => apply (SAME s') end; auto; try discriminate.
  - unfold take. rewrite I2. cbn [andb]. match goal with |- K ?s' /\ _ => apply (SAME s') end; auto; discriminate.
  - destruct (input s); [|match goal with |- K ?s' /\ _ => apply (SAME s') end; auto; discriminate]. cbn [fst] in *. unfold fail_read, fail_conn, resolve_if. flds. rewrite I1. flds. rewrite I2. match goal with |- K ?s' /\ _ => apply (SAME s') end; auto; try reflexivity; try discriminate. unfold soc. flds. rewrite I1, I2. reflexivity.
  - destruct (im s) eqn:IM; cbn [fst] in *; unfold fail_write, fail_read, fail_conn, resolve_if; flds; rewrite I1; flds; rewrite I2; flds; rewrite ?I3; (match goal with |- K ?s' /\ _ => apply (SAME s') end; auto; try reflexivity; try discriminate); unfold soc; flds; rewrite I1, I2, ?I3; reflexivity.
  - unfold fail_write. rewrite I3. match goal with |- K ?s' /\ _ => apply (SAME s') end; auto; try reflexivity; try discriminate. unfold soc. flds. rewrite I3. reflexivity.
  - rewrite I4. cbn [andb]. match goal with |- K ?s' /\ _ => apply (SAME s') end; auto; discriminate.
  - rewrite I4. cbn [andb]. match goal with |- K ?s' /\ _ => apply (SAME s') end; auto; discriminate.
  - rewrite I5. match goal with |- K ?s' /\ _ => apply (SAME s') end; auto; discriminate.
  - rewrite I6. match goal with |- K ?s' /\ _ => apply (SAME s') end; auto; discriminate.
  - unfold str_stop. rewrite (k_stop _ H). match goal with |- K ?s' /\ _ => apply (SAME s') end; auto; discriminate.
  - rewrite (abort_id s (k_abort _ H) (k_stop _ H)). match goal with |- K ?s' /\ _ => apply (SAME s') end; auto; discriminate.
  - destruct (nth_error (posted s) n) as [[o e]|] eqn:E.
    + assert (HP : K (upd_posted (remove_nth n (posted s)) s)) by (destruct H as [S A I LB]; constructor; flds; auto; intros M o' e' X; apply (LB M o' e'), (in_remove n), X).
      destruct (K_callback ok o e _ HP) as [C1 C2]; auto. { intros M. apply (k_lib _ H M o e). apply nth_error_In in E. exact E. }
      change (posted (upd_posted (remove_nth n (posted s)) s)) with (remove_nth n (posted s)) in C2. rewrite <- (mu_remove n _ _ E) in C2. split; [exact C1|]. split; [lia|]. intros. lia.
    + split; [exact H|]. cbn [fst]. split; [lia|]. intros n' ok' X Y. inversion X; subst. apply nth_error_None in E. lia.
Qed.
Definition turns (l : list ev) : nat := length (filter (fun v => match v with Run 0 _ => true | _ => false end) l).
Lemma dead_run : forall l s, live s = false -> fst (run s l) = s.
Proof. induction l as [|v l IH]; intros s L; cbn [run]; [reflexivity|]. unfold step. rewrite L. cbn [negb]. specialize (IH s L). destruct (run s l). exact IH. Qed.
Lemma run_K : forall l s, K s -> live (fst (run s l)) = true -> K (fst (run s l)) /\ (posted (fst (run s l)) <> [] -> mu (posted (fst (run s l))) + turns l <= mu (posted s)).
Proof.
  induction l as [|v l IH]; intros s H L; cbn [run] in *; [split; [exact H|]; intros _; cbn; lia|].
  pose proof (step_K s v H) as S. destruct (step s v) as [s1 o1] eqn:E. cbn [fst] in S. destruct (live s1) eqn:L1.
  2: { pose proof (dead_run l s1 L1) as D. destruct (run s1 l) as [s2 o2]. cbn [fst] in *. congruence. }
  destruct (S eq_refl) as (S1 & S2 & S3). specialize (IH s1 S1). destruct (run s1 l) as [s2 o2]. cbn [fst] in *. destruct (IH L) as [J1 J2]. split; [exact J1|]. intros P. specialize (J2 P).
  unfold turns in *. cbn [filter]. destruct v; try lia. destruct n as [|n]; [|lia]. cbn [length].
  destruct (posted s) as [|x p] eqn:PS.
  - exfalso. destruct (posted s2) as [|y q]; [congruence|]. cbn [mu] in J2. assert (w y >= 1) by (destruct y as [[] []]; cbn; lia). cbn in S2. lia.
  - assert (mu (posted s1) < mu (x :: p)) by (apply (S3 0 ok eq_refl); cbn; lia). lia.
Qed.
(** A live connection which has been told to stop has posted some event. *)
Lemma K_posted : forall g s, Inv g s -> live s = true -> K s -> posted s <> [].
Proof.
  intros g s I L H E. unfold Inv in I. rewrite L in I. destruct I as [C T]. destruct (k_idle _ H) as (I1 & I2 & I3 & I4 & I5 & I6). pose proof (c_t _ _ _ _ C) as X. pose proof (c_s _ _ _ _ C) as Y. unfold cT, cS in *.
  rewrite E, I1, I2, I3, I4, I5, I6 in *. cbn in X, Y. destruct (tre s), (sre s); cbn in *; try lia; discriminate.
Qed.
Definition wT (x : opk * ec) : nat := match fst x with Connect | TcpRead | StrWrite | StrClose => 1 | _ => 0 end.
Definition wS (x : opk * ec) : nat := match fst x with Connect | StrRead | TcpWrite => 1 | _ => 0 end.
Lemma w_bound : forall p, let a := cnt Connect p + cnt TcpRead p + cnt StrWrite p + cnt StrClose p in let b := cnt Connect p + cnt StrRead p + cnt TcpWrite p in mu p <= 3 * a + 2 * b.
Proof.
  induction p as [|[o e] p IH]; cbn zeta in *; [cbn; lia|]. unfold cnt in *. cbn [mu filter fst]. destruct o; cbn [opk_eqb length] in *; destruct e; cbn [w]; lia.
Qed.
Lemma mu_five : forall a b g s, a <= 1 -> b <= 1 -> Core a b g s -> mu (posted s) <= 5.
Proof. intros a b g s A B C. pose proof (w_bound (posted s)) as W. cbn zeta in W. pose proof (c_t _ _ _ _ C) as X. pose proof (c_s _ _ _ _ C) as Y. unfold cT, cS in *. lia. Qed.
Lemma stop_released : forall s l g, K s -> live s = true -> Inv g s -> 5 <= turns l -> live (fst (run s l)) = false.
Proof.
  intros s l g H L I T. destruct (live (fst (run s l))) eqn:E; [|reflexivity]. exfalso. destruct (run_K l s H E) as [H1 M].
  assert (I2 : exists g', Inv g' (fst (run s l))).
  { clear -I. revert s g I. induction l as [|v l IH]; intros s g I; cbn [run]; [exists g; exact I|]. pose proof (step_inv g s v I) as J. destruct (step s v) as [s1 o1]. destruct (IH s1 _ J) as [g' J']. destruct (run s1 l). exists g'. exact J'. }
  destruct I2 as [g' I2]. pose proof (K_posted g' _ I2 E H1) as P. specialize (M P). unfold Inv in I. rewrite L in I. destruct I as [C _]. pose proof (mu_five 1 1 g s ltac:(lia) ltac:(lia) C).
  destruct (posted (fst (run s l))) as [|y q]; [congruence|]. cbn [mu] in M. assert (w y >= 1) by (destruct y as [[] []]; cbn; lia). lia.
Qed.
Lemma remove_K : forall g s, Inv g s -> live s = true -> Sel s -> (im s = Libevent -> aborted s = false /\ forall o e, In (o, e) (posted s) -> is_ok e = false) ->
  K (fst (step s Remove)) /\ live (fst (step s Remove)) = true.
Proof.
  intros g s I L S N. pose proof (step_inv g s Remove I) as J. pose proof (im_same s Remove) as IM. unfold step in *. rewrite L in *. cbn [negb abort_connection fst] in *. unfold Inv in I. rewrite L in I. destruct I as [C T].
  assert (LV : live (str_stop (tcp_abort s)) = true) by (unfold abort_connection in *; pose proof (abort_core _ _ _ _ C) as A; cbn [abort_connection] in A; apply (c_live _ _ _ _ A)).
  split; [|exact LV]. unfold abort_connection, Inv in J. rewrite LV in J. destruct J as [C2 _].
  assert (Q : soc (str_stop (tcp_abort s)) = (false, false, false, true)).
  { rewrite soc_stop. destruct (aborted s) eqn:A; [|apply soc_abort, A]. unfold tcp_abort. rewrite A. unfold soc. destruct (im s) eqn:M; [destruct (N eq_refl); discriminate|]. destruct (S M A) as (-> & -> & ->). rewrite A. reflexivity. }
  unfold soc in Q. inversion Q as [[Q1 Q2 Q3 Q4]]. pose proof (str_stop_stopped (tcp_abort s)) as ST. destruct (c_stop _ _ _ _ C2 ST) as (R1 & R2 & R3).
  constructor; auto; [unfold idle; repeat split; congruence|].
  intros M o e H. rewrite IM in M. destruct (N M) as [A O]. destruct (x_post _ _ _ (ext_trans _ _ _ _ _ (ext_tcp_abort s) (ext_str_stop _)) _ H) as [H1|H1]; [apply (O _ _ H1)|].
  cbn [app In] in H1. destruct H1 as [H1|[H1|[H1|[H1|[H1|[H1|[]]]]]]]; inversion H1; reflexivity.
Qed.
