(** The invariant of a tunnel connection. *)
From Coq Require Import List Bool Arith NArith Lia.
From Verif Require Import RlyModel RlySpec.
Import ListNotations.

Lemma run_app : forall a b s, run s (a ++ b) = let (s1, o1) := run s a in let (s2, o2) := run s1 b in (s2, o1 ++ o2).
Proof.
  induction a as [|v a IH]; intros b s; cbn [run app]; [destruct (run s b); reflexivity|].
  destruct (step s v) as [s1 o1]. rewrite IH. destruct (run s1 a) as [s2 o2]. destruct (run s2 b) as [s3 o3]. rewrite app_assoc. reflexivity.
Qed.
Definition b2n (b : bool) : nat := if b then 1 else 0.
Definition opk_eqb (a b : opk) : bool := match a, b with Connect, Connect | TcpRead, TcpRead | TcpWrite, TcpWrite | StrRead, StrRead | StrWrite, StrWrite | StrClose, StrClose => true | _, _ => false end.
Definition cnt (o : opk) (p : list (opk * ec)) : nat := length (filter (fun x => opk_eqb o (fst x)) p).
Definition okev (o : opk) (p : list (opk * ec)) : bool := existsb (fun x => opk_eqb o (fst x) && is_ok (snd x)) p.
Lemma cnt_app : forall o p q, cnt o (p ++ q) = cnt o p + cnt o q. Proof. intros. unfold cnt. rewrite filter_app, app_length. reflexivity. Qed.
Lemma okev_app : forall o p q, okev o (p ++ q) = okev o p || okev o q. Proof. intros. unfold okev. apply existsb_app. Qed.
Lemma cnt_one : forall o x e, cnt o [(x, e)] = b2n (opk_eqb o x). Proof. intros. unfold cnt. cbn [filter fst]. destruct (opk_eqb o x); reflexivity. Qed.
Lemma okev_one : forall o x e, okev o [(x, e)] = opk_eqb o x && is_ok e. Proof. intros. unfold okev. cbn [existsb fst snd]. apply orb_false_r. Qed.
Lemma cnt_remove : forall o n p x e, nth_error p n = Some (x, e) -> cnt o p = b2n (opk_eqb o x) + cnt o (remove_nth n p).
Proof.
  induction n as [|n IH]; intros [|[y f] p] x e H; try discriminate; cbn [nth_error] in H.
  - inversion H; subst. unfold cnt. cbn [filter fst remove_nth]. destruct (opk_eqb o x); reflexivity.
  - specialize (IH p x e H). cbn [remove_nth]. unfold cnt in *. cbn [filter fst]. destruct (opk_eqb o y); cbn [length]; lia.
Qed.
Lemma okev_remove : forall o n p x e, nth_error p n = Some (x, e) -> okev o p = opk_eqb o x && is_ok e || okev o (remove_nth n p).
Proof.
  induction n as [|n IH]; intros [|[y f] p] x e H; try discriminate; cbn [nth_error] in H.
  - inversion H; subst. reflexivity.
  - specialize (IH p x e H). cbn [remove_nth]. unfold okev in *. cbn [existsb fst snd]. rewrite IH. destruct (opk_eqb o y && is_ok f), (opk_eqb o x && is_ok e); reflexivity.
Qed.
Lemma okev_cnt : forall o p, cnt o p = 0 -> okev o p = false.
Proof. induction p as [|[y f] p IH]; [reflexivity|]. unfold cnt, okev in *. cbn [filter existsb fst snd]. destruct (opk_eqb o y); cbn [length andb orb]; [discriminate|exact IH]. Qed.

(** The operations and events of each direction. *)
Definition cT (s : st) : nat := b2n (sk_conn s) + cnt Connect (posted s) + b2n (sk_read s) + cnt TcpRead (posted s) + b2n (st_write s) + cnt StrWrite (posted s) + b2n (st_close s) + cnt StrClose (posted s) + b2n (tre s).
Definition cS (s : st) : nat := b2n (sk_conn s) + cnt Connect (posted s) + b2n (st_read s) + cnt StrRead (posted s) + b2n (sk_write s) + cnt TcpWrite (posted s) + b2n (sre s).
Record Core (a b : nat) (g : list out) (s : st) : Prop := {
  c_t : cT s = a; c_s : cS s = b;
  c_crash : crashed s = false; c_live : live s = true; c_rel : releases g = 0;
  c_stop : stopped s = true -> st_read s = false /\ st_write s = false /\ st_close s = false;
  c_okt : okev TcpRead (posted s) = true -> rlen s = length (tbuf s) /\ rlen s <> 0;
  c_oks : okev StrRead (posted s) = true -> srs s = length (sbuf s) /\ srs s <> 0;
  c_gott : from_service g = to_client g ++ (if okev TcpRead (posted s) then tbuf s else []) ++ input s;
  c_gots : from_client g = to_service g ++ (if okev StrRead (posted s) then sbuf s else []) }.

Ltac flds := cbn [im live crashed tre sre rlen srs tbuf sbuf sk_conn sk_read sk_write aborted input st_read st_write st_close stopped closed posted
  upd_tre upd_sre upd_sock upd_str upd_rbuf upd_sbuf upd_posted upd_end upd_fin fin resolve set_aborted] in *.
Ltac posts := rewrite ?cnt_app, ?okev_app, ?cnt_one, ?okev_one in *; cbn [opk_eqb andb orb b2n is_ok] in *; rewrite ?orb_false_r, ?Nat.add_0_r in *.
(** An event of the socket moves from waiting to posted. *)
Lemma fail_conn_core : forall a b g e s, Core a b g s -> Core a b g (fail_conn e s).
Proof. intros a b g e s [H1 H2 H3 H4 H5 H6 H7 H8 H9 H10]. unfold fail_conn, resolve_if, cT, cS in *. destruct (sk_conn s) eqn:E; constructor; unfold cT, cS; flds; posts; rewrite ?E in *; cbn [b2n] in *; auto; lia. Qed.
Lemma fail_read_core : forall a b g e s, is_ok e = false -> Core a b g s -> Core a b g (fail_read e s).
Proof. intros a b g e s N [H1 H2 H3 H4 H5 H6 H7 H8 H9 H10]. unfold fail_read, resolve_if, cT, cS in *. destruct (sk_read s) eqn:E; constructor; unfold cT, cS; flds; posts; rewrite ?E, ?N in *; cbn [b2n] in *; rewrite ?orb_false_r in *; auto; lia. Qed.
Lemma fail_write_core : forall a b g e s, Core a b g s -> Core a b g (fail_write e s).
Proof. intros a b g e s [H1 H2 H3 H4 H5 H6 H7 H8 H9 H10]. unfold fail_write, resolve_if, cT, cS in *. destruct (sk_write s) eqn:E; constructor; unfold cT, cS; flds; posts; rewrite ?E in *; cbn [b2n] in *; auto; lia. Qed.
Lemma set_aborted_core : forall a b g s, Core a b g s -> Core a b g (set_aborted s).
Proof. intros a b g s [H1 H2 H3 H4 H5 H6 H7 H8 H9 H10]. constructor; unfold cT, cS in *; flds; auto. Qed.
Lemma upd_fin_core : forall a b g s, Core a b g s -> Core a b g (upd_fin s).
Proof. intros a b g s [H1 H2 H3 H4 H5 H6 H7 H8 H9 H10]. constructor; unfold cT, cS in *; flds; auto. Qed.
Lemma tcp_abort_core : forall a b g s, Core a b g s -> Core a b g (tcp_abort s).
Proof. intros a b g s C. unfold tcp_abort. destruct (aborted s); [exact C|]. apply fail_write_core, fail_read_core, fail_conn_core, set_aborted_core; auto. Qed.
Lemma str_stop_core : forall a b g s, Core a b g s -> Core a b g (str_stop s).
Proof.
  intros a b g s C. unfold str_stop. destruct (stopped s) eqn:S; [exact C|]. destruct C as [H1 H2 H3 H4 H5 H6 H7 H8 H9 H10]. unfold resolve_if, cT, cS in *.
  destruct (st_close s) eqn:E1, (st_write s) eqn:E2, (st_read s) eqn:E3; constructor; unfold cT, cS; flds; posts; rewrite ?E1, ?E2, ?E3 in *; cbn [b2n] in *; rewrite ?orb_false_r in *; auto; lia.
Qed.
Lemma split_bytes : forall (i : bytes), i <> [] -> length (firstn bufsize i) <> 0 /\ firstn bufsize i ++ skipn bufsize i = i.
Proof. intros i N. split; [|apply firstn_skipn]. destruct i; [congruence|]. assert (E : exists m, bufsize = S m) by (exists (N.to_nat 8191); vm_compute; reflexivity). destruct E as [m ->]. cbn. lia. Qed.
Lemma take_core : forall b g s, Core 1 b g s -> Core 1 b g (take s).
Proof.
  intros b g s C. unfold take. destruct (sk_read s) eqn:E; [|exact C]. destruct (input s) as [|x i] eqn:I; [exact C|]. cbn [andb negb]. rewrite <- I. destruct (split_bytes (input s)) as [L F]; [congruence|].
  destruct C as [H1 H2 H3 H4 H5 H6 H7 H8 H9 H10]. unfold cT, cS in *. rewrite E in *. cbn [b2n] in *.
  assert (Z : okev TcpRead (posted s) = false) by (apply okev_cnt; lia). rewrite Z in *. cbn [app] in H9.
  constructor; unfold cT, cS; flds; posts; rewrite ?Z; cbn [orb]; auto; try lia. rewrite F. exact H9.
Qed.
Lemma post_core : forall a b g o e s, is_ok e = false -> Core a b g s -> Core (a + b2n (opk_eqb Connect o || opk_eqb TcpRead o || opk_eqb StrWrite o || opk_eqb StrClose o)) (b + b2n (opk_eqb Connect o || opk_eqb StrRead o || opk_eqb TcpWrite o)) g (resolve o e s).
Proof.
  intros a b g o e s N [H1 H2 H3 H4 H5 H6 H7 H8 H9 H10]. constructor; unfold cT, cS in *; flds; rewrite ?cnt_app, ?okev_app, ?cnt_one, ?okev_one, ?N, ?andb_false_r, ?orb_false_r in *; auto; destruct o; cbn [opk_eqb orb b2n] in *; lia.
Qed.
Lemma tcp_read_core : forall b g s, Core 0 b g s -> Core 1 b g (tcp_read s).
Proof.
  intros b g s C. assert (D : Core 1 b g (upd_sock (sk_conn s) true (sk_write s) (aborted s) (input s) s)).
  { destruct C as [H1 H2 H3 H4 H5 H6 H7 H8 H9 H10]. unfold cT, cS in *. constructor; unfold cT, cS; flds; auto. destruct (sk_read s); cbn [b2n] in *; lia. }
  unfold tcp_read. destruct (im s); [apply take_core; exact D|]. destruct (aborted s) eqn:A; [|exact D]. pose proof (post_core 0 b g TcpRead Aborted s eq_refl C) as P. cbn in P. rewrite Nat.add_0_r in P. exact P.
Qed.
Lemma tcp_write_core : forall a g ok s, Core a 0 g s -> Core a 1 g (tcp_write ok s).
Proof.
  intros a g ok s C. assert (D : Core a 1 g (upd_sock (sk_conn s) (sk_read s) true (aborted s) (input s) s)).
  { destruct C as [H1 H2 H3 H4 H5 H6 H7 H8 H9 H10]. unfold cT, cS in *. constructor; unfold cT, cS; flds; auto. destruct (sk_write s); cbn [b2n] in *; lia. }
  assert (F : forall e, is_ok e = false -> Core a 1 g (resolve TcpWrite e s)) by (intros e N; pose proof (post_core a 0 g TcpWrite e s N C) as P; cbn in P; rewrite Nat.add_0_r in P; exact P).
  unfold tcp_write. destruct (im s); [destruct ok|destruct (aborted s)]; auto.
Qed.
Lemma str_read_core : forall a g s, Core a 0 g s -> Core a 1 g (str_read s).
Proof.
  intros a g s C. unfold str_read. destruct (stopped s) eqn:S; [pose proof (post_core a 0 g StrRead Stopped s eq_refl C) as P; cbn in P; rewrite Nat.add_0_r in P; exact P|].
  destruct C as [H1 H2 H3 H4 H5 H6 H7 H8 H9 H10]. unfold cT, cS in *. assert (Z : okev StrRead (posted s) = false) by (apply okev_cnt; lia).
  constructor; unfold cT, cS; flds; rewrite ?Z in *; auto; try discriminate; try (rewrite S; discriminate). destruct (st_read s); cbn [b2n] in *; lia.
Qed.
Lemma str_write_core : forall b g s, Core 0 b g s -> Core 1 b g (str_write s).
Proof.
  intros b g s C. assert (F : forall e, is_ok e = false -> Core 1 b g (resolve StrWrite e s)) by (intros e N; pose proof (post_core 0 b g StrWrite e s N C) as P; cbn in P; rewrite Nat.add_0_r in P; exact P).
  unfold str_write. destruct (stopped s) eqn:S; [auto|]. destruct (closed s); [auto|]. destruct C as [H1 H2 H3 H4 H5 H6 H7 H8 H9 H10]. unfold cT, cS in *.
  constructor; unfold cT, cS; flds; auto; try congruence; destruct (st_write s); cbn [b2n] in *; lia.
Qed.
Lemma str_close_core : forall b g s, Core 0 b g s -> Core 1 b g (str_close s).
Proof.
  intros b g s C. unfold str_close. destruct (stopped s) eqn:S; [pose proof (post_core 0 b g StrClose Stopped s eq_refl C) as P; cbn in P; rewrite Nat.add_0_r in P; exact P|].
  destruct C as [H1 H2 H3 H4 H5 H6 H7 H8 H9 H10]. unfold cT, cS in *. constructor; unfold cT, cS; flds; auto; try congruence; destruct (st_close s); cbn [b2n] in *; lia.
Qed.
Lemma upd_tre_core : forall b g s, Core 0 b g s -> Core 1 b g (upd_tre true s).
Proof. intros b g s [H1 H2 H3 H4 H5 H6 H7 H8 H9 H10]. unfold cT, cS in *. constructor; unfold cT, cS; flds; auto. destruct (tre s); cbn [b2n] in *; lia. Qed.
Lemma upd_sre_core : forall a g s, Core a 0 g s -> Core a 1 g (upd_sre true s).
Proof. intros b g s [H1 H2 H3 H4 H5 H6 H7 H8 H9 H10]. unfold cT, cS in *. constructor; unfold cT, cS; flds; auto. destruct (sre s); cbn [b2n] in *; lia. Qed.

Definition idle_b (s : st) : Prop := idle s /\ posted s = [].
Definition Inv (g : list out) (s : st) : Prop :=
  if live s then Core 1 1 g s /\ tre s && sre s = false
  else crashed s = false /\ releases g = 1 /\ prefix (to_client g) (from_service g) /\ prefix (to_service g) (from_client g) /\ idle_b s.
Definition quiet (o : list out) : Prop := forallb (fun x => match x with GotTcp _ | GotStr _ | ToTcp _ | ToStr _ | Released => false | _ => true end) o = true.
Lemma quiet_core : forall a b g o s, quiet o -> Core a b g s -> Core a b (g ++ o) s.
Proof.
  intros a b g o s Q [H1 H2 H3 H4 H5 H6 H7 H8 H9 H10].
  assert (E : from_service o = [] /\ from_client o = [] /\ to_service o = [] /\ to_client o = [] /\ releases o = 0).
  { clear -Q. unfold quiet in Q. induction o as [|x o IH]; [repeat split|]. cbn [forallb] in Q. apply andb_true_iff in Q. destruct Q as [Q1 Q2]. destruct (IH Q2) as (E1 & E2 & E3 & E4 & E5).
    unfold releases in *. cbn [from_service from_client to_service to_client flat_map filter] in *. unfold from_service, from_client, to_service, to_client in *. destruct x; try discriminate; cbn [app]; auto. }
  destruct E as (E1 & E2 & E3 & E4 & E5). unfold releases in *. constructor; unfold releases, from_service, from_client, to_service, to_client in *; rewrite ?filter_app, ?app_length, ?flat_map_app, ?E1, ?E2, ?E3, ?E4, ?E5, ?app_nil_r; auto. lia.
Qed.
Lemma end_inv : forall a b g s, Core a b g s -> st_read s = false -> st_write s = false -> st_close s = false -> let (s', o) := the_end s in Inv (g ++ o) s'.
Proof.
  intros a b g s [H1 H2 H3 H4 H5 H6 H7 H8 H9 H10] R W C. unfold the_end, Inv. flds. rewrite R, W, C, H3, andb_false_r. unfold releases, from_service, from_client, to_service, to_client, prefix, idle_b, idle in *. flds. rewrite ?filter_app, ?app_length, ?flat_map_app.
  cbn [flat_map filter length app]. rewrite !app_nil_r, H9, H10. repeat split; eauto. lia.
Qed.
Lemma is_ended_inv : forall g s, Core 1 1 g s -> let (s', o) := is_ended s in Inv (g ++ o) s'.
Proof.
  intros g s C. unfold is_ended. destruct (tre s) eqn:T, (sre s) eqn:S; cbn [andb].
  2-4: unfold Inv; rewrite (c_live _ _ _ _ C), app_nil_r, T, S; auto.
  pose proof (c_t _ _ _ _ C) as X. pose proof (c_s _ _ _ _ C) as Y. unfold cT, cS in *. rewrite T, S in *. cbn [b2n] in *. apply (end_inv 1 1); auto.
  - destruct (st_read s); cbn [b2n] in *; [lia|reflexivity].
  - destruct (st_write s); cbn [b2n] in *; [lia|reflexivity].
  - destruct (st_close s); cbn [b2n] in *; [lia|reflexivity].
Qed.
Lemma abort_core : forall a b g s, Core a b g s -> let (s', o) := abort_connection s in Core a b (g ++ o) s'.
Proof. intros a b g s C. unfold abort_connection. apply quiet_core; [reflexivity|]. apply str_stop_core, tcp_abort_core, C. Qed.
Lemma abort_tre_inv : forall g s, Core 0 1 g s -> let (s', o) := abort_tre s in Inv (g ++ o) s'.
Proof.
  intros g s C. unfold abort_tre. pose proof (abort_core _ _ _ _ C) as A. destruct (abort_connection s) as [s1 o1]. apply upd_tre_core in A. pose proof (is_ended_inv _ _ A) as B. destruct (is_ended (upd_tre true s1)) as [s2 o2]. rewrite app_assoc. exact B.
Qed.
Lemma abort_sre_inv : forall g s, Core 1 0 g s -> let (s', o) := abort_sre s in Inv (g ++ o) s'.
Proof.
  intros g s C. unfold abort_sre. pose proof (abort_core _ _ _ _ C) as A. destruct (abort_connection s) as [s1 o1]. apply upd_sre_core in A. pose proof (is_ended_inv _ _ A) as B. destruct (is_ended (upd_sre true s1)) as [s2 o2]. rewrite app_assoc. exact B.
Qed.
(** An event which runs has left the queue; the bytes of a read go to the other side. *)
Definition inT (o : opk) : nat := match o with Connect | TcpRead | StrWrite | StrClose => 0 | _ => 1 end.
Definition inS (o : opk) : nat := match o with Connect | StrRead | TcpWrite => 0 | _ => 1 end.
Definition moved (o : opk) (e : ec) (s : st) : list out := if is_ok e then match o with TcpRead => [ToStr (firstn (rlen s) (tbuf s))] | StrRead => [ToTcp (firstn (srs s) (sbuf s))] | _ => [] end else [].
Lemma pop_core : forall n o e g s, nth_error (posted s) n = Some (o, e) -> Core 1 1 g s -> Core (inT o) (inS o) (g ++ moved o e s) (upd_posted (remove_nth n (posted s)) s).
Proof.
  intros n o e g s E [H1 H2 H3 H4 H5 H6 H7 H8 H9 H10]. set (p' := remove_nth n (posted s)).
  assert (CN : forall k, cnt k (posted s) = b2n (opk_eqb k o) + cnt k p') by (intros k; apply (cnt_remove k _ _ _ _ E)).
  assert (OK : forall k, okev k (posted s) = opk_eqb k o && is_ok e || okev k p') by (intros k; apply (okev_remove k _ _ _ _ E)).
  unfold cT, cS in *. rewrite !CN in *. rewrite !OK in *.
  assert (NT : okev TcpRead p' = true -> opk_eqb TcpRead o = false) by (intros X; destruct o; try reflexivity; cbn [opk_eqb b2n] in *; rewrite okev_cnt in X by lia; discriminate).
  assert (NS : okev StrRead p' = true -> opk_eqb StrRead o = false) by (intros X; destruct o; try reflexivity; cbn [opk_eqb b2n] in *; rewrite okev_cnt in X by lia; discriminate).
  constructor; unfold cT, cS; flds; auto.
  - destruct o; cbn [opk_eqb b2n inT] in *; lia.
  - destruct o; cbn [opk_eqb b2n inS] in *; lia.
  - unfold moved, releases in *. destruct (is_ok e), o; rewrite filter_app, app_length, H5; reflexivity.
  - intros X. apply H7. rewrite X. apply orb_true_r.
  - intros X. apply H8. rewrite X. apply orb_true_r.
  - unfold moved. destruct (is_ok e) eqn:K; [|rewrite app_nil_r; rewrite andb_false_r in H9; exact H9].
    destruct o; cbn [opk_eqb andb orb] in *; unfold from_service, to_client in *; rewrite ?app_nil_r, ?flat_map_app; cbn [flat_map app]; rewrite ?app_nil_r; auto.
    destruct (H7 eq_refl) as [L _]. rewrite L, firstn_all. destruct (okev TcpRead p') eqn:Z; [specialize (NT eq_refl); discriminate|]. cbn [app]. rewrite <- app_assoc. exact H9.
  - unfold moved. destruct (is_ok e) eqn:K; [|rewrite app_nil_r; rewrite andb_false_r in H10; exact H10].
    destruct o; cbn [opk_eqb andb orb] in *; unfold from_client, to_service in *; rewrite ?app_nil_r, ?flat_map_app; cbn [flat_map app]; rewrite ?app_nil_r; auto.
    destruct (H8 eq_refl) as [L _]. rewrite L, firstn_all. destruct (okev StrRead p') eqn:Z; [specialize (NS eq_refl); discriminate|]. rewrite app_nil_r. exact H10.
Qed.
Lemma core_inv : forall g s, Core 1 1 g s -> tre s && sre s = false -> Inv g s.
Proof. intros g s C E. unfold Inv. rewrite (c_live _ _ _ _ C). auto. Qed.
Lemma tre_zero : forall b g s, Core 0 b g s -> tre s = false.
Proof. intros b g s C. pose proof (c_t _ _ _ _ C) as X. unfold cT in X. destruct (tre s); cbn [b2n] in X; [lia|reflexivity]. Qed.
Lemma sre_zero : forall a g s, Core a 0 g s -> sre s = false.
Proof. intros b g s C. pose proof (c_s _ _ _ _ C) as X. unfold cS in X. destruct (sre s); cbn [b2n] in X; [lia|reflexivity]. Qed.
Lemma tre_tcp_read : forall s, tre (tcp_read s) = tre s. Proof. intros s. unfold tcp_read, take. destruct (im s); flds; [destruct (input s); reflexivity|destruct (aborted s); reflexivity]. Qed.
Lemma sre_tcp_read : forall s, sre (tcp_read s) = sre s. Proof. intros s. unfold tcp_read, take. destruct (im s); flds; [destruct (input s); reflexivity|destruct (aborted s); reflexivity]. Qed.
Lemma tre_str_write : forall s, tre (str_write s) = tre s. Proof. intros s. unfold str_write. destruct (stopped s), (closed s); reflexivity. Qed.
Lemma tre_str_close : forall s, tre (str_close s) = tre s. Proof. intros s. unfold str_close. destruct (stopped s); reflexivity. Qed.
Lemma sre_str_read : forall s, sre (str_read s) = sre s. Proof. intros s. unfold str_read. destruct (stopped s); reflexivity. Qed.
Lemma sre_tcp_write : forall ok s, sre (tcp_write ok s) = sre s. Proof. intros ok s. unfold tcp_write. destruct (im s), ok, (aborted s); reflexivity. Qed.
Lemma callback_inv : forall ok n o e g s, nth_error (posted s) n = Some (o, e) -> Core 1 1 g s ->
  let (s', x) := callback ok o e (upd_posted (remove_nth n (posted s)) s) in Inv (g ++ x) s'.
Proof.
  intros ok n o e g s E C. pose proof (pop_core n o e g s E C) as P. set (s1 := upd_posted (remove_nth n (posted s)) s) in *.
  assert (KT : o = TcpRead -> is_ok e = true -> rlen s <> 0).
  { intros -> K. apply (c_okt _ _ _ _ C). rewrite (okev_remove TcpRead _ _ _ _ E). rewrite K. reflexivity. }
  assert (KS : o = StrRead -> is_ok e = true -> srs s <> 0).
  { intros -> K. apply (c_oks _ _ _ _ C). rewrite (okev_remove StrRead _ _ _ _ E). rewrite K. reflexivity. }
  assert (R1 : rlen s1 = rlen s /\ tbuf s1 = tbuf s /\ srs s1 = srs s /\ sbuf s1 = sbuf s) by (repeat split). destruct R1 as (R1 & R2 & R3 & R4).
  assert (NO : is_ok e = false -> moved o e s = []) by (intros K; unfold moved; rewrite K; reflexivity).
  destruct o; cbn [inT inS callback] in *.
  - (* Connect *) assert (M : moved Connect e s = []) by (unfold moved; destruct (is_ok e); reflexivity). rewrite M, app_nil_r in P. unfold connect_callback. destruct (is_ok e).
    + rewrite app_nil_r. apply core_inv; [apply str_read_core, tcp_read_core, P|]. rewrite sre_str_read, sre_tcp_read, (sre_zero _ _ _ P). apply andb_false_r.
    + pose proof (c_t _ _ _ _ P) as X. pose proof (c_s _ _ _ _ P) as Y. unfold cT, cS in *. apply (end_inv 0 0); auto; [destruct (st_read s1)|destruct (st_write s1)|destruct (st_close s1)]; cbn [b2n] in *; try lia; reflexivity.
  - (* TcpRead *) unfold tcp_readen. rewrite R1, R2. destruct (Nat.eqb (rlen s) 0 || is_eof e) eqn:Z.
    + assert (K : is_ok e = false). { destruct e; try reflexivity. cbn [is_eof] in Z. rewrite orb_false_r in Z. apply Nat.eqb_eq in Z. exfalso. apply (KT eq_refl eq_refl Z). }
      rewrite (NO K), app_nil_r in P. apply core_inv; [apply quiet_core; [destruct (stopped s1); reflexivity|]; apply str_close_core, P|]. rewrite tre_str_close, (tre_zero _ _ _ P). reflexivity.
    + destruct (is_ok e) eqn:K.
      * unfold moved in P. rewrite K in P. apply core_inv; [apply str_write_core, P|]. rewrite tre_str_write, (tre_zero _ _ _ P). reflexivity.
      * rewrite (NO eq_refl), app_nil_r in P. apply abort_tre_inv, P.
  - (* TcpWrite *) assert (M : moved TcpWrite e s = []) by (unfold moved; destruct (is_ok e); reflexivity). rewrite M, app_nil_r in P. unfold tcp_written. destruct (is_ok e); [|apply abort_sre_inv, P].
    rewrite app_nil_r. apply core_inv; [apply str_read_core, P|]. rewrite sre_str_read, (sre_zero _ _ _ P). apply andb_false_r.
  - (* StrRead *) unfold stream_readen. rewrite R3, R4. destruct (Nat.eqb (srs s) 0 || is_eof e) eqn:Z.
    + assert (K : is_ok e = false). { destruct e; try reflexivity. cbn [is_eof] in Z. rewrite orb_false_r in Z. apply Nat.eqb_eq in Z. exfalso. apply (KS eq_refl eq_refl Z). }
      rewrite (NO K), app_nil_r in P. apply upd_sre_core in P. apply (quiet_core _ _ _ [ShutTcp]) in P; [|reflexivity]. pose proof (is_ended_inv _ _ P) as B. destruct (is_ended (upd_sre true s1)) as [s2 o2]. rewrite <- app_assoc in B. exact B.
    + destruct (is_ok e) eqn:K.
      * unfold moved in P. rewrite K in P. apply core_inv; [apply tcp_write_core, P|]. rewrite sre_tcp_write, (sre_zero _ _ _ P). apply andb_false_r.
      * rewrite (NO eq_refl), app_nil_r in P. apply abort_sre_inv, P.
  - (* StrWrite *) assert (M : moved StrWrite e s = []) by (unfold moved; destruct (is_ok e); reflexivity). rewrite M, app_nil_r in P. unfold stream_written. destruct (is_ok e); [|apply abort_tre_inv, P].
    rewrite app_nil_r. apply core_inv; [apply tcp_read_core, P|]. rewrite tre_tcp_read, (tre_zero _ _ _ P). reflexivity.
  - (* StrClose *) assert (M : moved StrClose e s = []) by (unfold moved; destruct (is_ok e); reflexivity). rewrite M, app_nil_r in P. unfold stream_closed. apply is_ended_inv, upd_tre_core, P.
Qed.
Ltac ends := unfold fail_conn, fail_read, fail_write, take, tcp_abort, str_stop, resolve_if; repeat (match goal with |- context [if ?b then _ else _] => destruct b end; flds); reflexivity.
Lemma ends_fail_conn : forall e s, tre (fail_conn e s) = tre s /\ sre (fail_conn e s) = sre s. Proof. intros e s. split; ends. Qed.
Lemma ends_fail_read : forall e s, tre (fail_read e s) = tre s /\ sre (fail_read e s) = sre s. Proof. intros e s. split; ends. Qed.
Lemma ends_fail_write : forall e s, tre (fail_write e s) = tre s /\ sre (fail_write e s) = sre s. Proof. intros e s. split; ends. Qed.
Lemma ends_tcp_abort : forall s, tre (tcp_abort s) = tre s /\ sre (tcp_abort s) = sre s.
Proof. intros s. unfold tcp_abort. destruct (aborted s); [auto|]. rewrite !(proj1 (ends_fail_write _ _)), !(proj2 (ends_fail_write _ _)), !(proj1 (ends_fail_read _ _)), !(proj2 (ends_fail_read _ _)), !(proj1 (ends_fail_conn _ _)), !(proj2 (ends_fail_conn _ _)). auto. Qed.
Lemma ends_str_stop : forall s, tre (str_stop s) = tre s /\ sre (str_stop s) = sre s. Proof. intros s. split; ends. Qed.
Lemma ends_take : forall s, tre (take s) = tre s /\ sre (take s) = sre s. Proof. intros s. split; ends. Qed.
Lemma step_inv : forall g s v, Inv g s -> let (s', o) := step s v in Inv (g ++ o) s'.
Proof.
  intros g s v I. unfold step. destruct (live s) eqn:L; cbn [negb]; [|rewrite app_nil_r; exact I].
  unfold Inv in I. rewrite L in I. destruct I as [C T].
  destruct v.
  - rewrite app_nil_r. apply core_inv; [apply fail_conn_core, C|]. destruct (ends_fail_conn Ok s) as [-> ->]. exact T.
  - (* TcpData *) destruct (fin s); cbn iota; [rewrite app_nil_r; apply core_inv; auto|]. apply core_inv; [|exact T]. destruct C as [H1 H2 H3 H4 H5 H6 H7 H8 H9 H10]. constructor; unfold cT, cS in *; flds; auto.
    + unfold releases in *. rewrite filter_app, app_length, H5. reflexivity.
    + unfold from_service, to_client in *. rewrite !flat_map_app. cbn [flat_map]. rewrite !app_nil_r, H9, <- !app_assoc. reflexivity.
    + unfold from_client, to_service in *. rewrite !flat_map_app. cbn [flat_map]. rewrite !app_nil_r. exact H10.
  - rewrite app_nil_r. apply core_inv; [apply take_core, C|]. destruct (ends_take s) as [-> ->]. exact T.
  - destruct (input s) eqn:In; rewrite app_nil_r; [|apply core_inv; auto]. apply core_inv; [apply fail_read_core; [reflexivity|]; apply fail_conn_core, upd_fin_core, C|].
    rewrite (proj1 (ends_fail_read _ _)), (proj2 (ends_fail_read _ _)). destruct (ends_fail_conn Eof (upd_fin s)) as [-> ->]. exact T.
  - destruct (im s); cbn iota; rewrite app_nil_r; (apply core_inv; [try apply fail_write_core; apply fail_read_core; [reflexivity|]; apply fail_conn_core, upd_fin_core, C|]);
      rewrite ?(proj1 (ends_fail_write _ _)), ?(proj2 (ends_fail_write _ _)), (proj1 (ends_fail_read _ _)), (proj2 (ends_fail_read _ _)); destruct (ends_fail_conn Aborted (upd_fin s)) as [-> ->]; exact T.
  - rewrite app_nil_r. apply core_inv; [apply fail_write_core, C|]. destruct (ends_fail_write Ok s) as [-> ->]. exact T.
  - (* StrData *) destruct (st_read s) eqn:R; [|cbn [andb]; rewrite app_nil_r; apply core_inv; auto]. destruct b as [|x b]; [cbn [andb negb]; rewrite app_nil_r; apply core_inv; auto|]. cbn [andb negb]. destruct (Nat.leb (length (x :: b)) bufsize); [|cbn [andb]; rewrite app_nil_r; apply core_inv; auto].
    apply core_inv; [|exact T]. destruct C as [H1 H2 H3 H4 H5 H6 H7 H8 H9 H10]. unfold cT, cS in *. rewrite R in *. cbn [b2n] in *. assert (Z : okev StrRead (posted s) = false) by (apply okev_cnt; lia). rewrite Z in *.
    constructor; unfold cT, cS; flds; posts; rewrite ?Z; cbn [orb]; auto; try lia.
    + unfold releases in *. rewrite filter_app, app_length, H5. reflexivity.
    + intros S. destruct (H6 S) as (X & Y). discriminate.
    + intros _. cbn [length]. split; [reflexivity|lia].
    + unfold from_service, to_client in *. rewrite !flat_map_app. cbn [flat_map]. rewrite !app_nil_r. exact H9.
    + unfold from_client, to_service in *. rewrite !flat_map_app. cbn [flat_map]. rewrite !app_nil_r, H10, app_nil_r. reflexivity.
  - destruct (st_read s) eqn:R; [|cbn [andb]; rewrite app_nil_r; apply core_inv; auto]. destruct (is_ok e) eqn:K; [cbn [andb negb]; rewrite app_nil_r; apply core_inv; auto|]. cbn [andb negb]. rewrite app_nil_r.
    apply core_inv; [|exact T]. destruct C as [H1 H2 H3 H4 H5 H6 H7 H8 H9 H10]. unfold cT, cS in *. rewrite R in *. cbn [b2n] in *.
    constructor; unfold cT, cS; flds; posts; rewrite ?K, ?orb_false_r in *; auto; try lia. intros S. destruct (H6 S) as (X & Y). discriminate.
  - unfold resolve_if. rewrite app_nil_r. destruct (st_write s) eqn:R; (apply core_inv; [|exact T]); destruct C as [H1 H2 H3 H4 H5 H6 H7 H8 H9 H10]; unfold cT, cS in *; rewrite R in *; cbn [b2n] in *;
      constructor; unfold cT, cS; flds; posts; auto; try lia; intros S; destruct (H6 S) as (X & Y & W); auto.
  - rewrite app_nil_r. unfold resolve_if. destruct (st_close s) eqn:R; (apply core_inv; [|exact T]); destruct C as [H1 H2 H3 H4 H5 H6 H7 H8 H9 H10]; unfold cT, cS in *; rewrite R in *; cbn [b2n] in *;
      constructor; unfold cT, cS; flds; posts; auto; try lia; intros S; destruct (H6 S) as (X & Y & W); auto.
  - rewrite app_nil_r. apply core_inv; [apply str_stop_core, C|]. destruct (ends_str_stop s) as [-> ->]. exact T.
  - pose proof (abort_core _ _ _ _ C) as A. unfold abort_connection in *. apply core_inv; [exact A|]. destruct (ends_str_stop (tcp_abort s)) as [-> ->]. destruct (ends_tcp_abort s) as [-> ->]. exact T.
  - destruct (nth_error (posted s) n) as [[o e]|] eqn:E; [|rewrite app_nil_r; apply core_inv; auto]. apply callback_inv; assumption.
Qed.
Lemma start_inv : forall i ok gone, Inv [] (start i ok gone).
Proof. intros i ok gone. unfold start, tcp_connect. flds. destruct i, ok, gone; (apply core_inv; [|reflexivity]; constructor; vm_compute; auto; intros; discriminate). Qed.
Lemma run_inv : forall l i ok gone, let (s, o) := run (start i ok gone) l in Inv o s.
Proof.
  intros l i ok gone. induction l as [|v l IH] using rev_ind; [apply start_inv|]. rewrite run_app. destruct (run (start i ok gone) l) as [s o]. cbn [run]. pose proof (step_inv o s v IH) as S. destruct (step s v) as [s' o']. rewrite app_nil_r. exact S.
Qed.
