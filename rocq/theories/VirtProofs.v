From Coq Require Import List Bool Arith Lia.
From Verif Require Import VirtModel VirtSpec.
Import ListNotations.

Lemma run_app : forall h1 h2 s, run s (h1 ++ h2) = (fst (run (fst (run s h1)) h2), snd (run s h1) ++ snd (run (fst (run s h1)) h2)).
Proof.
  induction h1 as [|o h1 IH]; intros h2 s; cbn [run app].
  - cbn [fst snd app]. destruct (run s h2); reflexivity.
  - destruct (step o s) as [s1 l]. rewrite IH. destruct (run s1 h1) as [s2 t]. cbn [fst snd]. destruct (run s2 h2). reflexivity.
Qed.
Lemma run_snoc : forall h o s, run s (h ++ [o]) = (fst (step o (fst (run s h))), snd (run s h) ++ [(o, snd (step o (fst (run s h))))]).
Proof. intros. rewrite run_app. cbn [run]. destruct (step o (fst (run s h))). reflexivity. Qed.
Lemma run_ops : forall h s, map fst (snd (run s h)) = h.
Proof. induction h as [|o h IH]; intros s; cbn; [reflexivity|]. destruct (step o s) as [s1 l]. specialize (IH s1). destruct (run s1 h). cbn in *. congruence. Qed.
Lemma outs_snoc : forall t o l, outs (t ++ [(o, l)]) = outs t ++ l.
Proof. intros. unfold outs. rewrite flat_map_app. cbn. rewrite app_nil_r. reflexivity. Qed.
Lemma count_app : forall A (f : A -> bool) a b, count f (a ++ b) = count f a + count f b.
Proof. intros. unfold count. rewrite filter_app, app_length. reflexivity. Qed.

(** ** The bytes *)
Definition writer (w : who) (s : vstream) : side := match w with Server => srv s | Client => cli s end.
Definition rest (w : who) (s : vstream) : list nat := match d_write (writer w s) with Some x => w_rest x | None => [] end.
Definition wrote1 (w : who) (o : op) (l : list out) : list nat := if refused o l then [] else bytes w o.
Definition got1 (w : who) (l : list out) : list nat := flat_map (fun x => match x with Copied w' _ b => match w, w' with Server, Server | Client, Client => b | _, _ => [] end | _ => [] end) l.
Lemma written_snoc : forall w t o l, written w (t ++ [(o, l)]) = written w t ++ wrote1 w o l.
Proof. intros. unfold written. rewrite flat_map_app. cbn. rewrite app_nil_r. reflexivity. Qed.
Lemma received_snoc : forall w t o l, received w (t ++ [(o, l)]) = received w t ++ got1 w l.
Proof. intros. unfold received. rewrite outs_snoc, flat_map_app. reflexivity. Qed.
Definition stopped (s : vstream) : bool := d_stopped (srv s) || d_stopped (cli s).
Definition still (s : vstream) : Prop := stopped s = true -> d_read (srv s) = None /\ d_write (srv s) = None.
Lemma got_app : forall w a b, got1 w (a ++ b) = got1 w a ++ got1 w b.
Proof. intros. unfold got1. apply flat_map_app. Qed.
Lemma got_resolve : forall w e c, got1 w (resolve e c) = [].
Proof. intros w [e|] c; reflexivity. Qed.

Ltac crush := repeat match goal with
  | |- context [match d_read (srv ?s) with _ => _ end] => destruct (d_read (srv s)) eqn:?
  | |- context [match d_write (srv ?s) with _ => _ end] => destruct (d_write (srv s)) eqn:?
  | |- context [match d_read (cli ?s) with _ => _ end] => destruct (d_read (cli s)) eqn:?
  | |- context [match d_write (cli ?s) with _ => _ end] => destruct (d_write (cli s)) eqn:?
  | |- context [match d_open (srv ?s) with _ => _ end] => destruct (d_open (srv s)) eqn:?
  | |- context [match d_close (srv ?s) with _ => _ end] => destruct (d_close (srv s)) eqn:?
  | |- context [if ?b then _ else _] => destruct b eqn:?
  end.
Lemma do_write_bytes : forall s, let x := do_write s in got1 Client (snd x) = [] /\ rest Client s = got1 Server (snd x) ++ rest Client (fst x) /\ rest Server (fst x) = rest Server s /\ stopped (fst x) = stopped s.
Proof.
  intros [a b]. unfold do_write, rest, writer, stopped. cbn [srv cli]. destruct (d_read a) as [r|]; [|auto]. destruct (d_write b) as [w|] eqn:W; [|cbn; rewrite W; auto].
  destruct (r_left r <? length (w_rest w)) eqn:L.
  - cbn. rewrite !app_nil_r, firstn_skipn. auto.
  - rewrite firstn_all. destruct ((length (w_rest w) <? r_left r) && r_all r) eqn:A; unfold resolve_write; cbn; destruct (d_closed b); cbn.
    + destruct (r_all r); cbn; rewrite ?app_nil_r; repeat split; auto; destruct (d_write b); cbn; destruct (d_close b); cbn; rewrite ?app_nil_r; auto.
    + rewrite W. cbn. rewrite ?app_nil_r. auto.
    + rewrite W; cbn. destruct (d_close b); cbn; rewrite ?app_nil_r; auto.
    + rewrite W. cbn. rewrite ?app_nil_r. auto.
Qed.
Lemma do_read_bytes : forall s, let x := do_read s in got1 Server (snd x) = [] /\ rest Server s = got1 Client (snd x) ++ rest Server (fst x) /\ rest Client (fst x) = rest Client s /\ stopped (fst x) = stopped s.
Proof.
  intros [a b]. unfold do_read, rest, writer, stopped. cbn [srv cli]. destruct (d_read b) as [r|]; [|auto]. destruct (d_write a) as [w|] eqn:W; [|cbn; rewrite W; auto].
  destruct (r_left r <? length (w_rest w)) eqn:L.
  - apply Nat.ltb_lt in L. assert (length (w_rest w) <? r_left r = false) as -> by (apply Nat.ltb_ge; lia). cbn. rewrite !app_nil_r, firstn_skipn. auto.
  - apply Nat.ltb_ge in L. assert (F : firstn (if length (w_rest w) <? r_left r then length (w_rest w) else r_left r) (w_rest w) = w_rest w). { destruct (length (w_rest w) <? r_left r) eqn:E; [apply firstn_all|]. apply Nat.ltb_ge in E. replace (r_left r) with (length (w_rest w)) by lia. apply firstn_all. }
    rewrite F. destruct ((length (w_rest w) <? r_left r) && r_all r) eqn:A; cbn; destruct (d_closed a); cbn; destruct (d_close a); cbn; rewrite ?app_nil_r; auto.
Qed.
Definition all_ok (l : list out) : Prop := forall e c, In (Complete e c) l -> c = Ok.
Lemma ok_refused : forall o l, all_ok l -> refused o l = false.
Proof.
  intros o l A. unfold refused. destruct (event1 o) as [e|]; [|reflexivity]. apply not_true_iff_false. intros X. apply existsb_exists in X as (x & I & X). destruct x as [e' c| |]; try discriminate. rewrite (A _ _ I) in X. discriminate.
Qed.
Lemma ok_resolve : forall e, all_ok (resolve e Ok).
Proof. intros [e|] e' c; cbn; intros X; [destruct X as [X|[]]; congruence|destruct X]. Qed.
Lemma ok_app : forall a b, all_ok a -> all_ok b -> all_ok (a ++ b).
Proof. intros a b A B e c X. apply in_app_iff in X as [X|X]; [eapply A; eauto|eapply B; eauto]. Qed.
Lemma ok_cons : forall x a, match x with Complete _ c => c = Ok | _ => True end -> all_ok a -> all_ok (x :: a).
Proof. intros x a X A e c [->|I]; [exact X|eapply A; eauto]. Qed.
Lemma ok_nil : all_ok []. Proof. intros e c []. Qed.
Lemma resolve_write_ok : forall s, all_ok (snd (resolve_write Ok s)).
Proof.
  intros s. unfold resolve_write. cbn. destruct (d_closed (cli s)); [|apply ok_resolve]. destruct (d_read (srv s)) as [r|]; [destruct (r_all r)|]; cbn [snd]; repeat apply ok_app; try apply ok_resolve; auto using ok_nil, ok_cons.
Qed.
Lemma do_write_ok : forall s, all_ok (snd (do_write s)).
Proof.
  intros s. unfold do_write. destruct (d_read (srv s)) as [r|]; [|exact ok_nil]. destruct (d_write (cli s)) as [w|]; [|exact ok_nil].
  destruct (r_left r <? length (w_rest w)); [cbn; repeat apply ok_cons; auto using ok_nil|].
  destruct (_ && _).
  - pose proof (resolve_write_ok (on_srv (set_read (Some {| r_all := r_all r; r_ev := r_ev r; r_left := r_left r - length (w_rest w); r_len := r_len r + length (w_rest w) |})) s)) as O. destruct (resolve_write Ok _) as [s' l]. cbn in *. repeat apply ok_cons; auto.
  - pose proof (resolve_write_ok (on_srv (set_read None) s)) as O. destruct (resolve_write Ok _) as [s' l]. cbn in *. repeat apply ok_cons; auto.
Qed.
Lemma do_read_ok : forall s, all_ok (snd (do_read s)).
Proof.
  intros s. unfold do_read. destruct (d_read (cli s)) as [r|]; [|exact ok_nil]. destruct (d_write (srv s)) as [w|]; [|exact ok_nil].
  destruct (r_left r <? length (w_rest w)); [|destruct (_ && _)]; cbn; try destruct (d_closed (srv s)); cbn; repeat apply ok_cons; auto using ok_nil, ok_resolve.
Qed.
Lemma refused_one : forall o e c, event1 o = Some e -> c <> Ok -> refused o [Complete e c] = true.
Proof. intros o e c E N. unfold refused. rewrite E. cbn. rewrite Nat.eqb_refl. destruct c; auto; congruence. Qed.
Lemma wrote_refused : forall w o l, refused o l = true -> wrote1 w o l = [].
Proof. intros w o l R. unfold wrote1. rewrite R. reflexivity. Qed.

Lemma wrote_none : forall w o l, bytes w o = [] -> wrote1 w o l = [].
Proof. intros w o l B. unfold wrote1. rewrite B. destruct (refused o l); reflexivity. Qed.

Lemma still_no_write : forall s, still s -> stopped s = true -> forall x, do_write (on_cli x s) = (on_cli x s, []).
Proof. intros s S X x. destruct (S X) as [R W]. unfold do_write. cbn. rewrite R. reflexivity. Qed.
Definition moved (w : who) (s : vstream) (o : op) (s' : vstream) (l : list out) : Prop :=
  rest w s ++ wrote1 w o l = got1 (other w) l ++ rest w s' \/ got1 (other w) l = [] /\ wrote1 w o l = [] /\ stopped s' = true /\ rest w s' = [].
Lemma moved_same : forall w s o s' l, rest w s' = rest w s -> got1 (other w) l = [] -> wrote1 w o l = [] -> moved w s o s' l.
Proof. intros w s o s' l A B C. left. rewrite A, B, C, app_nil_r. reflexivity. Qed.
Lemma step_still : forall o s, still s -> still (fst (step o s)) /\ (stopped s = true -> stopped (fst (step o s)) = true).
Proof.
  intros o s S. destruct o as [e|all e n|e b|e| |all e n|e b|e|]; cbn [step].
  - fold (stopped s). destruct (stopped s) eqn:X; [split; [exact S|auto]|]. destruct (d_open (srv s)); [split; [exact S|congruence]|]. unfold still, stopped in *. cbn. split; congruence.
  - fold (stopped s). destruct (stopped s) eqn:X; [split; [exact S|auto]|]. destruct (d_read (srv s)); [split; [exact S|congruence]|]. destruct (_ && _); [split; [exact S|congruence]|].
    pose proof (do_write_bytes (on_srv (set_read (Some {| r_all := all; r_ev := e; r_left := n; r_len := 0 |})) s)) as (_ & _ & _ & D). destruct (do_write _) as [s' l]. cbn [fst snd] in *. unfold still. change (stopped s' = stopped s) in D. rewrite D. split; congruence.
  - fold (stopped s). destruct (stopped s) eqn:X; [split; [exact S|auto]|]. destruct (d_write (srv s)); [split; [exact S|congruence]|]. destruct (d_closed (srv s)); [split; [exact S|congruence]|].
    pose proof (do_read_bytes (on_srv (set_write (Some {| w_ev := e; w_rest := b |})) s)) as (_ & _ & _ & D). destruct (do_read _) as [s' l]. cbn [fst snd] in *. unfold still. change (stopped s' = stopped s) in D. rewrite D. split; congruence.
  - fold (stopped s). destruct (stopped s) eqn:X; [split; [exact S|auto]|]. destruct (d_close (srv s)); [split; [exact S|congruence]|]. cbn. destruct (d_write (srv s)); unfold still, stopped in *; cbn; split; congruence.
  - destruct (d_stopped (srv s)) eqn:X; [split; [exact S|auto]|]. unfold still, stopped. cbn. auto.
  - destruct (d_read (cli s)); [split; [exact S|auto]|]. destruct (d_closed (srv s)); [split; [exact S|auto]|].
    pose proof (do_read_bytes (on_cli (set_read (Some {| r_all := all; r_ev := e; r_left := n; r_len := 0 |})) s)) as (_ & _ & _ & D). destruct (stopped s) eqn:X.
    + destruct (S X) as [A B]. unfold do_read in *. cbn in *. rewrite B in *. cbn in *. unfold still, stopped in *. cbn. auto.
    + destruct (do_read _) as [s' l]. cbn [fst snd] in *. unfold still. change (stopped s' = stopped s) in D. rewrite D. split; congruence.
  - fold (stopped s). destruct (stopped s) eqn:X; [split; [exact S|auto]|]. destruct (d_closed (cli s)); [split; [exact S|congruence]|]. destruct (d_write (cli s)); [split; [exact S|congruence]|].
    pose proof (do_write_bytes (on_cli (set_write (Some {| w_ev := e; w_rest := b |})) s)) as (_ & _ & _ & D). destruct (do_write _) as [s' l]. cbn [fst snd] in *. unfold still. change (stopped s' = stopped s) in D. rewrite D. split; congruence.
  - cbn. destruct (d_write (cli s)); unfold still, stopped in *; cbn in *; (split; [intros X; destruct (S X); auto|auto]).
  - destruct (d_stopped (cli s)) eqn:X; [split; [exact S|auto]|]. unfold still, stopped. cbn. rewrite orb_true_r. auto.
Qed.
Lemma step_moved : forall w o s, still s -> moved w s o (fst (step o s)) (snd (step o s)).
Proof.
  intros w o s S. assert (NOT : forall e c, event1 o = Some e -> c <> Ok -> moved w s o s [Complete e c]) by (intros e c E N; apply moved_same; [reflexivity|reflexivity|apply wrote_refused, refused_one; auto]).
  destruct o as [e|all e n|e b|e| |all e n|e b|e|]; cbn [step].
  - destruct (_ || _); [apply NOT; [reflexivity|discriminate]|]. destruct (d_open (srv s)); [apply NOT; [reflexivity|discriminate]|]. cbn [fst snd]. apply moved_same; [destruct w; reflexivity|rewrite got_app, got_resolve; reflexivity|apply wrote_none; destruct w; reflexivity].
  - destruct (_ || _); [apply NOT; [reflexivity|discriminate]|]. destruct (d_read (srv s)); [apply NOT; [reflexivity|discriminate]|]. destruct (_ && _); [apply NOT; [reflexivity|discriminate]|].
    pose proof (do_write_bytes (on_srv (set_read (Some {| r_all := all; r_ev := e; r_left := n; r_len := 0 |})) s)) as (D1 & D2 & D3 & _). destruct (do_write _) as [s' l]. cbn [fst snd] in *. left.
    assert (Z : wrote1 w (SRead all e n) (Length e 0 :: l) = []) by (apply wrote_none; destruct w; reflexivity). rewrite Z, app_nil_r. destruct w; cbn [other]; [change (got1 Client (Length e 0 :: l)) with (got1 Client l); rewrite D1, D3; reflexivity|exact D2].
  - destruct (_ || _); [apply NOT; [reflexivity|discriminate]|]. destruct (d_write (srv s)) eqn:W; [apply NOT; [reflexivity|discriminate]|]. destruct (d_closed (srv s)); [apply NOT; [reflexivity|discriminate]|].
    pose proof (do_read_bytes (on_srv (set_write (Some {| w_ev := e; w_rest := b |})) s)) as (D1 & D2 & D3 & _). pose proof (do_read_ok (on_srv (set_write (Some {| w_ev := e; w_rest := b |})) s)) as OK. destruct (do_read _) as [s' l]. cbn [fst snd] in *. left.
    unfold wrote1. rewrite (ok_refused _ _ OK). destruct w; cbn [other bytes]; [unfold rest at 1; cbn [writer]; rewrite W; exact D2|rewrite D1, D3, app_nil_r; reflexivity].
  - destruct (_ || _); [apply NOT; [reflexivity|discriminate]|]. destruct (d_close (srv s)); [apply NOT; [reflexivity|discriminate]|]. cbn. destruct (d_write (srv s)) eqn:W; cbn [fst snd].
    + apply moved_same; [destruct w; reflexivity|reflexivity|apply wrote_none; destruct w; reflexivity].
    + apply moved_same; [destruct w; reflexivity|rewrite got_app, got_resolve; reflexivity|apply wrote_none; destruct w; reflexivity].
  - destruct (d_stopped (srv s)) eqn:X; [apply moved_same; auto; apply wrote_none; destruct w; reflexivity|]. cbn [fst snd]. destruct w.
    + right. rewrite !got_app, !got_resolve. unfold stopped, rest. cbn. auto.
    + apply moved_same; [reflexivity|rewrite !got_app, !got_resolve; reflexivity|reflexivity].
  - destruct (d_read (cli s)); [apply NOT; [reflexivity|discriminate]|]. destruct (d_closed (srv s)); [apply NOT; [reflexivity|discriminate]|].
    pose proof (do_read_bytes (on_cli (set_read (Some {| r_all := all; r_ev := e; r_left := n; r_len := 0 |})) s)) as (D1 & D2 & D3 & _). destruct (do_read _) as [s' l]. cbn [fst snd] in *. left.
    assert (Z : wrote1 w (CRead all e n) (Length e 0 :: l) = []) by (apply wrote_none; destruct w; reflexivity). rewrite Z, app_nil_r. destruct w; cbn [other]; [exact D2|change (got1 Server (Length e 0 :: l)) with (got1 Server l); rewrite D1, D3; reflexivity].
  - destruct (_ || _); [apply NOT; [reflexivity|discriminate]|]. destruct (d_closed (cli s)); [apply NOT; [reflexivity|discriminate]|]. destruct (d_write (cli s)) eqn:W; [apply NOT; [reflexivity|discriminate]|].
    pose proof (do_write_bytes (on_cli (set_write (Some {| w_ev := e; w_rest := b |})) s)) as (D1 & D2 & D3 & _). pose proof (do_write_ok (on_cli (set_write (Some {| w_ev := e; w_rest := b |})) s)) as OK. destruct (do_write _) as [s' l]. cbn [fst snd] in *. left.
    unfold wrote1. rewrite (ok_refused _ _ OK). destruct w; cbn [other bytes]; [rewrite D1, D3, app_nil_r; reflexivity|unfold rest at 1; cbn [writer]; rewrite W; exact D2].
  - cbn. destruct (d_write (cli s)) eqn:W; cbn [fst snd].
    + apply moved_same; [destruct w; unfold rest; cbn; rewrite ?W; reflexivity|reflexivity|apply wrote_none; destruct w; reflexivity].
    + apply moved_same; [destruct w; reflexivity|rewrite got_app, got_resolve; reflexivity|apply wrote_none; destruct w; reflexivity].
  - destruct (d_stopped (cli s)) eqn:X; [apply moved_same; auto; apply wrote_none; destruct w; reflexivity|]. right. cbn [fst snd]. rewrite !got_app, !got_resolve. unfold stopped, rest. cbn. rewrite orb_true_r. destruct w; auto.
Qed.
Lemma stopped_nothing : forall w o s, still s -> stopped s = true -> got1 w (snd (step o s)) = [] /\ wrote1 w o (snd (step o s)) = [].
Proof.
  intros w o s S X. destruct (S X) as [A B]. assert (NOT : forall e c, event1 o = Some e -> c <> Ok -> got1 w [Complete e c] = [] /\ wrote1 w o [Complete e c] = []) by (intros e c E N; split; [reflexivity|apply wrote_refused, refused_one; auto]). unfold stopped in X.
  destruct o as [e|all e n|e b|e| |all e n|e b|e|]; cbn [step]; rewrite ?X; try (apply NOT; [reflexivity|discriminate]).
  - destruct (d_stopped (srv s)); cbn [snd]; rewrite ?got_app, ?got_resolve; split; auto; apply wrote_none; destruct w; reflexivity.
  - destruct (d_read (cli s)); [apply NOT; [reflexivity|discriminate]|]. destruct (d_closed (srv s)); [apply NOT; [reflexivity|discriminate]|]. unfold do_read. cbn. rewrite B. cbn. split; destruct w; reflexivity.
  - cbn. destruct (d_write (cli s)); cbn [snd]; rewrite ?got_app, ?got_resolve; split; auto; apply wrote_none; destruct w; reflexivity.
  - destruct (d_stopped (cli s)); cbn [snd]; rewrite ?got_app, ?got_resolve; split; auto; apply wrote_none; destruct w; reflexivity.
Qed.
Lemma reach_still : forall e h, still (fst (run (init e) h)).
Proof. intros e. induction h as [|o h IH] using rev_ind; [intros X; discriminate|]. rewrite run_snoc. apply step_still. exact IH. Qed.
(** Everything written is received, or waits, or was dropped when the stream was stopped. *)
Lemma reach_bytes : forall e w h, exists x, received (other w) (snd (run (init e) h)) ++ x = written w (snd (run (init e) h)) /\ (stopped (fst (run (init e) h)) = false -> x = rest w (fst (run (init e) h))).
Proof.
  intros e w. induction h as [|o h IH] using rev_ind; [exists []; split; [reflexivity|destruct w; reflexivity]|]. rewrite run_snoc. cbn [fst snd]. set (s := fst (run (init e) h)) in *. set (t := snd (run (init e) h)) in *. pose proof (reach_still e h) as S. fold s in S.
  rewrite received_snoc, written_snoc. destruct IH as (x & X1 & X2). destruct (stopped s) eqn:ST.
  - destruct (stopped_nothing (other w) o s S ST) as [G _]. destruct (stopped_nothing w o s S ST) as [_ W]. rewrite G, W, !app_nil_r. exists x. split; [exact X1|]. destruct (step_still o s S) as [_ K]. rewrite (K ST). discriminate.
  - specialize (X2 eq_refl). subst x. rewrite <- X1. destruct (step_moved w o s S) as [M|(M1 & M2 & M3 & M4)].
    + exists (rest w (fst (step o s))). split; [rewrite <- !app_assoc, <- M; reflexivity|auto].
    + rewrite M1, M2, !app_nil_r. exists (rest w s). split; [reflexivity|congruence].
Qed.

(** ** Completions *)
Definition opt (x : option nat) : list nat := match x with Some e => [e] | None => [] end.
Definition occ (e : nat) (l : list nat) : nat := count (Nat.eqb e) l.
Definition done (e : nat) (l : list out) : nat := count (is_complete e) l.
Definition ho (e : nat) (x : option nat) : nat := match x with Some e' => if e =? e' then 1 else 0 | None => 0 end.
Definition hs (e : nat) (d : side) : nat := ho e (d_open d) + ho e (option_map r_ev (d_read d)) + ho e (option_map w_ev (d_write d)) + ho e (d_close d).
(** How often an event is held. *)
Definition held (e : nat) (s : vstream) : nat := hs e (srv s) + hs e (cli s).
Lemma done_app : forall e a b, done e (a ++ b) = done e a + done e b. Proof. intros. apply count_app. Qed.
Lemma done_resolve : forall e x c, done e (resolve x c) = ho e x.
Proof. intros e [x|] c; cbn; [|reflexivity]. unfold done, count. cbn. destruct (e =? x); reflexivity. Qed.
Lemma done_cons : forall e x l, done e (x :: l) = match x with Complete e' _ => if e =? e' then 1 else 0 | _ => 0 end + done e l.
Proof. intros e x l. unfold done, count. cbn. destruct x as [e' c| |]; cbn; [destruct (e =? e')| |]; reflexivity. Qed.
Lemma done_nil : forall e, done e [] = 0. Proof. reflexivity. Qed.
Ltac fin := unfold held, hs, on_srv, on_cli, set_stopped, set_closed, set_open, set_read, set_write, set_close; cbn [srv cli d_stopped d_closed d_open d_read d_write d_close fst snd option_map r_ev w_ev]; rewrite ?done_app, ?done_resolve, ?done_cons, ?done_app, ?done_resolve, ?done_nil; cbn [ho option_map r_ev w_ev].
Lemma resolve_write_tally : forall e s, done e (snd (resolve_write Ok s)) + held e (fst (resolve_write Ok s)) = held e s.
Proof.
  intros e [a b]. unfold resolve_write. cbn. destruct (d_closed b); [|fin; lia]. destruct (d_read a) as [r|] eqn:R; [destruct (r_all r)|]; fin; rewrite ?R; cbn [ho option_map]; lia.
Qed.
Lemma do_write_tally : forall e s, done e (snd (do_write s)) + held e (fst (do_write s)) = held e s.
Proof.
  intros e s. unfold do_write. destruct (d_read (srv s)) as [r|] eqn:R; [|reflexivity]. destruct (d_write (cli s)) as [w|] eqn:W; [|reflexivity].
  destruct (r_left r <? length (w_rest w)); [fin; rewrite R, W; cbn [ho option_map]; lia|]. destruct (_ && _).
  - match goal with |- context [resolve_write Ok ?x] => pose proof (resolve_write_tally e x) as T; destruct (resolve_write Ok x) as [s' l] end. cbn [fst snd] in *. rewrite done_app, !done_cons, done_nil. cbn. revert T. fin. rewrite R. cbn. lia.
  - match goal with |- context [resolve_write Ok ?x] => pose proof (resolve_write_tally e x) as T; destruct (resolve_write Ok x) as [s' l] end. cbn [fst snd] in *. rewrite done_app, !done_cons, done_nil. cbn [ho]. revert T. fin. rewrite R. cbn. lia.
Qed.
Lemma do_read_tally : forall e s, done e (snd (do_read s)) + held e (fst (do_read s)) = held e s.
Proof.
  intros e s. unfold do_read. destruct (d_read (cli s)) as [r|] eqn:R; [|reflexivity]. destruct (d_write (srv s)) as [w|] eqn:W; [|reflexivity].
  destruct (r_left r <? length (w_rest w)); [|destruct (_ && _)]; cbn; try destruct (d_closed (srv s)) eqn:C; fin; rewrite R, W; cbn [ho option_map]; fin; first [lia|destruct (e =? r_ev r), (e =? w_ev w); cbn [length]; lia].
Qed.
Definition begun1 (o : op) : option nat := event1 o.
Definition lost (e : nat) (o : op) (s : vstream) : nat := match o with CClose _ => match d_write (cli s) with Some _ => ho e (d_close (cli s)) | None => 0 end | _ => 0 end.
Lemma step_tally : forall e o s, done e (snd (step o s)) + held e (fst (step o s)) + lost e o s = held e s + ho e (event1 o).
Proof.
  intros e o s. assert (NOT : forall e' c, event1 o = Some e' -> lost e o s = 0 -> done e [Complete e' c] + held e s + lost e o s = held e s + ho e (event1 o)) by (intros e' c E Z; rewrite E, Z, done_cons, done_nil; cbn; lia).
  destruct o as [a|all a n|a b|a| |all a n|a b|a|]; cbn [step lost].
  - destruct (_ || _); [apply (NOT a); reflexivity|]. destruct (d_open (srv s)) eqn:O; [apply (NOT a); reflexivity|]. fin. rewrite O. cbn. lia.
  - destruct (_ || _); [apply (NOT a); reflexivity|]. destruct (d_read (srv s)) eqn:R; [apply (NOT a); reflexivity|]. destruct (_ && _); [apply (NOT a); reflexivity|].
    match goal with |- context [do_write ?x] => pose proof (do_write_tally e x) as T; destruct (do_write x) as [s' l] end. cbn [fst snd event1] in *. rewrite done_cons. revert T. fin. rewrite R. cbn. lia.
  - destruct (_ || _); [apply (NOT a); reflexivity|]. destruct (d_write (srv s)) eqn:R; [apply (NOT a); reflexivity|]. destruct (d_closed (srv s)); [apply (NOT a); reflexivity|].
    match goal with |- context [do_read ?x] => pose proof (do_read_tally e x) as T; destruct (do_read x) as [s' l] end. cbn [fst snd event1] in *. revert T. fin. rewrite R. cbn. lia.
  - destruct (_ || _); [apply (NOT a); reflexivity|]. destruct (d_close (srv s)) eqn:C; [apply (NOT a); reflexivity|]. cbn [on_srv srv set_closed set_close d_write event1]. destruct (d_write (srv s)) eqn:W; fin; rewrite ?C, ?W; cbn; lia.
  - destruct (d_stopped (srv s)); fin; cbn; lia.
  - destruct (d_read (cli s)) eqn:R; [apply (NOT a); reflexivity|]. destruct (d_closed (srv s)); [apply (NOT a); reflexivity|].
    match goal with |- context [do_read ?x] => pose proof (do_read_tally e x) as T; destruct (do_read x) as [s' l] end. cbn [fst snd event1] in *. rewrite done_cons. revert T. fin. rewrite R. cbn. lia.
  - destruct (_ || _); [apply (NOT a); reflexivity|]. destruct (d_closed (cli s)); [apply (NOT a); reflexivity|]. destruct (d_write (cli s)) eqn:R; [apply (NOT a); reflexivity|].
    match goal with |- context [do_write ?x] => pose proof (do_write_tally e x) as T; destruct (do_write x) as [s' l] end. cbn [fst snd event1] in *. revert T. fin. rewrite R. cbn. lia.
  - cbn [on_cli cli set_closed d_write event1]. destruct (d_write (cli s)) eqn:W; fin; rewrite ?W; cbn; lia.
  - destruct (d_stopped (cli s)); fin; cbn; lia.
Qed.
Lemma begun_snoc : forall h o, begun (h ++ [o]) = begun h ++ opt (event1 o).
Proof. intros. unfold begun. rewrite flat_map_app. cbn. rewrite app_nil_r. destruct (event1 o); reflexivity. Qed.
Lemma occ_app : forall e a b, occ e (a ++ b) = occ e a + occ e b. Proof. intros. apply count_app. Qed.
Lemma occ_opt : forall e x, occ e (opt x) = ho e x. Proof. intros e [x|]; [|reflexivity]. unfold occ, count. cbn. destruct (e =? x); reflexivity. Qed.
Lemma completions_snoc : forall e t o l, completions e (t ++ [(o, l)]) = completions e t + done e l.
Proof. intros. unfold completions. rewrite outs_snoc. apply count_app. Qed.
(** Events are completed, held, or lost by a second close of the client. *)
Lemma reach_tally : forall e0 h e, completions e (snd (run (init e0) h)) + held e (fst (run (init e0) h)) <= occ e (e0 :: begun h).
Proof.
  intros e0 h e. change (e0 :: begun h) with ([e0] ++ begun h). induction h as [|o h IH] using rev_ind.
  - unfold begun. cbn [flat_map]. rewrite app_nil_r. change [e0] with (opt (Some e0)). rewrite occ_opt. cbn. lia.
  - rewrite run_snoc. cbn [fst snd]. rewrite completions_snoc, begun_snoc, app_assoc, (occ_app e _ (opt (event1 o))), occ_opt. pose proof (step_tally e o (fst (run (init e0) h))). lia.
Qed.
