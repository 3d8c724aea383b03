From Coq Require Import List Bool Arith Lia.
From Verif Require Import VirtModel VirtSpec VirtProofs VirtMore.
Import ListNotations.

Definition content1 (e : nat) (l : list out) : list nat := flat_map (fun x => match x with Copied _ e' b => if e =? e' then b else [] | _ => [] end) l.
Definition lengths1 (e : nat) (l : list out) : list nat := flat_map (fun x => match x with Length e' n => if e =? e' then [n] else [] | _ => [] end) l.
Lemma content_snoc : forall e t o l, content e (t ++ [(o, l)]) = content e t ++ content1 e l. Proof. intros. unfold content. rewrite outs_snoc. apply flat_map_app. Qed.
Lemma lengths_snoc : forall e t o l, lengths e (t ++ [(o, l)]) = lengths e t ++ lengths1 e l. Proof. intros. unfold lengths. rewrite outs_snoc. apply flat_map_app. Qed.
Lemma content1_app : forall e a b, content1 e (a ++ b) = content1 e a ++ content1 e b. Proof. intros. apply flat_map_app. Qed.
Lemma lengths1_app : forall e a b, lengths1 e (a ++ b) = lengths1 e a ++ lengths1 e b. Proof. intros. apply flat_map_app. Qed.
Lemma content1_resolve : forall e x c, content1 e (resolve x c) = []. Proof. intros e [x|] c; reflexivity. Qed.
Lemma lengths1_resolve : forall e x c, lengths1 e (resolve x c) = []. Proof. intros e [x|] c; reflexivity. Qed.
(** Only completions. *)
Definition pure (l : list out) : Prop := forall e, content1 e l = [] /\ lengths1 e l = [].
Lemma pure_app : forall a b, pure a -> pure b -> pure (a ++ b).
Proof. intros a b A B e. rewrite content1_app, lengths1_app. destruct (A e) as [-> ->], (B e) as [-> ->]. auto. Qed.
Lemma pure_resolve : forall x c, pure (resolve x c). Proof. intros x c e. rewrite content1_resolve, lengths1_resolve. auto. Qed.
Lemma pure_one : forall e c, pure [Complete e c]. Proof. intros e c x. auto. Qed.
Lemma pure_cons : forall e c l, pure l -> pure (Complete e c :: l). Proof. intros e c l P x. apply P. Qed.
Lemma pure_nil : pure []. Proof. intros e. auto. Qed.
Lemma resolve_write_pure : forall s, pure (snd (resolve_write Ok s)).
Proof.
  intros s. unfold resolve_write. cbn. destruct (d_closed (cli s)); [|apply pure_resolve]. destruct (d_read (srv s)) as [r|]; [destruct (r_all r)|]; cbn [snd]; repeat apply pure_app; try apply pure_resolve; auto using pure_one, pure_nil.
Qed.
(** What a step does to the read r of one side, [a] before and [b] after. *)
Definition served (r : reading) (closed : bool) (b : option reading) (l : list out) : Prop :=
  let e := r_ev r in
  (exists r', b = Some r' /\ r_ev r' = e /\ r_all r' = r_all r /\ r_len r' = r_len r + length (content1 e l) /\ r_left r' + length (content1 e l) = r_left r /\ (lengths1 e l = [] /\ content1 e l = [] \/ lengths1 e l = [r_len r'])) \/
  (b = None /\ length (content1 e l) <= r_left r /\
   (lengths1 e l = [r_len r + length (content1 e l)] /\ (r_all r = true -> length (content1 e l) = r_left r \/ closed = true) \/ ~ In (Complete e Ok) l /\ content1 e l = [])).
Lemma served_same : forall r c l, pure l -> served r c (Some r) l.
Proof. intros r c l P. left. exists r. destruct (P (r_ev r)) as [-> ->]. cbn. repeat split; auto; lia. Qed.
Lemma content1_copy : forall w e b l, content1 e (Copied w e b :: l) = b ++ content1 e l. Proof. intros. cbn. rewrite Nat.eqb_refl. reflexivity. Qed.
Lemma lengths1_len : forall e n l, lengths1 e (Length e n :: l) = n :: lengths1 e l. Proof. intros. cbn. rewrite Nat.eqb_refl. reflexivity. Qed.
Lemma do_write_served : forall s r, d_read (srv s) = Some r -> served r (d_closed (cli s)) (d_read (srv (fst (do_write s)))) (snd (do_write s)).
Proof.
  intros s r R. unfold do_write. rewrite R. destruct (d_write (cli s)) as [w|] eqn:W; [|cbn; rewrite R; apply served_same, pure_nil].
  destruct (r_left r <? length (w_rest w)) eqn:L.
  - apply Nat.ltb_lt in L. right. cbn [fst snd]. split; [reflexivity|]. cbn [app]. rewrite content1_copy. change (lengths1 (r_ev r) (Copied Server (r_ev r) (firstn (r_left r) (w_rest w)) :: ?x)) with (lengths1 (r_ev r) x). rewrite lengths1_len. cbn [content1 lengths1 flat_map]. rewrite app_nil_r, firstn_length_le by lia. split; [lia|]. left. auto.
  - apply Nat.ltb_ge in L. rewrite firstn_all. destruct ((length (w_rest w) <? r_left r) && r_all r) eqn:A.
    + apply andb_prop in A as [A1 A2]. apply Nat.ltb_lt in A1.
      set (x := on_srv (set_read (Some _)) s). pose proof (resolve_write_pure x) as P. assert (RD : d_read (srv (fst (resolve_write Ok x))) = if d_closed (cli s) then None else d_read (srv x)). { unfold resolve_write, x. cbn. destruct (d_closed (cli s)); [rewrite A2|]; reflexivity. }
      destruct (resolve_write Ok x) as [s' l]. cbn [fst snd] in *. cbn [app]. rewrite RD. destruct (P (r_ev r)) as [P1 P2].
      assert (C : content1 (r_ev r) (Copied Server (r_ev r) (w_rest w) :: Length (r_ev r) (r_len r + length (w_rest w)) :: l) = w_rest w) by (rewrite content1_copy; change (content1 (r_ev r) (Length (r_ev r) (r_len r + length (w_rest w)) :: l)) with (content1 (r_ev r) l); rewrite P1; apply app_nil_r).
      assert (D : lengths1 (r_ev r) (Copied Server (r_ev r) (w_rest w) :: Length (r_ev r) (r_len r + length (w_rest w)) :: l) = [r_len r + length (w_rest w)]) by (change (lengths1 (r_ev r) (Copied Server (r_ev r) (w_rest w) :: ?y)) with (lengths1 (r_ev r) y); rewrite lengths1_len, P2; reflexivity).
      unfold served. rewrite C, D. destruct (d_closed (cli s)); [right; split; [reflexivity|]; split; [lia|]; left; auto|]. left. unfold x. cbn. eexists. split; [reflexivity|]. cbn. repeat split; auto; lia.
    + set (x := on_srv (set_read None) s). pose proof (resolve_write_pure x) as P. assert (RD : d_read (srv (fst (resolve_write Ok x))) = None). { unfold resolve_write, x. cbn. destruct (d_closed (cli s)); reflexivity. }
      destruct (resolve_write Ok x) as [s' l]. cbn [fst snd] in *. cbn [app]. rewrite RD. destruct (P (r_ev r)) as [P1 P2]. right. split; [reflexivity|].
      assert (C : content1 (r_ev r) (Copied Server (r_ev r) (w_rest w) :: Length (r_ev r) (r_len r + length (w_rest w)) :: Complete (r_ev r) Ok :: l) = w_rest w) by (rewrite content1_copy; change (content1 (r_ev r) (Length (r_ev r) (r_len r + length (w_rest w)) :: Complete (r_ev r) Ok :: l)) with (content1 (r_ev r) l); rewrite P1; apply app_nil_r).
      assert (D : lengths1 (r_ev r) (Copied Server (r_ev r) (w_rest w) :: Length (r_ev r) (r_len r + length (w_rest w)) :: Complete (r_ev r) Ok :: l) = [r_len r + length (w_rest w)]) by (change (lengths1 (r_ev r) (Copied Server (r_ev r) (w_rest w) :: ?y)) with (lengths1 (r_ev r) y); rewrite lengths1_len; change (lengths1 (r_ev r) (Complete (r_ev r) Ok :: l)) with (lengths1 (r_ev r) l); rewrite P2; reflexivity).
      rewrite C, D. split; [lia|]. left. split; [reflexivity|]. intros RA. left. rewrite RA, andb_true_r in A. apply Nat.ltb_ge in A. lia.
Qed.
Lemma do_read_served : forall s r, d_read (cli s) = Some r -> served r false (d_read (cli (fst (do_read s)))) (snd (do_read s)).
Proof.
  intros s r R. unfold do_read. rewrite R. destruct (d_write (srv s)) as [w|] eqn:W; [|cbn; rewrite R; apply served_same, pure_nil].
  set (n := if length (w_rest w) <? r_left r then length (w_rest w) else r_left r). assert (N : n <= length (w_rest w) /\ n <= r_left r /\ (n = length (w_rest w) \/ n = r_left r)) by (unfold n; destruct (length (w_rest w) <? r_left r) eqn:E; [apply Nat.ltb_lt in E|apply Nat.ltb_ge in E]; lia).
  assert (G : forall l, pure l -> content1 (r_ev r) ([Copied Client (r_ev r) (firstn n (w_rest w)); Length (r_ev r) (r_len r + n)] ++ l) = firstn n (w_rest w) /\ lengths1 (r_ev r) ([Copied Client (r_ev r) (firstn n (w_rest w)); Length (r_ev r) (r_len r + n)] ++ l) = [r_len r + n]).
  { intros l P. destruct (P (r_ev r)) as [P1 P2]. rewrite content1_app, lengths1_app, P1, P2. cbn. rewrite Nat.eqb_refl, !app_nil_r. auto. }
  assert (F : length (firstn n (w_rest w)) = n) by (apply firstn_length_le; lia).
  destruct (r_left r <? length (w_rest w)) eqn:L; [|destruct ((length (w_rest w) <? r_left r) && r_all r) eqn:A]; cbn [fst snd on_cli on_srv srv cli set_write set_read d_write].
  - apply Nat.ltb_lt in L. destruct (G [Complete (r_ev r) Ok] (pure_one _ _)) as [G1 G2]. unfold served. rewrite G1, G2, F. right. split; [reflexivity|]. split; [lia|]. left. split; [reflexivity|]. intros _. left. destruct (length (w_rest w) <? r_left r) eqn:E; [apply Nat.ltb_lt in E; lia|]. reflexivity.
  - apply Nat.ltb_ge in L. apply andb_prop in A as [A1 A2]. apply Nat.ltb_lt in A1. cbn [d_closed set_write set_read]. destruct (d_closed (srv s)); cbn [fst snd]; (match goal with |- context [_ ++ ?l] => destruct (G l) as [G1 G2] end; [try apply pure_app; auto using pure_one, pure_resolve|]); unfold served; cbn [app] in *; rewrite G1, G2, F; left; eexists; (split; [reflexivity|]); cbn [r_ev r_all r_len r_left]; repeat split; auto; lia.
  - apply Nat.ltb_ge in L. cbn [d_closed set_write set_read]. assert (X : r_all r = true -> n = r_left r). { intros RA. rewrite RA, andb_true_r in A. unfold n. rewrite A. reflexivity. }
    destruct (d_closed (srv s)); cbn [fst snd]; (match goal with |- context [_ ++ ?l] => destruct (G l) as [G1 G2] end; [repeat apply pure_cons; auto using pure_nil, pure_resolve|]); unfold served; cbn [app] in *; rewrite G1, G2, F; right; (split; [reflexivity|]); (split; [lia|]); left; auto.
Qed.
(** Copies only go to the reads which are there. *)
Lemma do_write_other : forall s e, (forall r, d_read (srv s) = Some r -> r_ev r <> e) -> content1 e (snd (do_write s)) = [] /\ lengths1 e (snd (do_write s)) = [].
Proof.
  intros s e H. unfold do_write. destruct (d_read (srv s)) as [r|] eqn:R; [|auto]. specialize (H r eq_refl). assert (E : e =? r_ev r = false) by (apply Nat.eqb_neq; congruence). destruct (d_write (cli s)) as [w|] eqn:W; [|auto].
  destruct (r_left r <? length (w_rest w)); [cbn; rewrite E; auto|]. destruct (_ && _); (match goal with |- context [resolve_write Ok ?x] => pose proof (resolve_write_pure x e) as [P1 P2]; destruct (resolve_write Ok x) as [s' l] end); cbn [fst snd] in *; cbn; rewrite E; auto.
Qed.
Lemma do_read_other : forall s e, (forall r, d_read (cli s) = Some r -> r_ev r <> e) -> content1 e (snd (do_read s)) = [] /\ lengths1 e (snd (do_read s)) = [].
Proof.
  intros s e H. unfold do_read. destruct (d_read (cli s)) as [r|] eqn:R; [|auto]. specialize (H r eq_refl). assert (E : e =? r_ev r = false) by (apply Nat.eqb_neq; congruence). destruct (d_write (srv s)) as [w|] eqn:W; [|auto].
  destruct (r_left r <? length (w_rest w)); [cbn; rewrite E; auto|]. destruct (_ && _); cbn; destruct (d_closed (srv s)); cbn; rewrite E; cbn; auto; apply pure_resolve.
Qed.
(** The event of no read is filled. *)
Lemma step_other : forall o s e, event1 o <> Some e -> (forall r, d_read (srv s) = Some r -> r_ev r <> e) -> (forall r, d_read (cli s) = Some r -> r_ev r <> e) -> content1 e (snd (step o s)) = [] /\ lengths1 e (snd (step o s)) = [].
Proof.
  intros o s e N H1 H2. assert (ONE : forall e' c, content1 e [Complete e' c] = [] /\ lengths1 e [Complete e' c] = []) by auto.
  destruct o as [a|all a n|a b|a| |all a n|a b|a|]; cbn [step event1] in *.
  - destruct (_ || _); [apply ONE|]. destruct (d_open (srv s)); [apply ONE|]. cbn [snd]. apply pure_app; auto using pure_resolve, pure_one.
  - destruct (_ || _); [apply ONE|]. destruct (d_read (srv s)) eqn:R; [apply ONE|]. destruct (_ && _); [apply ONE|]. match goal with |- context [do_write ?x] => pose proof (do_write_other x e) as T; destruct (do_write x) as [s' l] end. cbn [snd] in *. cbn. assert (E : e =? a = false) by (apply Nat.eqb_neq; congruence). rewrite E. apply T. cbn. intros r X. inversion X; subst. cbn. congruence.
  - destruct (_ || _); [apply ONE|]. destruct (d_write (srv s)); [apply ONE|]. destruct (d_closed (srv s)); [apply ONE|]. apply do_read_other. exact H2.
  - destruct (_ || _); [apply ONE|]. destruct (d_close (srv s)); [apply ONE|]. cbn. destruct (d_write (srv s)); cbn [snd]; [apply pure_nil|apply pure_app; auto using pure_resolve, pure_one].
  - destruct (d_stopped (srv s)); cbn [snd]; [apply pure_nil|repeat apply pure_app; apply pure_resolve].
  - destruct (d_read (cli s)) eqn:R; [apply ONE|]. destruct (d_closed (srv s)); [apply ONE|]. match goal with |- context [do_read ?x] => pose proof (do_read_other x e) as T; destruct (do_read x) as [s' l] end. cbn [snd] in *. cbn. assert (E : e =? a = false) by (apply Nat.eqb_neq; congruence). rewrite E. apply T. cbn. intros r X. inversion X; subst. cbn. congruence.
  - destruct (_ || _); [apply ONE|]. destruct (d_closed (cli s)); [apply ONE|]. destruct (d_write (cli s)); [apply ONE|]. apply do_write_other. exact H1.
  - cbn. destruct (d_write (cli s)); cbn [snd]; [apply pure_nil|apply pure_app; auto using pure_resolve, pure_one].
  - destruct (d_stopped (cli s)); cbn [snd]; [apply pure_nil|repeat apply pure_app; apply pure_resolve].
Qed.
Lemma served_kept : forall r c l, content1 (r_ev r) l = [] -> lengths1 (r_ev r) l = [] -> served r c (Some r) l.
Proof. intros r c l P Q. left. exists r. rewrite P, Q. cbn. repeat split; auto; lia. Qed.
Lemma served_gone : forall r c l, content1 (r_ev r) l = [] -> ~ In (Complete (r_ev r) Ok) l -> served r c None l.
Proof. intros r c l P Q. right. rewrite P. cbn. repeat split; auto; lia. Qed.
Lemma do_read_srv : forall s, d_read (srv (fst (do_read s))) = d_read (srv s) /\ d_closed (srv (fst (do_read s))) = d_closed (srv s) /\ d_closed (cli (fst (do_read s))) = d_closed (cli s).
Proof. intros s. unfold do_read. destruct (d_read (cli s)) as [r|]; [|auto]. destruct (d_write (srv s)) as [w|]; [|auto]. destruct (_ <? _); [|destruct (_ && _)]; cbn; try destruct (d_closed (srv s)) eqn:C; cbn; auto. Qed.
Lemma do_write_cli : forall s, d_read (cli (fst (do_write s))) = d_read (cli s) /\ d_closed (srv (fst (do_write s))) = d_closed (srv s) /\ d_closed (cli (fst (do_write s))) = d_closed (cli s).
Proof.
  intros s. unfold do_write. destruct (d_read (srv s)) as [r|]; [|auto]. destruct (d_write (cli s)) as [w|]; [|auto]. destruct (_ <? _); [auto|]. destruct (_ && _); unfold resolve_write; cbn; destruct (d_closed (cli s)) eqn:C; cbn; try destruct (r_all r); cbn; auto.
Qed.
Lemma step_closed : forall o s, (d_closed (cli s) = true -> d_closed (cli (fst (step o s))) = true) /\ (d_closed (srv s) = true -> d_closed (srv (fst (step o s))) = true).
Proof.
  intros o s. destruct o as [a|all a n|a b|a| |all a n|a b|a|]; cbn [step].
  - destruct (_ || _); [cbn [fst]; auto|]. destruct (d_open (srv s)); auto.
  - destruct (_ || _); [cbn [fst]; auto|]. destruct (d_read (srv s)) eqn:R; [cbn [fst]; auto|]. destruct (_ && _); [cbn [fst]; auto|]. match goal with |- context [do_write ?x] => pose proof (do_write_cli x) as (_ & T1 & T2); destruct (do_write x) as [s' l] end. cbn [fst] in *. rewrite T1, T2. auto.
  - destruct (_ || _); [cbn [fst]; auto|]. destruct (d_write (srv s)); [cbn [fst]; auto|]. destruct (d_closed (srv s)) eqn:C; [cbn [fst]; auto|]. match goal with |- context [do_read ?x] => pose proof (do_read_srv x) as (_ & T1 & T2) end. rewrite T2. split; [auto|discriminate].
  - destruct (_ || _); [cbn [fst]; auto|]. destruct (d_close (srv s)); [cbn [fst]; auto|]. cbn. destruct (d_write (srv s)); cbn; auto.
  - destruct (d_stopped (srv s)); auto.
  - destruct (d_read (cli s)) eqn:R; [cbn [fst]; auto|]. destruct (d_closed (srv s)) eqn:C; [cbn [fst]; auto|]. match goal with |- context [do_read ?x] => pose proof (do_read_srv x) as (_ & T1 & T2); destruct (do_read x) as [s' l] end. cbn [fst] in *. rewrite T2. split; [auto|discriminate].
  - destruct (_ || _); [cbn [fst]; auto|]. destruct (d_closed (cli s)) eqn:C; [cbn [fst]; auto|]. destruct (d_write (cli s)); [split; [congruence|auto]|]. match goal with |- context [do_write ?x] => pose proof (do_write_cli x) as (_ & T1 & T2) end. rewrite T1. split; [discriminate|auto].
  - cbn. destruct (d_write (cli s)); cbn; auto.
  - destruct (d_stopped (cli s)); auto.
Qed.
Lemma step_srv : forall o s r, d_read (srv s) = Some r -> event1 o <> Some (r_ev r) -> (forall x, d_read (cli s) = Some x -> r_ev x <> r_ev r) -> served r (d_closed (cli s)) (d_read (srv (fst (step o s)))) (snd (step o s)).
Proof.
  intros o s r R N H. destruct o as [a|all a n|a b|a| |all a n|a b|a|]; cbn [step event1] in *.
  - destruct (_ || _); [cbn; rewrite R; apply served_same, pure_one|]. destruct (d_open (srv s)); cbn; rewrite R; apply served_same; [apply pure_one|apply pure_app; auto using pure_one, pure_resolve].
  - destruct (_ || _); [cbn; rewrite R; apply served_same, pure_one|]. rewrite R. cbn. rewrite R. apply served_same, pure_one.
  - destruct (_ || _); [cbn; rewrite R; apply served_same, pure_one|]. destruct (d_write (srv s)); [cbn; rewrite R; apply served_same, pure_one|]. destruct (d_closed (srv s)); [cbn; rewrite R; apply served_same, pure_one|].
    match goal with |- context [do_read ?x] => pose proof (do_read_srv x) as (T & _); pose proof (do_read_other x (r_ev r) H) as [P Q] end. rewrite T. cbn. rewrite R. apply served_kept; assumption.
  - destruct (_ || _); [cbn; rewrite R; apply served_same, pure_one|]. destruct (d_close (srv s)); [cbn; rewrite R; apply served_same, pure_one|]. cbn. destruct (d_write (srv s)); cbn; rewrite R; apply served_same; [apply pure_nil|apply pure_app; auto using pure_one, pure_resolve].
  - destruct (d_stopped (srv s)); [cbn; rewrite R; apply served_same, pure_nil|]. cbn [fst snd on_srv srv set_close set_write set_read d_read]. apply served_gone; [repeat rewrite content1_app; rewrite !content1_resolve; reflexivity|]. rewrite !in_app_iff. intros X. repeat destruct X as [X|X]; apply in_resolve in X as [_ X]; discriminate.
  - destruct (d_read (cli s)); [cbn; rewrite R; apply served_same, pure_one|]. destruct (d_closed (srv s)); [cbn; rewrite R; apply served_same, pure_one|].
    match goal with |- context [do_read ?x] => pose proof (do_read_srv x) as (T & _); pose proof (do_read_other x (r_ev r)) as P; destruct (do_read x) as [s' l] end. cbn [fst snd] in *. rewrite T. cbn. rewrite R. destruct P as [P Q]; [cbn; intros x X; inversion X; subst; cbn; congruence|]. apply served_kept; [exact P|]. cbn. destruct (r_ev r =? a) eqn:E; [apply Nat.eqb_eq in E; congruence|exact Q].
  - destruct (_ || _); [cbn; rewrite R; apply served_same, pure_one|]. destruct (d_closed (cli s)) eqn:C; [cbn; rewrite R; apply served_same, pure_one|]. destruct (d_write (cli s)); [cbn; rewrite R; apply served_same, pure_one|].
    match goal with |- context [do_write ?x] => pose proof (do_write_served x r R) as T end. cbn in T. rewrite C in T. exact T.
  - cbn. destruct (d_write (cli s)); cbn [fst snd on_srv on_cli srv cli set_read d_read]; [rewrite R; apply served_same, pure_nil|]. apply served_gone; [rewrite content1_app, content1_resolve; reflexivity|]. rewrite in_app_iff. intros [X|[X|[]]]; [apply in_resolve in X as [_ X]; discriminate|congruence].
  - destruct (d_stopped (cli s)); [cbn; rewrite R; apply served_same, pure_nil|]. cbn [fst snd on_srv on_cli srv set_close set_write set_read d_read]. apply served_gone; [repeat rewrite content1_app; rewrite !content1_resolve; reflexivity|]. rewrite !in_app_iff. intros X. repeat destruct X as [X|X]; apply in_resolve in X as [_ X]; discriminate.
Qed.
Lemma step_cli : forall o s r, d_read (cli s) = Some r -> event1 o <> Some (r_ev r) -> (forall x, d_read (srv s) = Some x -> r_ev x <> r_ev r) -> served r false (d_read (cli (fst (step o s)))) (snd (step o s)).
Proof.
  intros o s r R N H. destruct o as [a|all a n|a b|a| |all a n|a b|a|]; cbn [step event1] in *.
  - destruct (_ || _); [cbn; rewrite R; apply served_same, pure_one|]. destruct (d_open (srv s)); cbn; rewrite R; apply served_same; [apply pure_one|apply pure_app; auto using pure_one, pure_resolve].
  - destruct (_ || _); [cbn; rewrite R; apply served_same, pure_one|]. destruct (d_read (srv s)); [cbn; rewrite R; apply served_same, pure_one|]. destruct (_ && _); [cbn; rewrite R; apply served_same, pure_one|].
    match goal with |- context [do_write ?x] => pose proof (do_write_cli x) as (T & _); pose proof (do_write_other x (r_ev r)) as P; destruct (do_write x) as [s' l] end. cbn [fst snd] in *. rewrite T. cbn. rewrite R. destruct P as [P Q]; [cbn; intros x X; inversion X; subst; cbn; congruence|]. apply served_kept; [exact P|]. cbn. destruct (r_ev r =? a) eqn:E; [apply Nat.eqb_eq in E; congruence|exact Q].
  - destruct (_ || _); [cbn; rewrite R; apply served_same, pure_one|]. destruct (d_write (srv s)); [cbn; rewrite R; apply served_same, pure_one|]. destruct (d_closed (srv s)); [cbn; rewrite R; apply served_same, pure_one|]. apply do_read_served. exact R.
  - destruct (_ || _); [cbn; rewrite R; apply served_same, pure_one|]. destruct (d_close (srv s)); [cbn; rewrite R; apply served_same, pure_one|]. cbn. destruct (d_write (srv s)); cbn [fst snd on_srv on_cli srv cli set_read d_read]; [rewrite R; apply served_same, pure_nil|]. apply served_gone; [rewrite content1_app, content1_resolve; reflexivity|]. rewrite in_app_iff. intros [X|[X|[]]]; [apply in_resolve in X as [_ X]; discriminate|congruence].
  - destruct (d_stopped (srv s)); [cbn; rewrite R; apply served_same, pure_nil|]. cbn [fst snd on_srv cli]. rewrite R. apply served_same. repeat apply pure_app; apply pure_resolve.
  - rewrite R. cbn. rewrite R. apply served_same, pure_one.
  - destruct (_ || _); [cbn; rewrite R; apply served_same, pure_one|]. destruct (d_closed (cli s)) eqn:C; [cbn; rewrite R; apply served_same, pure_one|]. destruct (d_write (cli s)); [cbn; rewrite R; apply served_same, pure_one|].
    match goal with |- context [do_write ?x] => pose proof (do_write_cli x) as (T & _); pose proof (do_write_other x (r_ev r) H) as [P Q] end. rewrite T. cbn. rewrite R. apply served_kept; assumption.
  - cbn. destruct (d_write (cli s)); cbn [fst snd on_srv on_cli srv cli set_read set_closed set_close d_read]; rewrite R; apply served_same; [apply pure_nil|apply pure_app; auto using pure_one, pure_resolve].
  - destruct (d_stopped (cli s)); [cbn; rewrite R; apply served_same, pure_nil|]. cbn [fst snd on_srv on_cli srv cli set_close set_write set_read d_read]. apply served_gone; [repeat rewrite content1_app; rewrite !content1_resolve; reflexivity|]. rewrite !in_app_iff. intros X. repeat destruct X as [X|X]; apply in_resolve in X as [_ X]; discriminate.
Qed.
Lemma done_in : forall e c l, In (Complete e c) l -> 1 <= done e l.
Proof. intros e c l I. unfold done, count. induction l as [|a l IH]; [destruct I|]. destruct I as [->|I]; cbn; [rewrite Nat.eqb_refl; cbn; lia|]. specialize (IH I). destruct (is_complete e a); cbn; lia. Qed.
Lemma outs_in : forall e c t, In (Complete e c) (outs t) -> 1 <= completions e t.
Proof. intros e c t I. apply (done_in e c). exact I. Qed.
Lemma read_event : forall e0 h w r, d_read (writer w (fst (run (init e0) h))) = Some r -> exists n, In (is_read w (r_all r) (r_ev r) n) h.
Proof. intros e0 h [] r R; [eapply k_sr|eapply k_cr]; eauto; apply reach_kinds. Qed.
Lemma fresh_read : forall e0 h e, ~ In e (begun h) -> content e (snd (run (init e0) h)) = [] /\ lengths e (snd (run (init e0) h)) = [].
Proof.
  intros e0. induction h as [|o h IH] using rev_ind; intros e N; [auto|]. rewrite begun_snoc in N. destruct (IH e) as [C L]; [intros X; apply N; apply in_app_iff; auto|]. rewrite run_snoc. cbn [snd]. rewrite content_snoc, lengths_snoc, C, L.
  assert (EV : forall w r, d_read (writer w (fst (run (init e0) h))) = Some r -> r_ev r <> e). { intros w r R E. destruct (read_event e0 h w r R) as [n I]. apply N. apply in_app_iff. left. eapply begun_in; eauto. destruct w; cbn; congruence. }
  apply step_other; [intros E; apply N; apply in_app_iff; right; rewrite E; left; reflexivity|apply (EV Server)|apply (EV Client)].
Qed.
Lemma event_read : forall w all e n, event1 (is_read w all e n) = Some e. Proof. intros [] all e n; reflexivity. Qed.
Lemma last_snoc : forall l (x : nat), last (l ++ [x]) 0 = x. Proof. intros. apply last_last. Qed.
Definition reads_ok (w : who) (all : bool) (e n : nat) (s : vstream) (t : list (op * list out)) : Prop :=
  (exists r, d_read (writer w s) = Some r /\ r_ev r = e /\ r_all r = all /\ r_len r = length (content e t) /\ r_left r + r_len r = n /\ last (lengths e t) 0 = r_len r) \/
  ((forall r, d_read (writer w s) = Some r -> r_ev r <> e) /\ length (content e t) <= n /\
   (In (Complete e Ok) (outs t) -> last (lengths e t) 0 = length (content e t) /\ (all = true -> length (content e t) = n \/ w = Server /\ d_closed (cli s) = true))).
Lemma served_reads : forall w all e n r c s' t o l pre, served r c (d_read (writer w s')) l -> r_ev r = e -> r_all r = all -> r_len r = length (content e t) -> r_left r + r_len r = n ->
  ~ In (Complete e Ok) (outs t) -> content1 e pre = [] -> (lengths1 e pre = [] /\ last (lengths e t) 0 = r_len r \/ lengths1 e pre = [r_len r]) -> ~ In (Complete e Ok) pre -> (c = true -> w = Server /\ d_closed (cli s') = true) ->
  reads_ok w all e n s' (t ++ [(o, pre ++ l)]).
Proof.
  intros w all e n r c s' t o l pre S <- <- RL <- NC PC PL PN CC. unfold reads_ok. rewrite content_snoc, lengths_snoc, content1_app, lengths1_app, PC. cbn [app]. rewrite app_length, outs_snoc.
  assert (LA : last (lengths (r_ev r) t ++ lengths1 (r_ev r) pre) 0 = r_len r) by (destruct PL as [[-> X]| ->]; [rewrite app_nil_r; exact X|apply last_snoc]).
  destruct S as [(r' & B & E & A & LEN & LEFT & LL)|(B & LE & D)].
  - left. exists r'. repeat split; auto; try lia. destruct LL as [[L1 L2]|L1]; rewrite L1, ?app_nil_r.
    + rewrite LA. rewrite L2 in LEN. cbn in LEN. lia.
    + rewrite app_assoc. apply last_snoc.
  - right. split; [rewrite B; discriminate|]. split; [lia|]. intros I. apply in_app_iff in I as [I|I]; [contradiction|]. apply in_app_iff in I as [I|I]; [contradiction|]. destruct D as [[D1 D2]|[D _]]; [|contradiction]. rewrite D1, app_assoc, last_snoc. split; [lia|]. intros AL. destruct (D2 AL) as [X|X]; [left; lia|right; auto].
Qed.
Lemma reach_read : forall e0 h w all e n, lawful e0 h -> In (is_read w all e n) h -> reads_ok w all e n (fst (run (init e0) h)) (snd (run (init e0) h)).
Proof.
  intros e0 h w all e n. induction h as [|o h IH] using rev_ind; intros L I; [destruct I|]. pose proof (lawful_app _ _ _ L) as L1. rewrite run_snoc. cbn [fst snd]. set (s := fst (run (init e0) h)) in *. set (t := snd (run (init e0) h)) in *.
  pose proof (event_read w all e n) as EV.
  apply in_app_iff in I as [I|[->|[]]].
  - specialize (IH L1 I). assert (NE : event1 o <> Some e). { intros E. unfold lawful in L. rewrite begun_snoc, E in L. inversion L; subst. apply (NoDup_remove_2 (begun h) [] e) in H2. apply H2. rewrite app_nil_r. eapply begun_in; eauto. }
    assert (OT : forall x, d_read (writer (other w) s) = Some x -> r_ev x <> e). { intros x X E. destruct (read_event e0 h (other w) x X) as [m J]. pose proof (lawful_unique e0 h _ _ e L1 I J EV) as U. rewrite <- E, event_read in U. specialize (U eq_refl). destruct w; discriminate. }
    destruct IH as [(r & R & E & A & LEN & LEFT & LA)|(NH & LE & F)].
    + assert (NC : ~ In (Complete e Ok) (outs t)). { intros X. apply outs_in in X. assert (H : holds (is_read w all e n) s) by (destruct w; exists r; auto). pose proof (holds_waits e0 h _ e L1 H EV). fold t in H0. lia. }
      assert (SV : served r (match w with Server => d_closed (cli s) | Client => false end) (d_read (writer w (fst (step o s)))) (snd (step o s))).
      { destruct w; [apply step_srv|apply step_cli]; auto; try (rewrite E; exact NE); intros x X; rewrite E; apply OT; exact X. }
      apply (served_reads w all e n r _ _ t o (snd (step o s)) [] SV); auto. destruct w; [|discriminate]. intros C. split; [reflexivity|]. apply step_closed. exact C.
    + right. destruct (step_other o s e NE) as [C1 C2]; [destruct w; [exact NH|exact OT]|destruct w; [exact OT|exact NH]|]. rewrite content_snoc, lengths_snoc, C1, C2, !app_nil_r, outs_snoc.
      assert (NCC : ~ In (CClose e) h). { intros X. pose proof (lawful_unique e0 h _ _ e L1 I X EV eq_refl). destruct w; discriminate. }
      assert (H0 : held e s = 0). { destruct (Nat.eq_dec (held e s) 0) as [Z|Z]; [exact Z|exfalso]. destruct (held_op e0 h e Z) as [->|(o' & I' & E' & H')]; [apply (lawful_open _ _ _ L1 I EV)|]. pose proof (lawful_unique e0 h _ _ e L1 I I' EV E'). subst o'. destruct w; cbn [is_read holds] in H'; destruct H' as (r & R & X); apply (NH r R X). }
      pose proof (tally_eq e0 h e L1 (or_intror NCC)) as T. fold s t in T. pose proof (occ_in e (e0 :: begun h) (or_intror (begun_in _ _ _ I EV))) as O. pose proof (reach_tally e0 (h ++ [o]) e) as T2. rewrite run_snoc in T2. cbn [fst snd] in T2. fold s t in T2. rewrite completions_snoc in T2. pose proof (occ_nodup e _ L) as O2.
      split; [|split; [exact LE|]].
      * intros r R E. assert (H : 1 <= held e (fst (step o s))); [|lia]. rewrite <- ho_le. destruct w; cbn [writer] in R; rewrite R; cbn [option_map]; rewrite E, ho_some; lia.
      * intros X. apply in_app_iff in X as [X|X]; [|apply done_in in X; lia]. destruct (F X) as [F1 F2]. split; [exact F1|]. intros AL. destruct (F2 AL) as [Y|[Y1 Y2]]; [auto|right; split; [exact Y1|apply step_closed; exact Y2]].
  - assert (NB : ~ In e (begun h)). { intros X. unfold lawful in L. rewrite begun_snoc, EV in L. inversion L; subst. apply (NoDup_remove_2 (begun h) [] e) in H2. apply H2. rewrite app_nil_r. exact X. }
    destruct (fresh_read e0 h e NB) as [C0 L0]. fold t in C0, L0. assert (NE0 : e <> e0) by (intros ->; apply (lawful_open e0 (h ++ [is_read w all e0 n]) (is_read w all e0 n) L); [apply in_app_iff; right; left; reflexivity|exact EV]).
    assert (NC : ~ In (Complete e Ok) (outs t)). { intros X. apply outs_in in X. pose proof (reach_tally e0 h e) as T. fold s t in T. destruct (Nat.eq_dec (occ e (e0 :: begun h)) 0) as [Z|Z]; [lia|]. assert (Y : In e (e0 :: begun h)) by (apply in_occ; lia). destruct Y as [Y|Y]; [congruence|contradiction]. }
    assert (NR : forall r, d_read (writer w s) = Some r -> r_ev r <> e). { intros r R E. destruct (read_event e0 h w r R) as [m J]. apply NB. eapply begun_in; [exact J|]. rewrite event_read. congruence. }
    assert (REF : forall c, c <> Ok -> reads_ok w all e n s (t ++ [(is_read w all e n, [Complete e c])])). { intros c CN. right. split; [exact NR|]. rewrite content_snoc, lengths_snoc, C0, L0. cbn. split; [lia|]. rewrite outs_snoc, in_app_iff. intros [X|[X|[]]]; [contradiction|congruence]. }
    destruct w; cbn [is_read step].
    + destruct (_ || _); [apply REF; discriminate|]. destruct (d_read (srv s)); [apply REF; discriminate|]. destruct (_ && _); [apply REF; discriminate|].
      set (r := {| r_all := all; r_ev := e; r_left := n; r_len := 0 |}). set (x := on_srv (set_read (Some r)) s). pose proof (do_write_served x r eq_refl) as SV. pose proof (do_write_cli x) as (_ & _ & CL). destruct (do_write x) as [s' l]. cbn [fst snd] in *.
      apply (served_reads Server all e n r (d_closed (cli x)) s' t (SRead all e n) l [Length e 0] SV); auto; try (rewrite C0; reflexivity); try (cbn; rewrite Nat.eqb_refl; auto).
      * cbn. intros [X|[]]; discriminate.
      * intros C. split; [reflexivity|]. rewrite CL. exact C.
    + destruct (d_read (cli s)); [apply REF; discriminate|]. destruct (d_closed (srv s)); [apply REF; discriminate|].
      set (r := {| r_all := all; r_ev := e; r_left := n; r_len := 0 |}). set (x := on_cli (set_read (Some r)) s). pose proof (do_read_served x r eq_refl) as SV. destruct (do_read x) as [s' l]. cbn [fst snd] in *.
      apply (served_reads Client all e n r false s' t (CRead all e n) l [Length e 0] SV); auto; try (rewrite C0; reflexivity); try (cbn; rewrite Nat.eqb_refl; auto).
      * cbn. intros [X|[]]; discriminate.
      * discriminate.
Qed.
(** ** More facts *)
Lemma event_fresh : forall e0 h o e, lawful e0 (h ++ [o]) -> event1 o = Some e -> held e (fst (run (init e0) h)) = 0 /\ completions e (snd (run (init e0) h)) = 0.
Proof.
  intros e0 h o e L E. pose proof (reach_tally e0 h e) as T. pose proof (occ_nodup e _ L) as N. change (e0 :: begun (h ++ [o])) with ([e0] ++ begun (h ++ [o])) in N. rewrite begun_snoc, E, app_assoc, occ_app, occ_opt, ho_some in N. change ([e0] ++ begun h) with (e0 :: begun h) in N. lia.
Qed.
Lemma held_zero : forall e s, held e s = 0 -> d_open (cli s) <> Some e /\ (forall r, d_read (srv s) = Some r -> r_ev r <> e) /\ (forall r, d_read (cli s) = Some r -> r_ev r <> e) /\ (forall w, d_write (srv s) = Some w -> w_ev w <> e) /\ (forall w, d_write (cli s) = Some w -> w_ev w <> e) /\ d_close (srv s) <> Some e /\ d_close (cli s) <> Some e.
Proof.
  intros e s H. rewrite <- ho_le in H.
  assert (Z : forall x, ho e x = 0 -> x <> Some e) by (intros x X Y; rewrite Y, ho_some in X; discriminate).
  repeat split; try (apply Z; lia); intros r R E; [apply (Z (option_map r_ev (d_read (srv s))))|apply (Z (option_map r_ev (d_read (cli s))))|apply (Z (option_map w_ev (d_write (srv s))))|apply (Z (option_map w_ev (d_write (cli s))))]; try lia; rewrite R; cbn; congruence.
Qed.
Lemma close_accepted : forall e s, held e s = 0 -> refused (CClose e) (snd (step (CClose e) s)) = false.
Proof.
  intros e s H. apply held_zero in H as (_ & H & _). cbn [step]. cbn. destruct (d_write (cli s)); [reflexivity|]. cbn [snd]. unfold refused. cbn. rewrite existsb_app. cbn. rewrite orb_false_r.
  destruct (d_read (srv s)) as [r|]; cbn; [|reflexivity]. rewrite orb_false_r. apply Nat.eqb_neq. intros X. apply (H r eq_refl). auto.
Qed.
Lemma closed_by_client : forall e0 h, lawful e0 h -> d_closed (cli (fst (run (init e0) h))) = true -> has_closed Client (snd (run (init e0) h)).
Proof.
  intros e0. induction h as [|o h IH] using rev_ind; intros L; [discriminate|]. pose proof (lawful_app _ _ _ L) as L1. rewrite run_snoc. cbn [fst snd]. set (s := fst (run (init e0) h)) in *. intros C.
  assert (D : d_closed (cli s) = true \/ exists e, o = CClose e).
  { destruct o as [a|all a n|a b|a| |all a n|a b|a|]; cbn [step] in C; eauto; left.
    - destruct (_ || _); [exact C|]. destruct (d_open (srv s)); exact C.
    - destruct (_ || _); [exact C|]. destruct (d_read (srv s)); [exact C|]. destruct (_ && _); [exact C|]. match goal with _ : context [do_write ?x] |- _ => pose proof (do_write_cli x) as (_ & T1 & T2); destruct (do_write x) as [s' l] end. cbn [fst] in *. rewrite T2 in C. exact C.
    - destruct (_ || _); [exact C|]. destruct (d_write (srv s)); [exact C|]. destruct (d_closed (srv s)); [exact C|]. match goal with _ : context [do_read ?x] |- _ => pose proof (do_read_srv x) as (_ & T1 & T2) end. rewrite T2 in C. exact C.
    - destruct (_ || _); [exact C|]. destruct (d_close (srv s)); [exact C|]. cbn in C. destruct (d_write (srv s)); exact C.
    - destruct (d_stopped (srv s)); exact C.
    - destruct (d_read (cli s)); [exact C|]. destruct (d_closed (srv s)); [exact C|]. match goal with _ : context [do_read ?x] |- _ => pose proof (do_read_srv x) as (_ & T1 & T2); destruct (do_read x) as [s' l] end. cbn [fst] in *. rewrite T2 in C. exact C.
    - destruct (_ || _); [exact C|]. destruct (d_closed (cli s)) eqn:CC; [reflexivity|]. destruct (d_write (cli s)); [cbn in C; congruence|]. match goal with _ : context [do_write ?x] |- _ => pose proof (do_write_cli x) as (_ & T1 & T2) end. rewrite T2 in C. cbn in C. congruence.
    - destruct (d_stopped (cli s)); exact C. }
  destruct D as [D|[e ->]].
  - destruct (IH L1 D) as (e & l & I & R). exists e, l. split; [apply in_app_iff; auto|exact R].
  - exists e, (snd (step (CClose e) s)). split; [apply in_app_iff; right; left; reflexivity|]. cbn [is_close]. apply close_accepted. eapply event_fresh; [exact L|reflexivity].
Qed.
Lemma refused_same : forall o s, (forall e, event1 o = Some e -> held e s = 0) -> refused o (snd (step o s)) = true -> fst (step o s) = s.
Proof.
  intros o s H R. assert (OK : forall x l, all_ok l -> match x with Complete _ _ => False | _ => True end -> refused o (x :: l) = true -> False).
  { intros x l A X Y. rewrite (ok_refused o (x :: l)) in Y; [discriminate|]. apply ok_cons; [destruct x; [destruct X| |]; exact I|exact A]. }
  destruct o as [a|all a n|a b|a| |all a n|a b|a|]; cbn [step] in *.
  - destruct (_ || _); [reflexivity|]. destruct (d_open (srv s)); [reflexivity|]. cbn [snd] in R. rewrite ok_refused in R; [discriminate|]. apply ok_app; [apply ok_resolve|apply ok_cons; auto using ok_nil].
  - destruct (_ || _); [reflexivity|]. destruct (d_read (srv s)); [reflexivity|]. destruct (_ && _); [reflexivity|]. match goal with _ : context [do_write ?x] |- _ => pose proof (do_write_ok x) as T; destruct (do_write x) as [s' l] end. cbn [fst snd] in *. exact (False_ind _ (OK (Length a 0) l T I R)).
  - destruct (_ || _); [reflexivity|]. destruct (d_write (srv s)); [reflexivity|]. destruct (d_closed (srv s)); [reflexivity|]. rewrite ok_refused in R; [discriminate|apply do_read_ok].
  - destruct (_ || _); [reflexivity|]. destruct (d_close (srv s)); [reflexivity|]. exfalso. cbn in R. destruct (d_write (srv s)); [discriminate|]. cbn [snd] in R. unfold refused in R. cbn in R. rewrite existsb_app in R. cbn in R. rewrite orb_false_r in R. destruct (held_zero a s (H a eq_refl)) as (_ & _ & H2 & _). destruct (d_read (cli s)) as [r|]; cbn in R; [|discriminate]. rewrite orb_false_r in R. apply Nat.eqb_eq in R. apply (H2 r eq_refl). auto.
  - discriminate.
  - destruct (d_read (cli s)); [reflexivity|]. destruct (d_closed (srv s)); [reflexivity|]. match goal with _ : context [do_read ?x] |- _ => pose proof (do_read_ok x) as T; destruct (do_read x) as [s' l] end. cbn [fst snd] in *. exact (False_ind _ (OK (Length a 0) l T I R)).
  - destruct (_ || _); [reflexivity|]. destruct (d_closed (cli s)); [reflexivity|]. destruct (d_write (cli s)); [reflexivity|]. rewrite ok_refused in R; [discriminate|apply do_write_ok].
  - exfalso. change (snd (step (CClose a) s)) with (snd (step (CClose a) s)) in R. pose proof (close_accepted a s (H a eq_refl)) as X. cbn [step] in X. congruence.
  - discriminate.
Qed.
