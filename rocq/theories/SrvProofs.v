From Coq Require Import List Bool Arith Lia.
From Verif Require Import SrvModel SrvSpec.
Import ListNotations.

Lemma run_app : forall h1 h2 s, run s (h1 ++ h2) = (fst (run (fst (run s h1)) h2), snd (run s h1) ++ snd (run (fst (run s h1)) h2)).
Proof.
  induction h1 as [|m h1 IH]; intros h2 s; cbn [app run].
  - cbn [fst snd app]. apply surjective_pairing.
  - destruct (step (snd m) (fst m) s) as [s1 l]. rewrite IH. destruct (run s1 h1) as [s2 t]. cbn [fst snd]. destruct (run s2 h2); reflexivity.
Qed.
Lemma run_snoc : forall h m s, run s (h ++ [m]) = (fst (step (snd m) (fst m) (fst (run s h))), snd (run s h) ++ [(m, snd (step (snd m) (fst m) (fst (run s h))))]).
Proof. intros. rewrite run_app. cbn [run]. destruct (step _ _ _); reflexivity. Qed.

Lemma outs_app : forall a b, outs (a ++ b) = outs a ++ outs b.
Proof. intros. apply flat_map_app. Qed.
Lemma accepted_snoc : forall t x, accepted (t ++ [x]) = accepted t ++ accepted1 x.
Proof. intros. unfold accepted. rewrite flat_map_app. cbn. rewrite app_nil_r. reflexivity. Qed.
Lemma completed_snoc : forall t x, completed (t ++ [x]) = completed t ++ flat_map completed1 (snd x).
Proof. intros. unfold completed. rewrite outs_app, flat_map_app. unfold outs. cbn. rewrite app_nil_r. reflexivity. Qed.
Lemma wired_snoc : forall t x, wired (t ++ [x]) = wired t ++ flat_map wired1 (snd x).
Proof. intros. unfold wired. rewrite outs_app, flat_map_app. unfold outs. cbn. rewrite app_nil_r. reflexivity. Qed.
Lemma flying_from_app : forall a b x, flying_from x (a ++ b) = flying_from (flying_from x a) b.
Proof. induction a as [|[m l] a IH]; intros; cbn; auto. Qed.
Lemma flying_snoc : forall t m l, flying (t ++ [(m, l)]) = existsb is_wire l || (flying t && negb (is_sent m)).
Proof. intros. unfold flying. rewrite flying_from_app. reflexivity. Qed.
Lemma existsb_snoc : forall A (f : A -> bool) l x, existsb f (l ++ [x]) = existsb f l || f x.
Proof. intros. rewrite existsb_app. cbn. rewrite orb_false_r. reflexivity. Qed.
Lemma count_app : forall A (f : A -> bool) a b, count f (a ++ b) = count f a + count f b.
Proof. intros. unfold count. rewrite filter_app, app_length. reflexivity. Qed.
Lemma outs_snoc : forall t m l, outs (t ++ [(m, l)]) = outs t ++ l.
Proof. intros. rewrite outs_app. unfold outs at 2. cbn. rewrite app_nil_r. reflexivity. Qed.

Lemma left_out_app : forall a b c d, left_out a b -> left_out c d -> left_out (a ++ c) (b ++ d).
Proof. intros a b c d H. induction H; intros K; cbn; auto; constructor; auto. Qed.
Lemma left_out_none : forall b, left_out [] b.
Proof. induction b; constructor; auto. Qed.
Lemma left_out_nil : forall a b, left_out a b -> forall d, left_out a (b ++ d).
Proof. intros a b H d. pose proof (left_out_app a b [] d H (left_out_none d)) as X. rewrite app_nil_r in X. exact X. Qed.

Lemma pushes_ok : forall l c, pushes l c = (c, []) \/ d_buf c = false /\ pushes l c = (set_buf true c, [Wire None]).
Proof.
  induction l as [|p l IH]; intros c; cbn; [auto|]. unfold push1. destruct (d_buf c) eqn:B.
  - destruct (IH c) as [->|[X _]]; [auto|congruence].
  - destruct p.
    + right. destruct (IH (set_buf true c)) as [->|[X _]]; [auto|discriminate].
    + destruct (IH c) as [->|[X ->]]; auto.
    + destruct (IH c) as [->|[X ->]]; auto.
Qed.

(** What the queued sends of a freed connection get. *)
Definition cancel (q : list nat) : list out := map (fun t => Completed t ConnectionClosing) q.
Lemma cancel_completed : forall q, flat_map completed1 (cancel q) = q.
Proof. induction q; cbn; [reflexivity|f_equal; exact IHq]. Qed.
Lemma cancel_wired : forall q, flat_map wired1 (cancel q) = [].
Proof. induction q; cbn; auto. Qed.
Lemma cancel_exists : forall (f : out -> bool) q, (forall t, f (Completed t ConnectionClosing) = false) -> existsb f (cancel q) = false.
Proof. intros f q H. induction q; cbn; [reflexivity|]. rewrite H. exact IHq. Qed.
Lemma cancel_count : forall (f : out -> bool) q, (forall t, f (Completed t ConnectionClosing) = false) -> filter f (cancel q) = [].
Proof. intros f q H. induction q; cbn; [reflexivity|]. rewrite H. exact IHq. Qed.

Record inv (s : state) (t : trace) : Prop := {
  i_order : accepted t = completed t ++ match s with Some c => d_queue c | None => [] end;
  i_wired : left_out (wired t) (completed t);
  i_recv : match s with Some c => d_receiving c = false | None => True end;
  i_fly : match s with Some c => flying t = d_buf c | None => True end;
  i_posted : match s with Some c => d_queue c <> [] -> d_buf c = true \/ d_posted c = true \/ existsb fizzled t = true | None => True end;
  i_freed : count is_freed (outs t) = match s with Some _ => 0 | None => 1 end;
  i_ends : existsb ends t = match s with Some c => d_destroyed c | None => true end;
  i_ended : count is_ended (outs t) <= 1;
  i_ended0 : existsb ends t = false -> count is_ended (outs t) = 0;
  i_closed : match s with Some c => d_phase c <> Closing -> existsb closes t = true -> d_destroyed c = true | None => True end;
  i_close : match s with Some c => d_close c <> None -> d_phase c = Closing | None => True end;
}.

Ltac snoc := rewrite ?accepted_snoc, ?completed_snoc, ?wired_snoc, ?flying_snoc, ?existsb_snoc, ?outs_snoc, ?count_app.
Ltac cases := repeat match goal with
  | |- context [pushes ?l ?c] => let H := fresh "P" in let K := fresh "B" in destruct (pushes_ok l c) as [H|[K H]]; rewrite H; clear H; cbn in *
  | |- context [match ?x with _ => _ end] => match x with context [match _ with _ => _ end] => fail 1 | _ => destruct x eqn:?; cbn in * end
  end.
Ltac fin := unfold count in *; cbn in *; rewrite ?flat_map_app, ?existsb_app, ?filter_app, ?app_length, ?app_nil_r, ?orb_false_r, ?orb_true_r, ?andb_true_r, ?andb_false_r in *; cbn in *;
  repeat match goal with |- context [map (fun t : nat => Completed t ConnectionClosing) ?q] => change (map (fun t : nat => Completed t ConnectionClosing) q) with (cancel q) end;
  rewrite ?cancel_completed, ?cancel_wired, ?cancel_exists, ?cancel_count in * by (intros; reflexivity); cbn in *; rewrite ?app_nil_r, ?orb_false_r, ?orb_true_r, ?andb_true_r, ?andb_false_r in *;
  repeat match goal with H : accepted _ = _ |- _ => rewrite H | H : count _ _ = _ |- _ => rewrite H | H : flying _ = _ |- _ => rewrite H | H : existsb ends _ = _ |- _ => rewrite H end; cbn.
Lemma step_inv : forall (m : move) s t, inv s t -> inv (fst (step (snd m) (fst m) s)) (t ++ [(m, snd (step (snd m) (fst m) s))]).
Proof.
  intros [o e] [c|] t [I1 I2 I3 I4 I5 I6 I7 I8 I9 I10 I11].
  2: { cbn [step fst snd]. rewrite app_nil_r in I1. constructor; snoc; cbn; rewrite ?app_nil_r, ?orb_false_r; auto; try lia; try (rewrite I7; reflexivity); try (rewrite I7; discriminate).
       destruct o; rewrite ?app_nil_r; auto. }
  destruct c as [ph bu q po re de cl]. cbn in *. subst re.
  destruct o; cbn [step fst snd]; unfold handle_packet, send_callback, async_close, async_send, start_send_deferred, is_closed, do_one, ended, destroy, free, told, push1; cbn in *; cases.
  all: try discriminate; subst.
  all: constructor; snoc; fin.
  all: try solve [auto | lia | congruence | intuition congruence | rewrite <- ?app_assoc; cbn; rewrite ?app_nil_r; auto | apply left_out_app; auto; repeat constructor | apply left_out_nil; auto | intros; right; right; rewrite ?orb_true_r; reflexivity].
  all: try solve [rewrite (I9 I7); auto | intros; rewrite I9 by auto; auto | unfold ends; cbn; apply orb_true_r | intros X; destruct (X (I11 ltac:(discriminate)))].
Qed.
Lemma inv_init : inv init [].
Proof. constructor; cbn; auto; try congruence. constructor. Qed.
Theorem reach_inv : forall h, inv (fst (run init h)) (snd (run init h)).
Proof.
  intros h. induction h as [|m h IH] using rev_ind; [exact inv_init|]. rewrite run_snoc. cbn [fst snd]. apply step_inv. exact IH.
Qed.
