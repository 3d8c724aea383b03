(** * Proofs for the mDNS server (C96) *)
From Coq Require Import List Arith NArith Bool Lia.
From Verif Require Import MdnsModel MdnsSpec.
Import ListNotations.

Lemma runs_app : forall a s b,
  runs s (a ++ b) = let (s1, x) := runs s a in let (s2, y) := runs s1 b in (s2, x ++ y).
Proof.
  induction a as [|o a IH]; intros s b; cbn [runs app].
  - destruct (runs s b); reflexivity.
  - destruct (step s o) as [s1 x]. rewrite IH. destruct (runs s1 a) as [s2 y].
    destruct (runs s2 b) as [s3 z]. rewrite app_assoc. reflexivity.
Qed.

Lemma run_snoc : forall l o,
  run (l ++ [o]) = let (s, x) := run l in let (s1, y) := step s o in (s1, x ++ y).
Proof.
  intros. unfold run. rewrite runs_app. destruct (runs init l) as [s x]. cbn [runs].
  destruct (step s o) as [s1 y]. rewrite app_nil_r. reflexivity.
Qed.

Lemma wish_snoc : forall l o, wish_of (l ++ [o]) = wish1 (wish_of l) o.
Proof. intros. unfold wish_of. rewrite fold_left_app. reflexivity. Qed.

Lemma broken_snoc : forall f l o, broken f (l ++ [o]) = orb (broken f l) (broken1 f o).
Proof. intros. unfold broken. rewrite existsb_app. cbn. rewrite orb_false_r. reflexivity. Qed.

Lemma count_app : forall h a b, count h (a ++ b) = count h a + count h b.
Proof. intros. unfold count. rewrite filter_app, app_length. reflexivity. Qed.

Lemma asked_snoc : forall c l o,
  asked c (l ++ [o]) = asked c l + match o with Close d _ => if d =? c then 1 else 0 | _ => 0 end.
Proof.
  intros. unfold asked. rewrite filter_app, app_length. f_equal.
  destruct o; cbn; try reflexivity. destruct (c0 =? c); reflexivity.
Qed.

(** The state follows the wishes of the application. *)
Definition Follows (w : wish) (s : st) : Prop :=
  match w with
  | Nothing => s = init
  | Serve p n => state s = Running /\ port s = p /\ info s = n /\ closing s = None
  | Withdrawn p n => state s = Closed /\ port s = p /\ info s = n
  | Over (Some (p, n)) => state s = Stopped /\ port s = p /\ info s = n
  | Over None => state s = Stopped /\ closing s = None
  end.

Definition byeing (i : inst) : bool := match sending i with Some true => true | _ => false end.

(** A close is waiting for exactly one thing. *)
Definition Closing (s : st) : Prop :=
  match closing s with
  | None => inst_closed s = None /\ byeing (i4 s) = false /\ byeing (i6 s) = false
  | Some _ =>
      match inst_closed s with
      | Some _ => byeing (i4 s) = false /\ byeing (i6 s) = false
      | None => byeing (i4 s) = fam_eqb (phase s) V4 /\ byeing (i6 s) = fam_eqb (phase s) V6
      end
  end.

Definition Lone (i : inst) : Prop :=
  (sending i = Some false -> waiting i = false /\ opening i = false) /\
  (opening i = true -> waiting i = false).

Definition Byes (s : st) (o : list out) : Prop :=
  match state s with
  | New | Running => count (is_bye V4) o = 0 /\ count (is_bye V6) o = 0
  | _ => count (is_bye V4) o <= 1 /\ count (is_bye V6) o <= 1 /\
         (closing s <> None -> phase s = V4 -> count (is_bye V6) o = 0)
  end.

Definition Busy (s : st) (l : list op) : Prop :=
  state s = Running -> forall f, outstanding s f = 1 \/ (outstanding s f = 0 /\ broken f l = true).

Record Inv (l : list op) (s : st) (o : list out) : Prop := {
  I_wish : Follows (wish_of l) s;
  I_clo : Closing s;
  I_l4 : Lone (i4 s);
  I_l6 : Lone (i6 s);
  I_bye : Byes s o;
  I_busy : Busy s l;
  I_ans : forall c, asked c l = answered c o +
            match closing s with Some d => if d =? c then 1 else 0 | None => 0 end }.

Lemma inv_init : Inv [] init [].
Proof.
  constructor; cbn; auto; try (split; auto; discriminate); try (intros H; discriminate).
Qed.

(** The pieces of the invariant, one at a time. *)
Ltac crush :=
  repeat match goal with
  | |- context [match ?x with _ => _ end] => destruct x eqn:?
  | H : context [match ?x with _ => _ end] |- _ => destruct x eqn:?
  end.

Lemma follows_step : forall w s o, Follows w s -> Follows (wish1 w o) (fst (step s o)).
Proof.
  intros w s o H. destruct w as [|p n|p n|[[p n]|]]; cbn [Follows] in H.
  - subst s. destruct o; try destruct f; cbn; auto.
  - destruct s as [x pp nn a b c ph q]. cbn in H. destruct H as (-> & -> & -> & ->).
    destruct o; try destruct f; cbn; unfold opened, recv_done, sent, closed, close_instance, send_packet, recv_packet, is_running; cbn;
    repeat (match goal with |- context [match ?x with _ => _ end] => destruct x; cbn end); auto.
  - destruct s as [x pp nn a b c ph q]. cbn in H. destruct H as (-> & -> & ->).
    destruct o; try destruct f; cbn; unfold close, opened, recv_done, sent, closed, close_instance, send_packet, recv_packet, is_running; cbn;
    repeat (match goal with |- context [match ?x with _ => _ end] => destruct x; cbn end); auto.
  - destruct s as [x pp nn a b c ph q]. cbn in H. destruct H as (-> & -> & ->).
    destruct o; try destruct f; cbn; unfold close, opened, recv_done, sent, closed, close_instance, send_packet, recv_packet, is_running; cbn;
    repeat (match goal with |- context [match ?x with _ => _ end] => destruct x; cbn end); auto.
  - destruct s as [x pp nn a b c ph q]. cbn in H. destruct H as (-> & ->).
    destruct o; try destruct f; cbn; unfold close, opened, recv_done, sent, closed, close_instance, send_packet, recv_packet, is_running; cbn;
    repeat (match goal with |- context [match ?x with _ => _ end] => destruct x; cbn end); auto.
Qed.

Ltac open_step :=
  cbn [step fst snd]; unfold publish, opened, recv_done, sent, close, closed, close_instance, send_packet,
    recv_packet, is_running, idle, post; cbn.

Ltac cases :=
  repeat (match goal with
    | |- context [match ?x with _ => _ end] =>
        lazymatch x with
        | context [match _ with _ => _ end] => fail
        | _ => first [is_var x; destruct x | destruct x eqn:?]; cbn in *; try discriminate
        end
    end).

Lemma closing_step : forall s o, Closing s -> (state s = Running -> closing s = None) ->
  Closing (fst (step s o)).
Proof.
  intros [x pp nn [a1 a2 a3 a4] [b1 b2 b3 b4] c ph q] o H HR. unfold Closing, byeing in *. cbn in H, HR.
  assert (HH : c = None \/ (exists d, c = Some d /\ x <> Running)).
  { destruct c as [d|]; [right; exists d; split; auto; intros ->; specialize (HR eq_refl); discriminate|auto]. }
  clear HR. destruct HH as [-> | (d & -> & HR)].
  - destruct H as (-> & H4 & H6).
    destruct a2 as [[]|]; try discriminate; destruct b2 as [[]|]; try discriminate; clear;
    destruct x, o; try destruct f; open_step; cases; cbn in *; auto.
  - destruct q as [e|].
    + destruct H as (H4 & H6).
      destruct a2 as [[]|]; try discriminate; destruct b2 as [[]|]; try discriminate; clear -HR;
      destruct x, o; try destruct f; try congruence; open_step; cases; cbn in *; auto.
    + destruct H as (H4 & H6).
      destruct ph, a2 as [[]|]; try discriminate; destruct b2 as [[]|]; try discriminate; clear -HR;
      destruct x, o; try destruct f; try congruence; open_step; cases; cbn in *; auto.
Qed.
