From Coq Require Import String List Bool Arith Lia.
From Verif Require Import DevModel DevSpec.
Import ListNotations.

Lemma run_app : forall h1 h2 s, run s (h1 ++ h2) = (fst (run (fst (run s h1)) h2), snd (run s h1) ++ snd (run (fst (run s h1)) h2)).
Proof.
  induction h1 as [|m h1 IH]; intros h2 s; cbn [app run].
  - cbn [fst snd app]. apply surjective_pairing.
  - destruct (step m s) as [s1 l]. rewrite IH. destruct (run s1 h1) as [s2 t]. cbn [fst snd]. destruct (run s2 h2); reflexivity.
Qed.
Lemma run_snoc : forall h m s, run s (h ++ [m]) = (fst (step m (fst (run s h))), snd (run s h) ++ [(m, snd (step m (fst (run s h))))]).
Proof. intros. rewrite run_app. cbn [run]. destruct (step _ _); reflexivity. Qed.
Lemma outs_app : forall a b, outs (a ++ b) = outs a ++ outs b.
Proof. intros. apply flat_map_app. Qed.
Lemma outs_snoc : forall t m l, outs (t ++ [(m, l)]) = outs t ++ l.
Proof. intros. rewrite outs_app. unfold outs at 2. cbn. rewrite app_nil_r. reflexivity. Qed.
Lemma times_app : forall f a b, times f (a ++ b) = times f a + times f b.
Proof. intros. unfold times. rewrite filter_app, app_length. reflexivity. Qed.
Lemma map_fst_run : forall h s, map fst (snd (run s h)) = h.
Proof. induction h as [|m h IH]; intros s; cbn [run]; [reflexivity|]. destruct (step m s) as [s1 l]. specialize (IH s1). destruct (run s1 h). cbn in *. f_equal. exact IH. Qed.

Definition b2n (b : bool) : nat := if b then 1 else 0.
Definition is_fut (f : nat) (x : option nat) : bool := match x with Some g => Nat.eqb g f | None => false end.
Definition inflight (f : nat) (d : dev) : nat := b2n (v_start_cb d && is_fut f (v_start_fut d)) + b2n (is_fut f (v_close_fut d)).
Definition calls (f : nat) (h : list op) : nat := length (filter (Nat.eqb f) (futures h)).

Record good (d : dev) : Prop := {
  g_start : v_start_cb d = true -> v_start_fut d <> None;
  g_stage : v_stage d <> None <-> v_start_cb d = true;
  g_close : v_close_fut d <> None <-> v_close_cb d = true \/ v_plat d = true;
  g_plat : v_plat d = true -> v_close_cb d = false }.

Lemma assign_str : forall f v oom d, exists x y z c, assign f v oom d = (set_str x y z d, c).
Proof. intros. unfold assign. destruct oom; eauto. Qed.
Lemma same_str : forall d, set_str (v_str d) (v_heap d) (v_next d) d = d.
Proof. intros []. reflexivity. Qed.
Lemma core_start_ok : forall d, exists x y z, let d1 := set_str x y z d in
  core_start d = (d1, InvalidState, []) \/
  core_start d = (set_stage (Some P2p) (set_start true (v_start_fut d1) (attacher_info (set_phase Running d1))), Ok, [Bind P2p (fst (v_ports d))]).
Proof.
  intros d. unfold core_start. destruct (v_str d Product) as [p|]; [|exists (v_str d), (v_heap d), (v_next d); cbv zeta; rewrite same_str; auto].
  destruct (v_str d Device) as [i|]; [|exists (v_str d), (v_heap d), (v_next d); cbv zeta; rewrite same_str; auto].
  set (d1 := match v_str d Url with Some _ => d | None => _ end).
  assert (X : exists x y z, d1 = set_str x y z d).
  { unfold d1. destruct (v_str d Url); [exists (v_str d), (v_heap d), (v_next d); rewrite same_str; auto|]. destruct (deref p d) as [v|]; [|exists (v_str d), (v_heap d), (v_next d); rewrite same_str; auto].
    destruct (assign_str Url (v ++ suffix) false d) as (x & y & z & c & ->). exists x, y, z. reflexivity. }
  clearbody d1. destruct X as (x & y & z & ->). exists x, y, z. cbv zeta. destruct (mdns_ok _); [right|left; reflexivity]. unfold attacher_info. destruct d; cbn. destruct a_module; reflexivity.
Qed.
(** What a call of nabto_device_start does. *)
Lemma start_ok : forall f k d, let d0 := set_start (v_start_cb d) (Some f) d in exists x y z c, let d1 := set_str x y z d0 in
  start f k d = (d1, [Resolved f c]) \/
  start f k d = (set_stage (Some P2p) (set_start true (Some f) (attacher_info (set_phase Running d1))), [Bind P2p (fst (v_ports d))]).
Proof.
  intros f k d. unfold start. set (d0 := set_start (v_start_cb d) (Some f) d). cbv zeta.
  assert (E : forall c, (d0, [Resolved f c]) = (set_str (v_str d0) (v_heap d0) (v_next d0) d0, [Resolved f c])) by (intros; rewrite same_str; reflexivity).
  destruct (v_key d0); [|do 4 eexists; left; apply E]. destruct (match a_module d0 with MSetup => k | _ => InvalidState end); try (do 4 eexists; left; apply E).
  destruct (core_start_ok d0) as (x & y & z & [H|H]); rewrite H; exists x, y, z, InvalidState; [left|right]; reflexivity.
Qed.
Lemma set_str_ok : forall f v oom d, v_closing d = false -> exists x y z c, step (SetStr f v oom) d = (set_str x y z d, [Returned c]).
Proof.
  intros f v oom d C. cbn [step]. rewrite C. destruct (assign_str f v oom d) as (x & y & z & c & ->). destruct f; try (do 4 eexists; reflexivity); destruct (32 <? String.length v); try (do 4 eexists; reflexivity); exists (v_str d), (v_heap d), (v_next d), TooLong; rewrite same_str; reflexivity.
Qed.

Ltac cases := repeat match goal with
  | H : context [match ?x with _ => _ end] |- _ => first [is_var x; destruct x | destruct x eqn:?]
  | |- context [match ?x with _ => _ end] => first [is_var x; destruct x | destruct x eqn:?]
  end.
Ltac opn := unfold close, stop, bound, sockets_bound, resolve_both, core_closed, started, device_closed, attach_closed, basestation_attach, conns_closed, attacher_close, attacher_start, attacher_restart, do_close; cbn [fst snd].
(** Opens a step into its cases. *)
Ltac open_step o :=
  destruct o as [f k|f active|active|b keep| | | |b|p l|fl v oom|c| | |c|]; cbn [step];
  [ match goal with |- context [if v_closing ?d then _ else _] => destruct (v_closing d) eqn:?; [|destruct (start_ok f k d) as (? & ? & ? & ? & [-> | ->])] end
  | | | | | | | | | match goal with |- context [v_closing ?d] => destruct (v_closing d) eqn:CL; [|let H := fresh in destruct (set_str_ok fl v oom d CL) as (? & ? & ? & ? & H); cbn [step] in H; rewrite CL in H; rewrite H; clear H] end | | | | | ].

Ltac inj := repeat match goal with H : (_, _) = (_, _) |- _ => injection H as; subst end.
Ltac crush d := opn; destruct d; cbn in *; cases; inj; cbn in *; try discriminate.
Lemma step_good : forall o d, good d -> good (fst (step o d)).
Proof.
  intros o d [A B C D]. open_step o; cbn [fst snd]; try (constructor; assumption).
  - constructor; cbn; auto. congruence.
  - unfold attacher_info. constructor; cbn; destruct (a_module d); cbn; auto; try congruence; intuition congruence.
  - clear - A B C D. crush d; constructor; cbn; intuition congruence.
  - clear - A B C D. crush d; constructor; cbn; intuition congruence.
  - clear - A B C D. crush d; constructor; cbn; intuition congruence.
  - clear - A B C D. crush d; constructor; cbn; intuition congruence.
  - clear - A B C D. crush d; constructor; cbn; intuition congruence.
  - clear - A B C D. crush d; constructor; cbn; intuition congruence.
  - clear - A B C D. crush d; constructor; cbn; intuition congruence.
  - clear - A B C D. crush d; constructor; cbn; intuition congruence.
  - clear - A B C D. crush d; constructor; cbn; intuition congruence.
  - clear - A B C D. crush d; constructor; cbn; intuition congruence.
  - clear - A B C D. crush d; constructor; cbn; intuition congruence.
  - clear - A B C D. crush d; constructor; cbn; intuition congruence.
Qed.
Lemma reach_good : forall h, good (fst (run init h)).
Proof. induction h as [|o h IH] using rev_ind; [constructor; cbn; intuition congruence|]. rewrite run_snoc. apply step_good. exact IH. Qed.

