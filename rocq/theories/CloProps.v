(** * Requests to the basestation: theorems (C94) *)
From Coq Require Import List ZArith NArith String Bool Lia.
From Verif Require Import CloModel CloSpec.
Import ListNotations.
Open Scope list_scope.
Open Scope nat_scope.

Lemma runs_app : forall a b s,
  runs s (a ++ b) =
  let (s1, o1) := runs s a in let (s2, o2) := runs s1 b in (s2, o1 ++ o2).
Proof.
  induction a as [|i a IH]; intros b s; cbn [app runs].
  - destruct (runs s b); reflexivity.
  - destruct (step s i) as [s1 o1]. rewrite IH.
    destruct (runs s1 a) as [s2 o2]. destruct (runs s2 b) as [s3 o3].
    rewrite app_assoc. reflexivity.
Qed.

Lemma run_snoc : forall k d b l i,
  run k d b (l ++ [i]) =
  let (s1, o1) := run k d b l in let (s2, o2) := step s1 i in (s2, o1 ++ o2).
Proof.
  intros. unfold run. rewrite runs_app. destruct (runs (init k d b) l) as [s1 o1].
  cbn [runs]. destruct (step s1 i) as [s2 o2]. rewrite app_nil_r, app_assoc. reflexivity.
Qed.

Lemma count_app : forall {A} (p : A -> bool) a b, count p (a ++ b) = count p a + count p b.
Proof. intros. unfold count. rewrite filter_app, app_length. reflexivity. Qed.

(** ** Futures *)

Definition owed (s : st) (f : nat) : nat :=
  match req s, slot s with RSent, Some g => if Nat.eqb f g then 1 else 0 | _, _ => 0 end.

Record Inv (s : st) : Prop := mkInv {
  V_sent : req s = RSent -> slot s <> None;
  V_slot : slot s = None -> req s = RNull \/ (exists c, req s = RNew c) \/ alive s = false }.

Lemma inv_init : forall k d b, Inv (init k d b).
Proof. intros [] d b; constructor; cbn; intros; try discriminate; eauto. Qed.

Record Eff (s s1 : st) (o1 : list out) : Prop := mkEff {
  E_inv : Inv s1;
  E_once : forall f a b, o1 = a ++ b -> count (is_resolved f) a <= count (is_asked f) a + owed s f;
  E_bal : forall f, count (is_resolved f) o1 + owed s1 f <= count (is_asked f) o1 + owed s f }.

Lemma prefix_cases : forall {A} (a x b y : list A),
  a ++ b = x ++ y -> (exists z, a = x ++ z) \/ (exists z, x = a ++ z /\ b = z ++ y).
Proof.
  induction a as [|i a IH]; intros x b y E.
  - right. exists x. auto.
  - destruct x as [|j x]; [left; exists (i :: a); reflexivity|].
    cbn [app] in E. injection E as <- E. destruct (IH x b y E) as [[z ->]|(z & -> & ->)].
    + left. exists z. reflexivity.
    + right. exists z. auto.
Qed.

(** A boolean check of the prefixes of a short list of outputs. *)
Fixpoint prefixes_ok (f n m : nat) (o : list out) : bool :=
  Nat.leb n m &&
  match o with
  | [] => true
  | x :: o' => prefixes_ok f (n + (if is_resolved f x then 1 else 0)) (m + (if is_asked f x then 1 else 0)) o'
  end.

Lemma prefixes_sound : forall f o n m,
  prefixes_ok f n m o = true ->
  forall a b, o = a ++ b -> n + count (is_resolved f) a <= m + count (is_asked f) a.
Proof.
  induction o as [|x o IH]; intros n m H a b E.
  - destruct a; [|discriminate E]. cbn in *. rewrite andb_true_r in H. apply Nat.leb_le in H. lia.
  - cbn [prefixes_ok] in H. apply andb_true_iff in H. destruct H as [H1 H2]. apply Nat.leb_le in H1.
    destruct a as [|y a]; [cbn; lia|]. cbn [app] in E. injection E as <- E.
    specialize (IH _ _ H2 a b E). unfold count in *. cbn [filter].
    destruct (is_resolved f x), (is_asked f x); cbn [List.length]; lia.
Qed.

Lemma eff_intro : forall s s1 o1,
  Inv s1 ->
  (forall f, prefixes_ok f 0 (owed s f) o1 = true) ->
  (forall f, count (is_resolved f) o1 + owed s1 f <= count (is_asked f) o1 + owed s f) ->
  Eff s s1 o1.
Proof.
  intros s s1 o1 H1 H2 H3. constructor; [exact H1| |exact H3].
  intros f a b E. pose proof (prefixes_sound f o1 0 (owed s f) (H2 f) a b E). lia.
Qed.

Ltac cases :=
  unfold owed, count; cbn;
  try (match goal with r : creq |- _ => destruct r end; cbn);
  try (match goal with r : option nat |- context [match ?r with _ => _ end] => destruct r end; cbn);
  repeat (match goal with |- context [Nat.eqb ?x ?y] => destruct (Nat.eqb x y) end; cbn); try reflexivity; try lia.

Ltac fin :=
  apply eff_intro;
  [ constructor; cbn in *; try (intros; discriminate); eauto; try tauto
  | intros; cases
  | intros; cases ].

Lemma eff_step : forall s i s1 o1, Inv s -> step s i = (s1, o1) -> Eff s s1 o1.
Proof.
  intros [k al de dt at_ id pa ms ml sl rq rs] i s1 o1 [A B]. cbn in A, B.
  unfold step. cbn [dead alive].
  destruct de.
  { intros [= <- <-]. apply eff_intro; [constructor; assumption|reflexivity|intros; cases]. }
  destruct i as [v a|v a|v a|f id' a1 a2| | |a l|c| |].
  - destruct al; [|intros [= <- <-]; fin]. destruct a; intros [= <- <-]; fin.
  - destruct al; [|intros [= <- <-]; fin]. destruct a; intros [= <- <-]; fin.
  - destruct al; [|intros [= <- <-]; fin]. destruct a; intros [= <- <-]; fin.
  - destruct al; [|intros [= <- <-]; fin].
    cbn [negb]. unfold do_send. cbn [slot knd].
    destruct sl as [g|].
    + destruct k; intros [= <- <-]; fin.
    + destruct (B eq_refl) as [-> | [[c ->] | H]]; [| |discriminate H].
      all: unfold core_send; cbn [att set_slot knd negb dtls].
      all: destruct at_; [|destruct k; cbn; intros [= <- <-]; fin].
      all: destruct k; cbn [negb];
        match goal with |- context [encode ?x ?y] => destruct (encode x y) end; cbn;
        try (intros [= <- <-]; fin; fail);
        destruct a1; cbn; try (intros [= <- <-]; fin; fail);
        destruct a2; cbn; try (intros [= <- <-]; fin; fail).
  - destruct al; [|intros [= <- <-]; fin]. unfold do_stop. cbn [knd req negb].
    destruct k, rq; intros [= <- <-]; fin.
  - destruct al; [|intros [= <- <-]; fin]. unfold do_free. cbn [knd req negb].
    destruct k; intros [= <- <-]; fin; destruct rq, sl; cases.
  - unfold do_answer. cbn [req alive knd resp].
    destruct rq; try (intros [= <- <-]; fin; fail).
    destruct sl as [g|]; [|destruct (A eq_refl eq_refl)].
    destruct al; cbn [negb]; [|intros [= <- <-]; fin].
    destruct (handle k a l rs) as [[e v]|]; [|intros [= <- <-]; fin].
    destruct k; intros [= <- <-]; fin.
  - intros [= <- <-]; fin.
  - cbn. destruct dt; intros [= <- <-]; fin.
  - intros [= <- <-]; fin.
Qed.

Lemma once_hist : forall k d b l,
  Inv (fst (run k d b l)) /\ Once (snd (run k d b l)) /\
  (forall f, count (is_resolved f) (snd (run k d b l)) + owed (fst (run k d b l)) f <= count (is_asked f) (snd (run k d b l))).
Proof.
  intros k d b. induction l as [|i l IH] using rev_ind.
  - split; [apply inv_init|]. split.
    + intros f x y E. destruct k; cbn in E; destruct x as [|? [|? x]]; inversion E; subst; cbn; lia.
    + intros f. destruct k; cbn; lia.
  - destruct IH as (A & B & C). rewrite run_snoc. destruct (run k d b l) as [s o]. cbn [fst snd] in *.
    destruct (step s i) as [s1 o1] eqn:Hst. destruct (eff_step s i s1 o1 A Hst) as [E1 E2 E3]. cbn [fst snd].
    split; [exact E1|]. split.
    + intros f x y E. destruct (prefix_cases o x o1 y E) as [[z ->]|(z & -> & ->)]; [exact (B f x z eq_refl)|].
      rewrite !count_app. specialize (E2 f z y eq_refl). specialize (C f). lia.
    + intros f. rewrite !count_app. specialize (E3 f). specialize (C f). lia.
Qed.

(** No future is resolved more often than it was given to the object. *)
Theorem C94_once : forall k d b l, Once (snd (run k d b l)).
Proof. intros. apply once_hist. Qed.
Print Assumptions C94_once.

Definition holds (s : st) (f : nat) : bool := match slot s with Some g => Nat.eqb f g | None => false end.

Record Bal (s : st) (A R : nat -> nat) (P G : nat) : Prop := mkBal {
  B_eq : forall f, A f = R f + (if holds s f then P - G else 0);
  B_le : G <= P /\ P <= 1;
  B_sent : req s = RSent -> P = 1 /\ G = 0;
  B_new : (req s = RNull \/ exists c, req s = RNew c) -> P = 0;
  B_slot : slot s = None -> P = 0;
  B_alive : slot s = None -> alive s = true -> req s = RNull \/ exists c, req s = RNew c;
  B_ice : knd s = Ice -> req s <> RNull }.

Ltac bal :=
  constructor; unfold count, holds in *; cbn in *; rewrite ?Nat.add_0_r;
  [ let f := fresh "f" in intros f; repeat match goal with H : forall f : nat, _ = _ |- _ => specialize (H f); cbn in H end;
    rewrite ?Nat.add_0_r; try assumption;
    repeat (match goal with |- context [Nat.eqb ?x ?y] => destruct (Nat.eqb x y) end; cbn in * ); try lia
  | try lia
  | intros; try discriminate; try lia; try tauto
  | try (intros [H|[? H]]; discriminate H); try lia; try tauto
  | intros; try discriminate; try lia; try tauto
  | intros; try discriminate; try tauto; eauto
  | intros; try discriminate; try congruence; try tauto ].

Lemma bal_step : forall s i s1 o1 A R P G,
  Bal s A R P G -> step s i = (s1, o1) -> dead s1 = false ->
  Bal s1 (fun f => A f + count (is_asked f) o1) (fun f => R f + count (is_resolved f) o1)
      (P + count is_posted o1) (G + count is_given o1).
Proof.
  intros [k al de dt at_ id pa ms ml sl rq rs] i s1 o1 A R P G [B1 B2 B3 B4 B5 B6 B7]. cbn in B1, B3, B4, B5, B6, B7.
  unfold step. cbn [dead alive].
  destruct de. { intros [= <- <-] H. discriminate H. }
  intros Hst Hd. revert Hst.
  destruct i as [v a|v a|v a|f id' a1 a2| | |a l|c| |].
  - destruct al; [|intros [= <- <-]; bal]. destruct a; intros [= <- <-]; bal.
  - destruct al; [|intros [= <- <-]; bal]. destruct a; intros [= <- <-]; bal.
  - destruct al; [|intros [= <- <-]; bal]. destruct a; intros [= <- <-]; bal.
  - destruct al; [|intros [= <- <-]; bal].
    cbn [negb]. unfold do_send. cbn [slot knd].
    destruct sl as [g|].
    + destruct k; intros [= <- <-]; bal.
    + pose proof (B5 eq_refl) as HP. subst P. assert (G = 0) by lia. subst G. destruct (B6 eq_refl eq_refl) as [-> | [c ->]].
      all: unfold core_send; cbn [att set_slot knd negb dtls].
      all: destruct at_; [|destruct k; cbn; intros [= <- <-]; bal].
      all: destruct k; cbn [negb];
        match goal with |- context [encode ?x ?y] => destruct (encode x y) end; cbn;
        try (intros [= <- <-]; discriminate Hd);
        destruct a1; cbn; try (intros [= <- <-]; bal; fail);
        destruct a2; cbn; try (intros [= <- <-]; bal; fail).
      all: destruct (B7 eq_refl eq_refl).
  - destruct al; [|intros [= <- <-]; bal]. unfold do_stop. cbn [knd req negb].
    destruct k, rq; intros [= <- <-]; try discriminate Hd; bal.
  - destruct al; [|intros [= <- <-]; bal]. unfold do_free. cbn [knd req negb].
    destruct k; intros [= <- <-]; bal.
  - unfold do_answer. cbn [req alive knd resp].
    destruct rq; try (intros [= <- <-]; bal; fail).
    destruct (B3 eq_refl) as [-> ->].
    destruct sl as [g|]; [|discriminate (B5 eq_refl)].
    destruct al; cbn [negb]; [|intros [= <- <-]; discriminate Hd].
    destruct (handle k a l rs) as [[e v]|]; [|intros [= <- <-]; discriminate Hd].
    destruct k; intros [= <- <-]; bal.
  - intros [= <- <-]; bal.
  - cbn. destruct dt; intros [= <- <-]; bal.
  - intros [= <- <-]; bal.
Qed.

Lemma dead_step : forall s i s1 o1,
  step s i = (s1, o1) -> dead s = false ->
  (dead s1 = true <-> In UseAfterFree o1 \/ In NullRead o1).
Proof.
  intros [k al de dt at_ id pa ms ml sl rq rs] i s1 o1. unfold step. cbn [dead alive]. intros Hst ->. revert Hst.
  destruct i as [v a|v a|v a|f id' a1 a2| | |a l|c| |].
  1-3: destruct al; [|intros [= <- <-]; cbn; intuition discriminate]; destruct a; intros [= <- <-]; cbn; intuition discriminate.
  - destruct al; [|intros [= <- <-]; cbn; intuition discriminate].
    cbn [negb]. unfold do_send. cbn [slot knd].
    destruct sl as [g|]; [destruct k; intros [= <- <-]; cbn; intuition discriminate|].
    unfold core_send. cbn [att set_slot knd negb dtls].
    destruct at_; [|destruct k; cbn; intros [= <- <-]; cbn; intuition discriminate].
    destruct k; cbn [negb];
        match goal with |- context [encode ?x ?y] => destruct (encode x y) end; cbn;
        try (intros [= <- <-]; cbn; intuition discriminate; fail);
        destruct a1; cbn; try (intros [= <- <-]; cbn; intuition discriminate; fail);
        destruct a2; cbn; try (intros [= <- <-]; cbn; intuition discriminate; fail).
    destruct rq; intros [= <- <-]; cbn; intuition discriminate.
  - destruct al; [|intros [= <- <-]; cbn; intuition discriminate]. unfold do_stop. cbn [knd req negb].
    destruct k, rq; intros [= <- <-]; cbn; intuition discriminate.
  - destruct al; [|intros [= <- <-]; cbn; intuition discriminate]. unfold do_free. cbn [knd req negb].
    destruct k; intros [= <- <-]; cbn; intuition discriminate.
  - unfold do_answer. cbn [req alive knd resp].
    destruct rq; try (intros [= <- <-]; cbn; intuition discriminate).
    destruct al; cbn [negb]; [|intros [= <- <-]; cbn; intuition discriminate].
    destruct (handle k a l rs) as [[e v]|]; [|intros [= <- <-]; cbn; intuition discriminate].
    destruct k, sl; intros [= <- <-]; cbn; intuition discriminate.
  - intros [= <- <-]; cbn; intuition discriminate.
  - cbn. destruct dt; intros [= <- <-]; cbn; intuition discriminate.
  - intros [= <- <-]; cbn; intuition discriminate.
Qed.

Lemma dead_stays : forall s i, dead s = true -> step s i = (s, []).
Proof. intros s i H. unfold step. rewrite H. reflexivity. Qed.

Lemma dead_hist : forall k d b l,
  dead (fst (run k d b l)) = true <-> ~ Safe (snd (run k d b l)).
Proof.
  intros k d b.
  assert (H : forall l, dead (fst (run k d b l)) = true <-> In UseAfterFree (snd (run k d b l)) \/ In NullRead (snd (run k d b l))).
  { induction l as [|i l IH] using rev_ind; [destruct k; cbn; intuition discriminate|].
    rewrite run_snoc. destruct (run k d b l) as [s o]. cbn [fst snd] in *.
    destruct (step s i) as [s1 o1] eqn:Hst. cbn [fst snd]. rewrite !in_app_iff.
    destruct (dead s) eqn:Hd.
    - rewrite (dead_stays s i Hd) in Hst. injection Hst as <- <-. cbn [In]. rewrite Hd. tauto.
    - pose proof (dead_step s i s1 o1 Hst Hd) as HD. rewrite HD.
      assert (~ (In UseAfterFree o \/ In NullRead o)) by (intros Q; apply IH in Q; discriminate Q). tauto. }
  intros l. rewrite H. unfold Safe. split.
  - tauto.
  - intros Q.
    assert (D : forall x, (x = UseAfterFree \/ x = NullRead) -> forall o, In x o \/ ~ In x o).
    { intros x Hx o. induction o as [|y o IH]; [right; intros []|].
      destruct IH as [IH|IH]; [left; right; exact IH|].
      destruct Hx as [-> | ->]; destruct y; try (right; intros [X|X]; [discriminate X|exact (IH X)]); left; left; reflexivity. }
    destruct (D UseAfterFree (or_introl eq_refl) (snd (run k d b l))), (D NullRead (or_intror eq_refl) (snd (run k d b l))); tauto.
Qed.

Lemma bal_init : forall k d b,
  Bal (init k d b) (fun f => count (is_asked f) (init_out k)) (fun f => count (is_resolved f) (init_out k))
      (count is_posted (init_out k)) (count is_given (init_out k)).
Proof. intros [] d b; constructor; cbn; intros; try reflexivity; try discriminate; try lia; eauto. Qed.

Lemma bal_ext : forall s A R P G A' R' P' G',
  Bal s A R P G -> (forall f, A f = A' f) -> (forall f, R f = R' f) -> P = P' -> G = G' -> Bal s A' R' P' G'.
Proof.
  intros s A R P G A' R' P' G' [B1 B2 B3 B4 B5 B6 B7] HA HR <- <-. constructor; auto.
  intros f. rewrite <- HA, <- HR. apply B1.
Qed.

Lemma bal_hist : forall k d b l, dead (fst (run k d b l)) = false ->
  let o := snd (run k d b l) in
  Bal (fst (run k d b l)) (fun f => count (is_asked f) o) (fun f => count (is_resolved f) o) (count is_posted o) (count is_given o).
Proof.
  intros k d b. induction l as [|i l IH] using rev_ind.
  - intros _. destruct k; exact (bal_init _ d b).
  - rewrite run_snoc. destruct (run k d b l) as [s o]. cbn [fst snd] in *.
    destruct (step s i) as [s1 o1] eqn:Hst. cbn [fst snd]. intros Hd.
    assert (Hd0 : dead s = false).
    { destruct (dead s) eqn:E; [|reflexivity]. rewrite (dead_stays s i E) in Hst. injection Hst as <- <-. congruence. }
    pose proof (bal_step s i s1 o1 _ _ _ _ (IH Hd0) Hst Hd) as HB.
    eapply bal_ext; [exact HB|intros; cbn; symmetry; apply count_app..| |]; symmetry; apply count_app.
Qed.

(** When nothing undefined happened and the CoAP client has answered what it
    was given, every future is resolved. *)
Theorem C94_resolved : forall k d b l f,
  Safe (snd (run k d b l)) -> Quiet (snd (run k d b l)) ->
  count (is_resolved f) (snd (run k d b l)) = count (is_asked f) (snd (run k d b l)).
Proof.
  intros k d b l f HS HQ.
  assert (Hd : dead (fst (run k d b l)) = false).
  { destruct (dead (fst (run k d b l))) eqn:E; [|reflexivity]. apply dead_hist in E. tauto. }
  pose proof (B_eq _ _ _ _ _ (bal_hist k d b l Hd) f) as HB. cbn beta in HB. unfold Quiet in HQ.
  rewrite HQ, Nat.sub_diag in HB. destruct (holds _ f); lia.
Qed.
Print Assumptions C94_resolved.

(** ** What is sent *)

Record Vals (s : st) (l : list op) : Prop := mkVals {
  L_ident : alive s = true -> ident s = last_set ident_of l None;
  L_payload : alive s = true -> payload s = last_set payload_of l None;
  L_msg : alive s = true -> msg s = last_set message_of l None;
  L_mlen : (forall v al, ~ In (SetMessage v al) l) -> mlen s = 0 }.

Lemma last_snoc : forall {A} (f : op -> option (option A)) l i x,
  last_set f (l ++ [i]) x = match f i with Some y => y | None => last_set f l x end.
Proof. induction l as [|j l IH]; intros i x; cbn; [destruct (f i); reflexivity|apply IH]. Qed.

Lemma vals_step : forall s i s1 o1 l,
  Vals s l -> step s i = (s1, o1) -> dead s1 = false -> Vals s1 (l ++ [i]).
Proof.
  intros [k al de dt at_ id pa ms ml sl rq rs] i s1 o1 l [A B C D]. cbn in A, B, C, D.
  unfold step. cbn [dead alive]. destruct de. { intros [= <- <-] H. discriminate H. }
  intros Hst Hd.
  assert (D' : (forall v a, ~ In (SetMessage v a) (l ++ [i])) -> ml = 0).
  { intros H. apply D. intros v a Hv. apply (H v a). apply in_or_app. left. exact Hv. }
  assert (N : forall v a, i = SetMessage v a -> (forall v a, ~ In (SetMessage v a) (l ++ [i])) -> False).
  { intros v a -> H. apply (H v a). apply in_or_app. right. left. reflexivity. }
  revert Hst.
  destruct i as [v a|v a|v a|f id' a1 a2| | |a l'|c| |].
  - destruct al; [destruct a|]; intros [= <- <-]; constructor; cbn; rewrite ?last_snoc; cbn; auto; discriminate.
  - destruct al; [destruct a|]; intros [= <- <-]; constructor; cbn; rewrite ?last_snoc; cbn; auto; discriminate.
  - destruct al; [destruct a|]; intros [= <- <-]; constructor; cbn; rewrite ?last_snoc; cbn; auto; try discriminate;
      intros H; destruct (N v _ eq_refl H).
  - destruct al; [|intros [= <- <-]; constructor; cbn; rewrite ?last_snoc; cbn; auto; discriminate].
    cbn [negb]. unfold do_send. cbn [slot knd].
    destruct sl as [g|]; [intros [= <- <-]; constructor; cbn; rewrite ?last_snoc; cbn; auto|].
    unfold core_send. cbn [att set_slot knd negb dtls].
    destruct at_; [|intros [= <- <-]; constructor; cbn; rewrite ?last_snoc; cbn; auto].
    destruct k; cbn [negb];
        match goal with |- context [encode ?x ?y] => destruct (encode x y) end; cbn;
        try (intros [= <- <-]; discriminate Hd);
        destruct a1; cbn; try (intros [= <- <-]; constructor; cbn; rewrite ?last_snoc; cbn; auto; fail);
        destruct a2; cbn; try (intros [= <- <-]; constructor; cbn; rewrite ?last_snoc; cbn; auto; fail).
    destruct rq; intros [= <- <-]; constructor; cbn; rewrite ?last_snoc; cbn; auto.
  - destruct al; [|intros [= <- <-]; constructor; cbn; rewrite ?last_snoc; cbn; auto; discriminate].
    unfold do_stop. cbn [knd req negb].
    destruct k, rq; intros [= <- <-]; constructor; cbn; rewrite ?last_snoc; cbn; auto.
  - destruct al; [|intros [= <- <-]; constructor; cbn; rewrite ?last_snoc; cbn; auto; discriminate].
    unfold do_free. cbn [knd req negb].
    destruct k; intros [= <- <-]; constructor; cbn; rewrite ?last_snoc; cbn; auto; discriminate.
  - unfold do_answer. cbn [req alive knd resp].
    destruct rq; try (intros [= <- <-]; constructor; cbn; rewrite ?last_snoc; cbn; auto; fail).
    destruct al; cbn [negb]; [|intros [= <- <-]; discriminate Hd].
    destruct (handle k a l' rs) as [[e v]|]; [|intros [= <- <-]; discriminate Hd].
    destruct k, sl; intros [= <- <-]; constructor; cbn; rewrite ?last_snoc; cbn; auto.
  - intros [= <- <-]; constructor; cbn; rewrite ?last_snoc; cbn; auto.
  - cbn. destruct dt; intros [= <- <-]; constructor; cbn; rewrite ?last_snoc; cbn; auto.
  - intros [= <- <-]; constructor; cbn; rewrite ?last_snoc; cbn; auto.
Qed.

Lemma knd_step : forall s i s1 o1, step s i = (s1, o1) -> knd s1 = knd s.
Proof.
  intros [k al de dt at_ id pa ms ml sl rq rs] i s1 o1. unfold step. cbn [dead alive].
  destruct de; [intros [= <- <-]; reflexivity|].
  destruct i as [v a|v a|v a|f id' a1 a2| | |a l'|c| |].
  1-3: destruct al; [destruct a|]; intros [= <- <-]; reflexivity.
  - destruct al; [|intros [= <- <-]; reflexivity].
    cbn [negb]. unfold do_send. cbn [slot knd].
    destruct sl as [g|]; [intros [= <- <-]; reflexivity|].
    unfold core_send. cbn [att set_slot knd negb dtls].
    destruct at_; [|intros [= <- <-]; reflexivity].
    destruct k; cbn [negb];
        match goal with |- context [encode ?x ?y] => destruct (encode x y) end; cbn;
        try (intros [= <- <-]; reflexivity);
        destruct a1; cbn; try (intros [= <- <-]; reflexivity);
        destruct a2; cbn; try (intros [= <- <-]; reflexivity).
    destruct rq; intros [= <- <-]; reflexivity.
  - destruct al; [|intros [= <- <-]; reflexivity]. unfold do_stop. cbn [knd req negb].
    destruct k, rq; intros [= <- <-]; reflexivity.
  - destruct al; [|intros [= <- <-]; reflexivity]. unfold do_free. cbn [knd req negb].
    destruct k; intros [= <- <-]; reflexivity.
  - unfold do_answer. cbn [req alive knd resp].
    destruct rq; try (intros [= <- <-]; reflexivity).
    destruct al; cbn [negb]; [|intros [= <- <-]; reflexivity].
    destruct (handle k a l' rs) as [[e v]|]; [|intros [= <- <-]; reflexivity].
    destruct k, sl; intros [= <- <-]; reflexivity.
  - intros [= <- <-]; reflexivity.
  - cbn. destruct dt; intros [= <- <-]; reflexivity.
  - intros [= <- <-]; reflexivity.
Qed.

Lemma vals_hist : forall k d b l,
  knd (fst (run k d b l)) = k /\ (dead (fst (run k d b l)) = false -> Vals (fst (run k d b l)) l).
Proof.
  intros k d b. induction l as [|i l IH] using rev_ind.
  - split; [destruct k; reflexivity|]. intros _. destruct k; constructor; reflexivity.
  - destruct IH as [IH1 IH2]. rewrite run_snoc. destruct (run k d b l) as [s o]. cbn [fst snd] in *.
    destruct (step s i) as [s1 o1] eqn:Hst. cbn [fst snd]. split; [rewrite (knd_step _ _ _ _ Hst); exact IH1|].
    intros Hd.
    assert (Hd0 : dead s = false).
    { destruct (dead s) eqn:E; [|reflexivity]. rewrite (dead_stays s i E) in Hst. injection Hst as <- <-. congruence. }
    exact (vals_step s i s1 o1 l (IH2 Hd0) Hst Hd).
Qed.

Lemma posted_step : forall s i s1 o1 c q,
  step s i = (s1, o1) -> In (Posted c q) o1 ->
  exists f id a1 a2, i = Send f id a1 a2 /\ dead s = false /\ alive s = true /\ att s = true /\ encode id s = Some q /\
    match knd s with Ice => req s = RNew c | _ => c = dtls s end.
Proof.
  intros [k al de dt at_ id pa ms ml sl rq rs] i s1 o1 c q. unfold step. cbn [dead alive].
  destruct de; [intros [= <- <-] []|].
  destruct i as [v a|v a|v a|f id' a1 a2| | |a l'|c'| |].
  1-3: destruct al; [destruct a|]; intros [= <- <-]; cbn; intuition discriminate.
  - destruct al; [|intros [= <- <-] []].
    cbn [negb]. unfold do_send. cbn [slot knd].
    destruct sl as [g|]; [destruct k; intros [= <- <-]; cbn; intuition discriminate|].
    unfold core_send. cbn [att set_slot knd negb dtls].
    destruct at_; [|destruct k; intros [= <- <-]; cbn; intuition discriminate].
    intros H Hin. exists f, id', a1, a2. revert H Hin.
    destruct k; cbn [negb];
        match goal with |- context [encode ?x ?y] => destruct (encode x y) eqn:He end; cbn;
        try (intros [= <- <-]; cbn; intuition discriminate; fail);
        destruct a1; cbn; try (intros [= <- <-]; cbn; intuition discriminate; fail);
        destruct a2; cbn; try (intros [= <- <-]; cbn; intuition discriminate; fail).
    + intros [= <- <-] [H|[H|[H|[]]]]; inversion H; subst. repeat split. exact He.
    + intros [= <- <-] [H|[H|[H|[]]]]; inversion H; subst. repeat split. exact He.
    + destruct rq; intros [= <- <-]; cbn; try (intuition discriminate; fail).
      intros [H|[H|[H|[]]]]; inversion H; subst. repeat split. exact He.
  - destruct al; [|intros [= <- <-] []]. unfold do_stop. cbn [knd req negb].
    destruct k, rq; intros [= <- <-]; cbn; intuition discriminate.
  - destruct al; [|intros [= <- <-] []]. unfold do_free. cbn [knd req negb].
    destruct k; intros [= <- <-]; cbn; intuition discriminate.
  - unfold do_answer. cbn [req alive knd resp].
    destruct rq; try (intros [= <- <-] []; fail).
    destruct al; cbn [negb]; [|intros [= <- <-]; cbn; intuition discriminate].
    destruct (handle k a l' rs) as [[e v]|]; [|intros [= <- <-]; cbn; intuition discriminate].
    destruct k, sl; intros [= <- <-]; cbn; intuition discriminate.
  - intros [= <- <-] [].
  - cbn. destruct dt; intros [= <- <-] [].
  - intros [= <- <-] [].
Qed.

(** What is handed to the CoAP client has the values which were set last; a
    notification or a service invocation goes to the basestation the device
    is attached to. *)
Theorem C94_request_partial : forall k d b l i c q,
  In (Posted c q) (snd (step (fst (run k d b l)) i)) ->
  exists f id a1 a2, i = Send f id a1 a2 /\ Wanted k l id q /\
    (k <> Ice -> att (fst (run k d b l)) = true /\ c = dtls (fst (run k d b l))).
Proof.
  intros k d b l i c q H. destruct (vals_hist k d b l) as [HK HV]. revert H HK HV.
  destruct (fst (run k d b l)) as [k' al de dt at_ id pa ms ml sl rq rs]. intros H HK HV. cbn in HK. subst k'.
  destruct (step _ i) as [s1 o1] eqn:Hst. cbn [snd] in H.
  destruct (posted_step _ _ _ _ c q Hst H) as (f & id' & a1 & a2 & -> & Hd & Hal & Hat & He & Hc).
  cbn in Hd, Hal, Hat, Hc. subst. destruct (HV eq_refl) as [A B C D]. cbn in A, B, C, D.
  exists f, id', a1, a2. split; [reflexivity|]. unfold encode in He. cbn in He.
  specialize (A eq_refl). specialize (B eq_refl). specialize (C eq_refl).
  destruct k; cbn [Wanted].
  - split; [|auto]. destruct id as [i|]; [|discriminate He]. destruct pa as [p|]; [|discriminate He].
    injection He as <-. exists i, p. auto.
  - split; [|auto]. destruct id as [i|]; [|discriminate He]. destruct ms as [m|].
    + injection He as <-. exists i, m. auto.
    + destruct ml; [|discriminate He]. injection He as <-. exists i, []. auto.
  - split; [congruence|]. intros Q. destruct (Q eq_refl).
Qed.
Print Assumptions C94_request_partial.

(** ** Undefined behaviour *)

Lemma careful_snoc : forall k d b l i, Careful k d b (l ++ [i]) ->
  Careful k d b l /\
  match i with
  | Send _ _ _ _ => ready k l
  | Stop => ~ exists a, In (Given a) (snd (run k d b l))
  | Free => Quiet (snd (run k d b l))
  | Answer a _ => Maps a
  | _ => True
  end.
Proof.
  intros k d b l i H. split.
  - intros x j y E. apply (H x j (y ++ [i])). rewrite E, <- app_assoc. reflexivity.
  - exact (H l i [] eq_refl).
Qed.

Record Held (s : st) (o : list out) : Prop := mkHeld {
  W_sent : alive s = false -> req s <> RSent;
  W_freed : req s = RFreed -> alive s = false \/ exists a, In (Given a) o }.

Lemma servers_defined : forall l al acc,
  (forall c, In c l -> exists m, c = CMap m) -> parse_servers l al acc <> None.
Proof.
  induction l as [|c l IH]; intros al acc H; cbn [parse_servers]; [discriminate|].
  destruct (H c (or_introl eq_refl)) as [m ->].
  assert (H' : forall c, In c l -> exists m, c = CMap m) by (intros c Hc; apply H; right; exact Hc).
  destruct (take al) as [a1 al1].
  destruct (copy_text (find m "Username") 4096 a1) as [u|].
  - destruct (take al1) as [a2 al2]. destruct (find m "Urls") as [z|t|bb|us|mm|]; try discriminate.
    destruct (parse_urls us al2) as [[x|] al3]; [|discriminate].
    destruct (take al3) as [[] al4]; [apply IH; exact H'|discriminate].
  - destruct (find m "Urls") as [z|t|bb|us|mm|]; try discriminate.
    destruct (parse_urls us al1) as [[x|] al3]; [|discriminate].
    destruct (take al3) as [[] al4]; [apply IH; exact H'|discriminate].
Qed.

Lemma payload_eq : forall code fmt c, code = 201 -> is_cbor fmt = true -> Payload (AResponse code fmt (Some (Some c))) c.
Proof.
  intros code [g|] c -> H; [|discriminate H]. cbn in H. apply Nat.eqb_eq in H. subst g. reflexivity.
Qed.

Lemma handle_defined : forall k a al v, Maps a -> handle k a al v <> None.
Proof.
  intros k [ | | |code fmt p] al v HM; cbn [handle]; try discriminate.
  destruct (Nat.eqb code 201) eqn:Hc; cbn [negb]; [|discriminate].
  destruct (is_cbor fmt) eqn:Hf; cbn [negb]; [|discriminate].
  destruct p as [[c|]|]; try discriminate.
  destruct k; [destruct (parse_fcm c (fst (take al)) v); discriminate|destruct (parse_svc c (fst (take al)) v); discriminate|].
  destruct c as [z|t|bb|l|m|]; cbn [parse_ice]; try discriminate.
  apply Nat.eqb_eq in Hc.
  assert (HS : parse_servers l al (servers v) <> None).
  { apply servers_defined. intros c Hin. exact (HM l c (payload_eq code fmt (CArr l) Hc Hf) Hin). }
  destruct (parse_servers l al (servers v)) as [[x bb]|]; [discriminate|destruct (HS eq_refl)].
Qed.

Lemma safe_step : forall k d b l i,
  let s := fst (run k d b l) in let o := snd (run k d b l) in
  Careful k d b (l ++ [i]) -> dead s = false -> Held s o ->
  dead (fst (step s i)) = false /\ Held (fst (step s i)) (o ++ snd (step s i)).
Proof.
  intros k d b l i s o HC Hd [W1 W2].
  destruct (careful_snoc k d b l i HC) as [_ Hi].
  destruct (vals_hist k d b l) as [HK HV]. pose proof (bal_hist k d b l) as HB. cbv zeta in HB. fold s o in HB, Hi. fold s in HK, HV.
  specialize (HV Hd). specialize (HB Hd).
  assert (W2' : forall o1, req s = RFreed -> alive s = false \/ exists a, In (Given a) (o ++ o1)).
  { intros o1 H. destruct (W2 H) as [H1|[a Ha]]; [left; exact H1|]. right. exists a. apply in_or_app. left. exact Ha. }
  clearbody s o. destruct s as [k' al de dt at_ id pa ms ml sl rq rs]. cbn in HK, Hd, W1, W2, W2'. subst k' de.
  destruct HV as [A B C D]. cbn in A, B, C, D. destruct HB as [B1 B2 B3 B4 B5 B6 B7]. cbn in B3, B4, B5, B6, B7.
  unfold step. cbn [dead alive].
  destruct i as [v a|v a|v a|f id' a1 a2| | |a l'|c'| |].
  1-3: destruct al; [destruct a|]; (split; [reflexivity|constructor; cbn; auto]).
  - destruct al; [|split; [reflexivity|constructor; cbn; auto]].
    cbn [negb]. unfold do_send. cbn [slot knd].
    destruct sl as [g|]; [destruct k; (split; [reflexivity|constructor; cbn; auto])|].
    unfold core_send. cbn [att set_slot knd negb dtls].
    destruct at_; [|destruct k; (split; [reflexivity|constructor; cbn; auto])].
    specialize (A eq_refl). specialize (B eq_refl). specialize (C eq_refl).
    destruct k; cbn [negb encode knd set_req set_slot ident payload msg mlen].
    + destruct Hi as [H1 H2]. rewrite <- A in H1. rewrite <- B in H2.
      destruct id as [x|]; [|destruct (H1 eq_refl)]. destruct pa as [y|]; [|destruct (H2 eq_refl)].
      destruct a1, a2; cbn; (split; [reflexivity|constructor; cbn; discriminate]).
    + destruct Hi as [H1 H2]. rewrite <- A in H1. rewrite <- C in H2.
      destruct id as [x|]; [|destruct (H1 eq_refl)].
      assert (HE : (match ms with Some m => Some (QSvc x m) | None => match ml with 0 => Some (QSvc x []) | _ => None end end) <> None).
      { destruct ms as [y|]; [discriminate|]. destruct H2 as [H2|H2]; [destruct (H2 eq_refl)|]. rewrite (D H2). discriminate. }
      destruct ms as [y|]; [|destruct ml; [|destruct (HE eq_refl)]].
      all: destruct a1, a2; cbn; (split; [reflexivity|constructor; cbn; discriminate]).
    + destruct a1, a2; cbn; try (split; [reflexivity|constructor; cbn; auto; fail]).
      destruct rq; cbn; (split; [reflexivity|constructor; cbn; auto; discriminate]).
  - destruct al; [|split; [reflexivity|constructor; cbn; auto]].
    unfold do_stop. cbn [knd req negb].
    destruct k, rq; try (split; [reflexivity|constructor; cbn; auto; fail]).
    + destruct (W2 eq_refl) as [H|H]; [discriminate H|destruct (Hi H)].
    + destruct (W2 eq_refl) as [H|H]; [discriminate H|destruct (Hi H)].
  - destruct al; [|split; [reflexivity|constructor; cbn; auto]].
    unfold do_free. cbn [knd req negb].
    assert (HN : rq <> RSent). { intros ->. destruct (B3 eq_refl) as [P1 P2]. unfold Quiet in Hi. congruence. }
    destruct k; (split; [reflexivity|constructor; cbn; auto]). discriminate.
  - unfold do_answer. cbn [req alive knd resp].
    destruct rq; try (split; [reflexivity|constructor; cbn; auto; fail]).
    destruct al; cbn [negb]; [|destruct (W1 eq_refl eq_refl)].
    pose proof (handle_defined k a l' rs Hi) as HH.
    destruct (handle k a l' rs) as [[e v]|]; [|destruct (HH eq_refl)].
    destruct k, sl; (split; [reflexivity|constructor; cbn; try discriminate]).
    all: intros _; right; exists a; apply in_or_app; right; left; reflexivity.
  - split; [reflexivity|constructor; cbn; auto].
  - cbn. destruct dt; (split; [reflexivity|constructor; cbn; auto]).
  - split; [reflexivity|constructor; cbn; auto].
Qed.

(** An application which sets what it sends, stops only what was not answered
    and frees nothing which is not answered meets nothing undefined, as long
    as the list of ICE servers is one of maps. *)
Theorem C94_safe_partial : forall k d b l, Careful k d b l -> Safe (snd (run k d b l)).
Proof.
  intros k d b l HC.
  assert (H : dead (fst (run k d b l)) = false /\ Held (fst (run k d b l)) (snd (run k d b l))).
  { revert HC. induction l as [|i l IH] using rev_ind; intros HC.
    - destruct k; (split; [reflexivity|constructor; cbn; try discriminate]).
    - destruct (careful_snoc k d b l i HC) as [H0 _]. destruct (IH H0) as [Hd HH].
      pose proof (safe_step k d b l i HC Hd HH) as G. cbv zeta in G.
      rewrite run_snoc. destruct (run k d b l) as [s o]. cbn [fst snd] in *.
      destruct (step s i) as [s1 o1]. exact G. }
  destruct H as [Hd _].
  assert (N : ~ ~ Safe (snd (run k d b l))). { intros Q. apply dead_hist in Q. congruence. }
  unfold Safe in *. split; intros Q; apply N; tauto.
Qed.
Print Assumptions C94_safe_partial.

(** ** What the application is told *)

Lemma find_entry : forall m k v, find m k = v -> v <> CInvalid -> Entry m k v.
Proof.
  induction m as [|[x w] m IH]; intros k v H Hn; cbn in H; [congruence|].
  destruct x as [z|s|bb|l|mm|].
  2: { destruct (String.eqb s k) eqn:E.
       - apply String.eqb_eq in E. subst. exists [], m. split; [reflexivity|intros w' []].
       - destruct (IH k v H Hn) as (a & b & -> & Ha). exists ((CText s, w) :: a), b. split; [reflexivity|].
         intros w' [Hw|Hw]; [inversion Hw; subst; rewrite String.eqb_refl in E; discriminate|exact (Ha w' Hw)]. }
  all: destruct (IH k v H Hn) as (a & b & -> & Ha).
  1: exists ((CInt z, w) :: a), b. 2: exists ((CBytes bb, w) :: a), b. 3: exists ((CArr l, w) :: a), b.
  4: exists ((CMap mm, w) :: a), b. 5: exists ((CInvalid, w) :: a), b.
  all: (split; [reflexivity|]); intros w' [Hw|Hw]; [discriminate Hw|exact (Ha w' Hw)].
Qed.

Lemma entry_find : forall m k v, Entry m k v -> find m k = v.
Proof.
  intros m k v (a & b & -> & Ha). induction a as [|[x w] a IH]; cbn.
  - rewrite String.eqb_refl. reflexivity.
  - assert (IH' : find (a ++ (CText k, v) :: b) k = v) by (apply IH; intros w' H; apply (Ha w'); right; exact H).
    destruct x as [z|s|bb|l|mm|]; try exact IH'.
    destruct (String.eqb s k) eqn:E; [|exact IH'].
    apply String.eqb_eq in E. subst. destruct (Ha w (or_introl eq_refl)).
Qed.

Lemma small_int : forall z, (- 2^31 <= z < 2^31)%Z -> to_int z = z.
Proof.
  intros z H. unfold to_int. rewrite Z.mod_small; [ring|]. change (2^32)%Z with (2^31 + 2^31)%Z. lia.
Qed.

Lemma copy_text_some : forall c n al s, copy_text c n al = Some s -> c = CText s.
Proof.
  intros [z|t|bb|l|m|] n al s H; cbn in H; try discriminate.
  destruct (_ && _); [injection H as ->; reflexivity|discriminate].
Qed.

Lemma copy_bytes_some : forall c n al s, copy_bytes c n al = Some s -> c = CBytes s.
Proof.
  intros [z|t|bb|l|m|] n al s H; cbn in H; try discriminate.
  destruct (_ && _); [injection H as ->; reflexivity|discriminate].
Qed.

Lemma urls_some : forall l al x al', parse_urls l al = (Some x, al') -> l = map CText x.
Proof.
  induction l as [|u l IH]; intros al x al' H; cbn [parse_urls] in H.
  - injection H as <- _. reflexivity.
  - destruct (take al) as [a1 al1]. destruct (copy_text u 4096 a1) as [s|] eqn:Hs; [|discriminate H].
    destruct (take al1) as [a2 al2]. destruct a2; [|discriminate H].
    destruct (parse_urls l al2) as [[y|] al3] eqn:Hy; [|discriminate H].
    injection H as <- _. cbn [map]. rewrite (copy_text_some _ _ _ _ Hs), (IH _ _ _ Hy). reflexivity.
Qed.

Lemma servers_some : forall l al acc x, parse_servers l al acc = Some (x, true) ->
  exists y, x = acc ++ y /\ Forall2 ServerOf l y.
Proof.
  induction l as [|c l IH]; intros al acc x H; cbn [parse_servers] in H.
  - injection H as <-. exists []. rewrite app_nil_r. split; [reflexivity|constructor].
  - destruct c as [z|t|bb|l0|m|]; try discriminate H.
    destruct (take al) as [a1 al1].
    destruct (match copy_text (find m "Username") 4096 a1 with
              | None => (None, al1)
              | Some _ => let (a2, al) := take al1 in (copy_text (find m "Credential") 4096 a2, al)
              end) as [c al2] eqn:Hc.
    assert (HC : forall p, c = Some p -> find m "Credential" = CText p).
    { intros p ->. destruct (copy_text (find m "Username") 4096 a1); [|discriminate Hc].
      destruct (take al1) as [a2 al3]. injection Hc as Hc _. exact (copy_text_some _ _ _ _ Hc). }
    destruct (find m "Urls") as [z|t|bb|us|mm|] eqn:Hu; try discriminate H.
    destruct (parse_urls us al2) as [[us'|] al3] eqn:Hus; [|discriminate H].
    destruct (take al3) as [[] al4]; [|discriminate H].
    destruct (IH _ _ _ H) as (y & -> & HF).
    exists (mkserver (copy_text (find m "Username") 4096 a1) c us' :: y). rewrite <- app_assoc. split; [reflexivity|].
    constructor; [|exact HF]. exists m, us. cbn [urls user cred].
    split; [reflexivity|]. split; [apply find_entry; [exact Hu|discriminate]|].
    split; [exact (urls_some _ _ _ _ Hus)|]. split.
    + intros u E. apply find_entry; [exact (copy_text_some _ _ _ _ E)|discriminate].
    + intros p E. apply find_entry; [exact (HC p E)|discriminate].
Qed.

(** What is kept before the answer. *)
Definition Fresh (s : st) (o : list out) : Prop :=
  (forall a, ~ In (Given a) o) -> resp s = no_view.

Lemma handle_told : forall k a al e v, handle k a al no_view = Some (e, v) -> e = EOk -> Told k a v.
Proof.
  intros k [ | | |code fmt p] al e v H E; cbn [handle] in H; try (injection H as <- <-; discriminate E).
  destruct (Nat.eqb code 201) eqn:Hc; cbn [negb] in H; [|injection H as <- <-; destruct k; discriminate E].
  destruct (is_cbor fmt) eqn:Hf; cbn [negb] in H; [|injection H as <- <-; discriminate E].
  destruct p as [[c|]|]; try (injection H as <- <-; discriminate E).
  apply Nat.eqb_eq in Hc. pose proof (payload_eq code fmt c Hc Hf) as HP.
  generalize dependent (AResponse code fmt (Some (Some c))). intros a HP. clear Hc Hf code fmt.
  destruct k; cbn [Told].
  - intros HS. destruct (parse_fcm c (fst (take al)) no_view) as [v' bb] eqn:Hp.
    injection H as <- <-. destruct bb; [|discriminate E]. clear E.
    destruct c as [z|t|bb|l|m|]; try discriminate Hp. cbn [parse_fcm] in Hp.
    destruct (copy_text (find m "Body") 4096 (fst (take al))) as [b|] eqn:Hb; [|discriminate Hp].
    cbn [no_view status body message format servers] in Hp.
    destruct (find m "StatusCode") as [z|t|bb|l|mm|] eqn:Hz; try discriminate Hp.
    destruct (u16 (to_int z)); [|discriminate Hp]. injection Hp as <-.
    assert (EZ : Entry m "StatusCode" (CInt z)) by (apply find_entry; [exact Hz|discriminate]).
    exists m, b. cbn [status body]. rewrite (small_int z (HS m z HP (or_introl EZ))).
    split; [exact HP|]. split; [apply find_entry; [exact (copy_text_some _ _ _ _ Hb)|discriminate]|].
    split; [reflexivity|exact EZ].
  - intros HS. destruct (parse_svc c (fst (take al)) no_view) as [v' bb] eqn:Hp.
    injection H as <- <-. destruct bb; [|discriminate E]. clear E.
    destruct c as [z|t|bb|l|m|]; try discriminate Hp. cbn [parse_svc] in Hp.
    destruct (find m "StatusCode") as [z|t|bb|l|mm|] eqn:Hz; try discriminate Hp.
    assert (EZ : Entry m "StatusCode" (CInt z)) by (apply find_entry; [exact Hz|discriminate]).
    rewrite (small_int z (HS m z HP (or_introl EZ))) in Hp.
    destruct (u16 z); [|discriminate Hp].
    cbn [no_view status body message format servers] in Hp.
    exists m. split; [exact HP|].
    assert (NI : forall w, find m "MessageFormat" = w -> (forall g, w <> CInt g) -> NoInt m "MessageFormat").
    { intros w Hw Hn g Hg. apply entry_find in Hg. rewrite Hg in Hw. exact (Hn g (eq_sym Hw)). }
    destruct (find m "MessageFormat") as [g|t|bb|l|mm|] eqn:Hg.
    1: { assert (EG : Entry m "MessageFormat" (CInt g)) by (apply find_entry; [exact Hg|discriminate]).
         rewrite (small_int g (HS m g HP (or_intror EG))) in Hp. clear NI.
         destruct ((g =? 0)%Z || (g =? 2)%Z) eqn:Hg2.
         - destruct (copy_bytes (find m "Message") 65536 (fst (take al))) as [b|] eqn:Hb; [|discriminate Hp].
           injection Hp as <-. cbn [status format message]. split; [exact EZ|]. left.
           split; [exact EG|]. split; [apply orb_true_iff in Hg2; rewrite !Z.eqb_eq in Hg2; exact Hg2|].
           apply find_entry; [exact (copy_bytes_some _ _ _ _ Hb)|discriminate].
         - destruct (g =? 1)%Z eqn:Hg1; [|discriminate Hp]. injection Hp as <-. cbn [status format message].
           split; [exact EZ|]. right. left. split; [exact EG|]. apply Z.eqb_eq in Hg1. split; [exact Hg1|reflexivity]. }
    all: specialize (NI _ eq_refl); destruct (copy_bytes (find m "Message") 65536 (fst (take al))) as [b|] eqn:Hb; [|discriminate Hp];
      injection Hp as <-; cbn [status format message]; (split; [exact EZ|]); right; right;
      (split; [apply NI; intros ?; discriminate|]); (split; [reflexivity|]);
      (apply find_entry; [exact (copy_bytes_some _ _ _ _ Hb)|discriminate]).
  - destruct c as [z|t|bb|l|m|]; cbn [parse_ice] in H; try (injection H as <- <-; discriminate E).
    destruct (parse_servers l al (servers no_view)) as [[x bb]|] eqn:Hp; [|discriminate H].
    injection H as <- <-. destruct bb; [|discriminate E].
    destruct (servers_some _ _ _ _ Hp) as (y & -> & HF). exists l. cbn. split; [exact HP|exact HF].
Qed.

Lemma calm_step : forall s i s1 o1, step s i = (s1, o1) -> (forall a al, i <> Answer a al) ->
  resp s1 = resp s /\ (forall a, ~ In (Given a) o1) /\ (forall f, ~ In (Resolved f EOk) o1) /\
  (slot s <> None -> slot s1 = slot s) /\ (req s1 = RSent -> req s = RSent \/ slot s = None) /\
  (req s1 = RSent -> slot s = None -> req s <> RSent -> slot s1 <> None).
Proof.
  intros [k al de dt at_ id pa ms ml sl rq rs] i s1 o1. unfold step. cbn [dead alive].
  destruct de; [intros [= <- <-] _; cbn; tauto|].
  destruct i as [v a|v a|v a|f id' a1 a2| | |a l'|c'| |].
  1-3: destruct al; [destruct a|]; intros [= <- <-] _; cbn; intuition (try discriminate; congruence).
  - destruct al; [|intros [= <- <-] _; cbn; intuition congruence].
    cbn [negb]. unfold do_send. cbn [slot knd].
    destruct sl as [g|]; [destruct k; intros [= <- <-] _; cbn; intuition (try discriminate; congruence)|].
    unfold core_send. cbn [att set_slot knd negb dtls].
    destruct at_; [|destruct k; intros [= <- <-] _; cbn; intuition (try discriminate; congruence)].
    destruct k; cbn [negb];
        match goal with |- context [encode ?x ?y] => destruct (encode x y) end; cbn;
        try (intros [= <- <-] _; cbn; intuition (try discriminate; congruence));
        destruct a1; cbn; try (intros [= <- <-] _; cbn; intuition (try discriminate; congruence));
        destruct a2; cbn; try (intros [= <- <-] _; cbn; intuition (try discriminate; congruence)).
    destruct rq; cbn; intros [= <- <-] _; cbn; intuition (try discriminate; congruence).
  - destruct al; [|intros [= <- <-] _; cbn; intuition congruence].
    unfold do_stop. cbn [knd req negb]. destruct k, rq; intros [= <- <-] _; cbn; intuition (try discriminate; congruence).
  - destruct al; [|intros [= <- <-] _; cbn; intuition congruence].
    unfold do_free. cbn [knd req negb]. destruct k; intros [= <- <-] _; cbn; intuition (try discriminate; congruence).
  - intros _ H. destruct (H a l' eq_refl).
  - intros [= <- <-] _; cbn; intuition congruence.
  - destruct dt; intros [= <- <-] _; cbn; intuition congruence.
  - intros [= <- <-] _; cbn; intuition congruence.
Qed.

Lemma answer_step : forall s a al s1 o1, step s (Answer a al) = (s1, o1) ->
  (s1 = s /\ o1 = []) \/
  (req s = RSent /\ dead s1 = true /\ resp s1 = resp s /\ slot s1 = slot s /\ o1 = [Given a; UseAfterFree]) \/
  (req s = RSent /\ dead s1 = false /\ slot s1 = slot s /\ req s1 <> RSent /\ exists e x,
     handle (knd s) a al (resp s) = Some (e, resp s1) /\ (x = [] \/ x = [Released]) /\
     o1 = Given a :: x ++ match slot s with Some f => [Resolved f e] | None => [] end).
Proof.
  intros [k al de dt at_ id pa ms ml sl rq rs] a l' s1 o1. unfold step. cbn [dead alive].
  destruct de; [intros [= <- <-]; auto|].
  unfold do_answer. cbn [req alive knd resp]. destruct rq; try (intros [= <- <-]; auto; fail).
  destruct al; cbn [negb]; [|intros [= <- <-]; right; left; cbn; auto 6].
  destruct (handle k a l' rs) as [[e v]|] eqn:Hh; [|intros [= <- <-]; right; left; cbn; auto 6].
  intros H. right. right. destruct k; injection H as <- <-; cbn;
    (split; [reflexivity|]); (split; [reflexivity|]); (split; [reflexivity|]); (split; [discriminate|]); exists e; eexists;
    (split; [first [exact Hh | reflexivity]|]).
  1-2: split; [right; reflexivity|reflexivity].
  split; [left; reflexivity|reflexivity].
Qed.

Record Tol (k : kind) (T : answer -> view -> Prop) (s : st) (o : list out) : Prop := mkTol {
  T_none : (forall a, ~ In (Given a) o) -> resp s = no_view /\ forall f, ~ In (Resolved f EOk) o;
  T_sent : dead s = false -> req s = RSent -> slot s <> None /\ forall a, ~ In (Given a) o;
  T_some : forall a, In (Given a) o -> dead s = true \/ (slot s <> None /\ req s <> RSent);
  T_told : forall a f, In (Given a) o -> In (Resolved f EOk) o -> T a (resp s);
  T_fail : k = Fcm -> (forall f, ~ In (Resolved f EOk) o) -> status (resp s) = 0%Z }.

Lemma fcm_fail : forall a al e v, handle Fcm a al no_view = Some (e, v) -> e <> EOk -> status v = 0%Z.
Proof.
  intros [ | | |code fmt p] al e v H E; cbn [handle] in H; try (injection H as <- <-; reflexivity).
  destruct (negb _); [injection H as <- <-; reflexivity|].
  destruct (negb _); [injection H as <- <-; reflexivity|].
  destruct p as [[c|]|]; try (injection H as <- <-; reflexivity).
  destruct c as [z|t|bb|l|m|]; cbn [parse_fcm] in H; try (injection H as <- <-; reflexivity).
  destruct (copy_text (find m "Body") 4096 (fst (take al))) as [b|]; [|injection H as <- <-; reflexivity].
  destruct (find m "StatusCode") as [z|t|bb|l|mm|]; try (injection H as <- <-; reflexivity).
  destruct (u16 (to_int z)); injection H as <- <-; [destruct (E eq_refl)|reflexivity].
Qed.

Lemma tol_hist : forall k (T : answer -> view -> Prop) (Q : list bool -> Prop),
  (forall a al e v, Q al -> handle k a al no_view = Some (e, v) -> e = EOk -> T a v) ->
  forall d b l, (forall a al, In (Answer a al) l -> Q al) ->
  Tol k T (fst (run k d b l)) (snd (run k d b l)).
Proof.
  intros k T Q HT d b. induction l as [|i l IH] using rev_ind; intros HQ.
  - assert (G : resp (init k d b) = no_view) by (destruct k; reflexivity).
    destruct k; (constructor; cbn; intros; try discriminate; try tauto; intuition discriminate).
  - assert (HK : knd (fst (run k d b l)) = k) by exact (proj1 (vals_hist k d b l)).
    assert (HQ0 : forall a al, In (Answer a al) l -> Q al) by (intros a al H; apply (HQ a al); apply in_or_app; auto).
    specialize (IH HQ0). rewrite run_snoc. destruct (run k d b l) as [s o]. cbn [fst snd] in *.
    destruct IH as [A B C D E].
    destruct (step s i) as [s1 o1] eqn:Hst. cbn [fst snd].
    assert (Hi : (exists a al, i = Answer a al) \/ forall a al, i <> Answer a al)
      by (destruct i; try (right; discriminate); left; eauto).
    destruct Hi as [(a & al & ->)|Hi].
    + destruct (answer_step s a al s1 o1 Hst) as [[-> ->]|[(H1 & H2 & H3 & H3' & ->)|(H1 & H2 & H3 & H4 & e & x & Hh & Hx & ->)]].
      * rewrite app_nil_r. constructor; assumption.
      * assert (Hd : dead s = false).
        { destruct (dead s) eqn:Ed; [|reflexivity]. rewrite (dead_stays s _ Ed) in Hst. injection Hst as _ Hst. discriminate Hst. }
        destruct (B Hd H1) as [B1 B2]. destruct (A B2) as [A1 A2].
        constructor.
        -- intros H. destruct (H a). apply in_or_app. right. left. reflexivity.
        -- congruence.
        -- left. exact H2.
        -- intros a' f _ H. apply in_app_or in H. destruct H as [H|[H|[H|[]]]]; try discriminate H. destruct (A2 f H).
        -- intros Hk _. rewrite H3, A1. reflexivity.
      * assert (Hd : dead s = false).
        { destruct (dead s) eqn:Ed; [|reflexivity]. rewrite (dead_stays s _ Ed) in Hst. injection Hst as _ Hst. discriminate Hst. }
        destruct (B Hd H1) as [B1 B2]. destruct (A B2) as [A1 A2]. rewrite HK, A1 in Hh.
        destruct (slot s) as [g|] eqn:Hsl; [|destruct (B1 eq_refl)].
        assert (Hr : forall f, In (Resolved f EOk) (o ++ Given a :: x ++ [Resolved g e]) -> e = EOk).
        { intros f H. apply in_app_or in H. destruct H as [H|[H|H]]; [destruct (A2 f H)|discriminate H|].
          apply in_app_or in H. destruct H as [H|[H|[]]]; [destruct Hx as [-> | ->]; [destruct H|destruct H as [H|[]]; discriminate H]|].
          injection H as _ H. exact H. }
        constructor.
        -- intros H. destruct (H a). apply in_or_app. right. left. reflexivity.
        -- intros _ H. destruct (H4 H).
        -- intros a' _. right. rewrite H3. split; [discriminate|exact H4].
        -- intros a' f H HR. assert (a' = a).
           { apply in_app_or in H. destruct H as [H|[H|H]]; [destruct (B2 a' H)|injection H as ->; reflexivity|].
             apply in_app_or in H. destruct H as [H|[H|[]]]; [destruct Hx as [-> | ->]; [destruct H|destruct H as [H|[]]; discriminate H]|discriminate H]. }
           subst a'. refine (HT a al e (resp s1) _ Hh (Hr f HR)). apply (HQ a al). apply in_or_app. right. left. reflexivity.
        -- intros -> HR. apply (fcm_fail a al e _ Hh). intros ->. apply (HR g). apply in_or_app. right. right. apply in_or_app. right. left. reflexivity.
    + destruct (calm_step s i s1 o1 Hst Hi) as (P1 & P2 & P3 & P4 & P5 & P6).
      assert (HG : forall a, In (Given a) (o ++ o1) -> In (Given a) o).
      { intros a H. apply in_app_or in H. destruct H as [H|H]; [exact H|destruct (P2 a H)]. }
      assert (HR : forall f, In (Resolved f EOk) (o ++ o1) -> In (Resolved f EOk) o).
      { intros f H. apply in_app_or in H. destruct H as [H|H]; [exact H|destruct (P3 f H)]. }
      assert (Hdd : dead s1 = false -> dead s = false).
      { intros Hd1. destruct (dead s) eqn:Ed; [|reflexivity]. rewrite (dead_stays s i Ed) in Hst. injection Hst as <- _. congruence. }
      constructor.
      * intros H. destruct (A (fun a Ha => H a (in_or_app _ _ _ (or_introl Ha)))) as [A1 A2].
        split; [congruence|]. intros f Hf. exact (A2 f (HR f Hf)).
      * intros Hd1 Hq. specialize (Hdd Hd1). destruct (P5 Hq) as [Hs|Hs].
        -- destruct (B Hdd Hs) as [B1 B2]. split; [rewrite (P4 B1); exact B1|]. intros a Ha. exact (B2 a (HG a Ha)).
        -- split.
           ++ destruct (req s) eqn:Er; try (apply (P6 Hq Hs); discriminate). destruct (B Hdd eq_refl) as [B1 _]. destruct (B1 Hs).
           ++ intros a Ha. destruct (C a (HG a Ha)) as [C1|[C1 _]]; [congruence|exact (C1 Hs)].
      * intros a Ha. destruct (C a (HG a Ha)) as [C1|[C1 C2]].
        -- left. rewrite (dead_stays s i C1) in Hst. injection Hst as <- _. exact C1.
        -- right. split; [rewrite (P4 C1); exact C1|]. intros Hq. destruct (P5 Hq); tauto.
      * intros a f Ha Hf. rewrite P1. exact (D a f (HG a Ha) (HR f Hf)).
      * intros Hk H. rewrite P1. apply (E Hk). intros f Hf. apply (H f). apply in_or_app. left. exact Hf.
Qed.

(** When a future says that the request was successful, what the application
    is told is what the basestation answered: the status code, the body or
    message with its format, the URLs with names and credentials.  Partial:
    integers of more than 32 bits, see [C94_status_refuted]; names and
    credentials may be missing, see [C94_complete_partial]. *)
Theorem C94_response_partial : forall k d b l a f,
  In (Given a) (snd (run k d b l)) -> In (Resolved f EOk) (snd (run k d b l)) ->
  Told k a (resp (fst (run k d b l))).
Proof.
  intros k d b l a f H1 H2.
  refine (T_told k (Told k) _ _ (tol_hist k (Told k) (fun _ => True) _ d b l _) a f H1 H2); [|trivial].
  intros a' al e v _. apply handle_told.
Qed.
Print Assumptions C94_response_partial.

(** Until a notification was successful its status code is 0. *)
Theorem C94_status : forall d b l,
  (forall f, ~ In (Resolved f EOk) (snd (run Fcm d b l))) -> status (resp (fst (run Fcm d b l))) = 0%Z.
Proof.
  intros d b l H.
  refine (T_fail Fcm (Told Fcm) _ _ (tol_hist Fcm (Told Fcm) (fun _ => True) _ d b l _) eq_refl H); [|trivial].
  intros a' al e v _. apply handle_told.
Qed.
Print Assumptions C94_status.

(** ** Names and credentials of ICE servers *)

Lemma urls_nil : forall l, snd (parse_urls l []) = [].
Proof.
  induction l as [|u l IH]; cbn [parse_urls take]; [reflexivity|].
  destruct (copy_text u 4096 true); [|reflexivity].
  destruct (parse_urls l []) as [r al]. cbn in *. exact IH.
Qed.

Lemma copy_short : forall s n, (N.of_nat (String.length s) <= n)%N -> copy_text (CText s) n true = Some s.
Proof. intros s n H. cbn. apply N.leb_le in H. rewrite H. reflexivity. Qed.

Lemma servers_complete : forall l acc x, parse_servers l [] acc = Some (x, true) ->
  (forall c, In c l -> exists m u, c = CMap m /\ Entry m "Username" (CText u) /\ (N.of_nat (String.length u) <= 4096)%N) ->
  exists y, x = acc ++ y /\ Forall2 Complete l y.
Proof.
  induction l as [|c l IH]; intros acc x H HN; cbn [parse_servers] in H.
  - injection H as <-. exists []. rewrite app_nil_r. split; [reflexivity|constructor].
  - destruct (HN c (or_introl eq_refl)) as (m & u & -> & Hu & Hl). cbn [take] in H.
    pose proof (entry_find _ _ _ Hu) as Fu. rewrite Fu, (copy_short u _ Hl) in H. cbn [take] in H.
    destruct (find m "Urls") as [z|t|bb|us|mm|]; try discriminate H.
    pose proof (urls_nil us) as Hus. destruct (parse_urls us []) as [[us'|] al3]; [|discriminate H].
    cbn in Hus. subst al3. cbn [take] in H.
    destruct (IH _ _ H (fun c Hc => HN c (or_intror Hc))) as (y & -> & HF).
    eexists (mkserver _ _ _ :: y). rewrite <- app_assoc. split; [reflexivity|].
    constructor; [|exact HF]. exists m. cbn [user cred]. split; [reflexivity|]. split.
    + intros u' H' _. apply entry_find in H'. rewrite Fu in H'. injection H' as <-. reflexivity.
    + intros p H' Hp. apply entry_find in H'. rewrite H'. exact (copy_short p _ Hp).
Qed.

Definition Full (a : answer) (v : view) : Prop := Named a -> exists l, Payload a (CArr l) /\ Forall2 Complete l (servers v).

Lemma handle_full : forall a al e v, al = [] -> handle Ice a al no_view = Some (e, v) -> e = EOk -> Full a v.
Proof.
  intros [ | | |code fmt p] al e v -> H E HN; cbn [handle] in H; try (injection H as <- <-; discriminate E).
  destruct (Nat.eqb code 201) eqn:Hc; cbn [negb] in H; [|injection H as <- <-; discriminate E].
  destruct (is_cbor fmt) eqn:Hf; cbn [negb] in H; [|injection H as <- <-; discriminate E].
  destruct p as [[c|]|]; try (injection H as <- <-; discriminate E).
  apply Nat.eqb_eq in Hc. pose proof (payload_eq code fmt c Hc Hf) as HP.
  destruct c as [z|t|bb|l|m|]; cbn [parse_ice] in H; try (injection H as <- <-; discriminate E).
  destruct (parse_servers l [] (servers no_view)) as [[x bb]|] eqn:Hp; [|discriminate H].
  injection H as <- <-. destruct bb; [|discriminate E].
  destruct (servers_complete _ _ _ Hp (fun c => HN l c HP)) as (y & -> & HF). exists l. cbn. split; [exact HP|exact HF].
Qed.

(** When every allocation succeeds and every server of the answer has a
    username, all the usernames and credentials are told.  Partial: see
    [C94_complete_refuted]. *)
Theorem C94_complete_partial : forall d b l a f,
  (forall a al, In (Answer a al) l -> al = []) ->
  In (Given a) (snd (run Ice d b l)) -> In (Resolved f EOk) (snd (run Ice d b l)) -> Named a ->
  exists x, Payload a (CArr x) /\ Forall2 Complete x (servers (resp (fst (run Ice d b l)))).
Proof.
  intros d b l a f HA H1 H2.
  exact (T_told Ice Full _ _ (tol_hist Ice Full (fun al => al = []) handle_full d b l HA) a f H1 H2).
Qed.
Print Assumptions C94_complete_partial.

(** ** A good answer is a success *)

Lemma urls_good : forall us, Forall Short us -> exists x, parse_urls (map CText us) [] = (Some x, []).
Proof.
  induction us as [|u us IH]; intros H; inversion H; subst; cbn [map parse_urls take].
  - eexists. reflexivity.
  - rewrite (copy_short u _ H2). cbn [take]. destruct (IH H3) as [x ->]. eexists. reflexivity.
Qed.

Lemma servers_good : forall l acc,
  (forall c, In c l -> exists m us, c = CMap m /\ Entry m "Urls" (CArr (map CText us)) /\ Forall Short us) ->
  exists x, parse_servers l [] acc = Some (x, true).
Proof.
  induction l as [|c l IH]; intros acc H; cbn [parse_servers]; [eexists; reflexivity|].
  destruct (H c (or_introl eq_refl)) as (m & us & -> & Hu & Hs). cbn [take].
  apply entry_find in Hu. destruct (urls_good us Hs) as [x Hx].
  destruct (copy_text (find m "Username") 4096 true); cbn [take]; rewrite Hu, Hx; cbn [take];
    apply IH; intros c Hc; apply H; right; exact Hc.
Qed.

Lemma u16_in : forall z, (0 <= z < 2^16)%Z -> to_int z = z /\ u16 z = true.
Proof.
  intros z H. change (2^16)%Z with 65536%Z in H. split.
  - apply small_int. change (2^31)%Z with 2147483648%Z. lia.
  - unfold u16. apply andb_true_intro. rewrite !Z.leb_le. lia.
Qed.

Lemma copy_bytes_short : forall s n, (N.of_nat (List.length s) <= n)%N -> copy_bytes (CBytes s) n true = Some s.
Proof. intros s n H. cbn. apply N.leb_le in H. rewrite H. reflexivity. Qed.

Lemma handle_good : forall k a v, Good k a -> exists v', handle k a [] v = Some (EOk, v').
Proof.
  intros k a v H. destruct k; cbn [Good] in H.
  - destruct H as (m & b & z & -> & Hb & Hs & Hz & Hr). cbn [handle is_cbor Nat.eqb negb take fst parse_fcm].
    apply entry_find in Hb. apply entry_find in Hz. rewrite Hb, (copy_short b _ Hs), Hz.
    destruct (u16_in z Hr) as [-> ->]. eexists. reflexivity.
  - destruct H as (m & z & b & -> & Hz & Hr & Hm). cbn [handle is_cbor Nat.eqb negb take fst parse_svc].
    apply entry_find in Hz. rewrite Hz. destruct (u16_in z Hr) as [-> ->].
    destruct Hm as [Hm|[Hm [Hb Hs]]].
    + apply entry_find in Hm. rewrite Hm. eexists. reflexivity.
    + apply entry_find in Hb. rewrite Hb. destruct Hm as [Hm|[Hm|Hm]].
      * apply entry_find in Hm. rewrite Hm. change (to_int 0) with 0%Z. cbn [Z.eqb orb]. rewrite (copy_bytes_short b _ Hs). eexists. reflexivity.
      * apply entry_find in Hm. rewrite Hm. change (to_int 2) with 2%Z. cbn [Z.eqb orb Pos.eqb]. rewrite (copy_bytes_short b _ Hs). eexists. reflexivity.
      * destruct (find m "MessageFormat") as [g|t|bb|l|mm|] eqn:Hg;
          [destruct (Hm g); apply find_entry; [exact Hg|discriminate]|..];
          rewrite (copy_bytes_short b _ Hs); eexists; reflexivity.
  - destruct H as (l & -> & Hl). cbn [handle is_cbor Nat.eqb negb parse_ice].
    destruct (servers_good l (servers v) Hl) as [x ->]. eexists. reflexivity.
Qed.

Lemma alive_hist : forall k d b l, ~ In Free l -> alive (fst (run k d b l)) = true.
Proof.
  intros k d b. induction l as [|i l IH] using rev_ind; intros H; [destruct k; reflexivity|].
  assert (H0 : ~ In Free l) by (intros Q; apply H; apply in_or_app; auto).
  assert (Hi : i <> Free) by (intros ->; apply H; apply in_or_app; right; left; reflexivity).
  specialize (IH H0). rewrite run_snoc. destruct (run k d b l) as [s o]. cbn [fst] in IH.
  destruct (step s i) as [s1 o1] eqn:Hst. cbn [fst]. revert Hst.
  clear H H0 l d b k.
  destruct s as [k al de dt at_ id pa ms ml sl rq rs]. cbn in IH. subst al. unfold step. cbn [dead alive].
  destruct de; [intros [= <- <-]; reflexivity|].
  destruct i as [v a|v a|v a|f id' a1 a2| | |a l'|c'| |].
  1-3: destruct a; intros [= <- <-]; reflexivity.
  - cbn [negb]. unfold do_send. cbn [slot knd].
    destruct sl as [g|]; [intros [= <- <-]; reflexivity|].
    unfold core_send. cbn [att set_slot knd negb dtls].
    destruct at_; [|intros [= <- <-]; reflexivity].
    destruct k; cbn [negb];
        match goal with |- context [encode ?x ?y] => destruct (encode x y) end; cbn;
        try (intros [= <- <-]; reflexivity);
        destruct a1; cbn; try (intros [= <- <-]; reflexivity);
        destruct a2; cbn; try (intros [= <- <-]; reflexivity).
    destruct rq; cbn; intros [= <- <-]; reflexivity.
  - unfold do_stop. cbn [knd req negb]. destruct k, rq; intros [= <- <-]; reflexivity.
  - destruct (Hi eq_refl).
  - unfold do_answer. cbn [req alive knd resp negb]. destruct rq; try (intros [= <- <-]; reflexivity).
    destruct (handle k a l' rs) as [[e v]|]; [|intros [= <- <-]; reflexivity].
    destruct k; intros [= <- <-]; reflexivity.
  - intros [= <- <-]; reflexivity.
  - destruct dt; intros [= <- <-]; reflexivity.
  - intros [= <- <-]; reflexivity.
Qed.

Definition over (r : creq) : Prop := r = RDone \/ r = RFreed.
Lemma over_step : forall s i s1 o1, step s i = (s1, o1) -> dead s1 = false -> alive s1 = true -> over (req s1) ->
  over (req s) \/ exists a, In (Given a) o1.
Proof.
  unfold over. intros [k al de dt at_ id pa ms ml sl rq rs] i s1 o1. unfold step. cbn [dead alive].
  destruct de; [intros [= <- <-]; auto|].
  destruct i as [v a|v a|v a|f id' a1 a2| | |a l'|c'| |].
  1-3: destruct al; [destruct a|]; intros [= <- <-]; cbn; auto.
  - destruct al; [|intros [= <- <-]; cbn; auto].
    cbn [negb]. unfold do_send. cbn [slot knd].
    destruct sl as [g|]; [destruct k; intros [= <- <-]; cbn; auto|].
    unfold core_send. cbn [att set_slot knd negb dtls].
    destruct at_; [|destruct k; intros [= <- <-]; cbn; auto].
    destruct k; cbn [negb];
        match goal with |- context [encode ?x ?y] => destruct (encode x y) end; cbn;
        try (intros [= <- <-]; cbn; intuition discriminate);
        destruct a1; cbn; try (intros [= <- <-]; cbn; intuition discriminate);
        destruct a2; cbn; try (intros [= <- <-]; cbn; intuition discriminate).
    destruct rq; cbn; intros [= <- <-]; cbn; intuition discriminate.
  - destruct al; [|intros [= <- <-]; cbn; auto].
    unfold do_stop. cbn [knd req negb]. destruct k, rq; intros [= <- <-]; cbn; auto.
  - destruct al; [|intros [= <- <-]; cbn; auto].
    unfold do_free. cbn [knd req negb]. destruct k; intros [= <- <-]; cbn; intuition discriminate.
  - unfold do_answer. cbn [req alive knd resp]. destruct rq; try (intros [= <- <-]; cbn; auto; fail).
    destruct al; cbn [negb]; [|intros [= <- <-]; discriminate].
    destruct (handle k a l' rs) as [[e v]|]; [|intros [= <- <-]; discriminate].
    destruct k; intros [= <- <-] _ _ _; right; exists a; left; reflexivity.
  - intros [= <- <-]; cbn; auto.
  - destruct dt; intros [= <- <-]; cbn; auto.
  - intros [= <- <-]; cbn; auto.
Qed.

Lemma over_hist : forall k d b l, dead (fst (run k d b l)) = false -> ~ In Free l ->
  over (req (fst (run k d b l))) -> exists a, In (Given a) (snd (run k d b l)).
Proof.
  intros k d b. induction l as [|i l IH] using rev_ind; intros Hd HF HO.
  - destruct k; destruct HO as [HO|HO]; discriminate HO.
  - pose proof (alive_hist k d b _ HF) as Hal.
    rewrite run_snoc in Hd, HO, Hal |- *. destruct (run k d b l) as [s o]. destruct (step s i) as [s1 o1] eqn:Hst. cbn [fst snd] in *.
    destruct (over_step s i s1 o1 Hst Hd Hal HO) as [H|[a H]].
    + assert (Hd0 : dead s = false).
      { destruct (dead s) eqn:Ed; [|reflexivity]. rewrite (dead_stays s i Ed) in Hst. injection Hst as <- _. congruence. }
      destruct IH as [a Ha]; [exact Hd0|intros Q; apply HF; apply in_or_app; auto|exact H|].
      exists a. apply in_or_app. auto.
    + exists a. apply in_or_app. auto.
Qed.

Lemma count_pos : forall {A} (p : A -> bool) x l, In x l -> p x = true -> 1 <= count p l.
Proof.
  intros A p x l H Hp. unfold count. assert (Hin : In x (filter p l)) by (apply filter_In; auto).
  destruct (filter p l); [destruct Hin|cbn; lia].
Qed.

(** A good answer to a request which was sent resolves the future which was
    not resolved yet, with success. *)
Theorem C94_accept : forall k d b l a,
  Safe (snd (run k d b l)) -> ~ In Free l -> ~ Quiet (snd (run k d b l)) -> Good k a ->
  exists f, count (is_resolved f) (snd (run k d b l)) < count (is_asked f) (snd (run k d b l)) /\
            In (Resolved f EOk) (snd (step (fst (run k d b l)) (Answer a []))).
Proof.
  intros k d b l a HS HF HQ HG.
  assert (Hd : dead (fst (run k d b l)) = false).
  { destruct (dead (fst (run k d b l))) eqn:E; [|reflexivity]. apply dead_hist in E. tauto. }
  pose proof (bal_hist k d b l Hd) as HB. cbv zeta in HB. destruct HB as [B1 [B2 B2'] B3 B4 B5 B6 B7].
  pose proof (alive_hist k d b l HF) as Hal. pose proof (over_hist k d b l Hd HF) as HO.
  pose proof (proj1 (vals_hist k d b l)) as HK. unfold Quiet in HQ.
  assert (HN : forall x, ~ In (Given x) (snd (run k d b l))).
  { intros x Hx. pose proof (count_pos is_given _ _ Hx eq_refl). lia. }
  destruct (run k d b l) as [s o]. cbn [fst snd] in *.
  destruct s as [k' al de dt at_ id pa ms ml sl rq rs]. cbn in HK, Hd, Hal, HO, B1, B3, B4, B5, B6, B7. subst k' de al.
  destruct rq.
  - exfalso. assert (count is_posted o = 0) by (apply B4; auto). lia.
  - exfalso. assert (count is_posted o = 0) by (apply B4; eauto). lia.
  - destruct sl as [f|]; [|exfalso; specialize (B5 eq_refl); lia].
    exists f. split.
    + specialize (B1 f). unfold holds in B1. cbn in B1. rewrite Nat.eqb_refl in B1. lia.
    + unfold step. cbn [dead alive]. unfold do_answer. cbn [req alive knd resp negb].
      destruct (handle_good k a rs HG) as [v' ->]. destruct k; cbn; auto.
  - destruct (HO (or_introl eq_refl)) as [x Hx]. destruct (HN x Hx).
  - destruct (HO (or_intror eq_refl)) as [x Hx]. destruct (HN x Hx).
Qed.
Print Assumptions C94_accept.

(** ** CoAP requests are released *)

Definition own (r : creq) : nat := match r with RNull | RFreed => 0 | _ => 1 end.

Record Own (k : kind) (s : st) (A C R : nat) : Prop := mkOwn {
  O_eq : C = R + own (req s);
  O_new : k <> Ice -> A = 0 -> forall c, req s <> RNew c;
  O_done : k <> Ice -> req s <> RDone;
  O_slot : k <> Ice -> slot s = None -> req s = RNull;
  O_ice : k = Ice -> alive s = false -> req s = RFreed;
  O_live : k = Ice -> alive s = true -> req s <> RFreed /\ req s <> RNull }.

(** A send which cannot be handed over although the device is attached. *)
Definition is_short (i : op) : bool := match i with Send _ _ a1 a2 => negb (a1 && a2) | _ => false end.

Ltac own :=
  constructor; unfold count in *; cbn in *; rewrite ?Nat.add_0_r; intros; subst; try congruence; try lia; try tauto; auto.

Lemma own_step : forall k s i s1 o1 A C R,
  knd s = k -> Own k s A C R -> step s i = (s1, o1) -> dead s1 = false ->
  Own k s1 (A + (if is_short i then 1 else 0)) (C + count is_created o1) (R + count is_released o1).
Proof.
  intros k' [k al de dt at_ id pa ms ml sl rq rs] i s1 o1 A C R HK [E1 E2 E3 E4 E5 E6]. cbn in HK. subst k'.
  cbn in E1, E2, E3, E4, E5, E6. unfold step. cbn [dead alive].
  destruct de; [intros [= <- <-] H; discriminate H|].
  destruct i as [v a|v a|v a|f id' a1 a2| | |a l'|c'| |]; cbn [is_short].
  1-3: destruct al; [destruct a|]; intros [= <- <-] _; own.
  - destruct al.
    2: { intros [= <- <-] _. constructor; cbn; rewrite ?Nat.add_0_r; intros; try tauto; try congruence; try (apply E2; [assumption|lia]). }
    cbn [negb]. unfold do_send. cbn [slot knd].
    destruct sl as [g|].
    { destruct k; intros [= <- <-] _; (constructor; unfold count; cbn; rewrite ?Nat.add_0_r; intros; try tauto; try congruence; try (apply E2; [congruence|lia])). }
    unfold core_send. cbn [att set_slot knd negb dtls].
    destruct at_.
    2: { destruct k; intros [= <- <-] _; (constructor; unfold count; cbn; rewrite ?Nat.add_0_r; intros; try tauto; try congruence; try (apply E2; [congruence|lia])). }
    destruct k; cbn [negb];
      match goal with |- context [encode ?x ?y] => destruct (encode x y) end; cbn;
      try (intros [= <- <-]; discriminate).
    + rewrite E4 in E1 by (auto; discriminate). destruct a1, a2; intros [= <- <-] _; own.
    + rewrite E4 in E1 by (auto; discriminate). destruct a1, a2; intros [= <- <-] _; own.
    + destruct a1, a2; cbn; [destruct rq; cbn|..]; intros [= <- <-] _; own.
      all: try (split; discriminate).
  - destruct al; [|intros [= <- <-] _; own].
    unfold do_stop. cbn [knd req negb]. destruct k, rq; intros [= <- <-] Hd; try discriminate Hd; own.
  - destruct al; [|intros [= <- <-] _; own].
    unfold do_free. cbn [knd req negb]. destruct k; intros [= <- <-] _; own.
    destruct (E6 eq_refl eq_refl). destruct rq; cbn in *; try congruence; lia.
  - unfold do_answer. cbn [req alive knd resp]. destruct rq; try (intros [= <- <-] _; own; fail).
    destruct al; cbn [negb]; [|intros [= <- <-]; discriminate].
    destruct (handle k a l' rs) as [[e v]|]; [|intros [= <- <-]; discriminate].
    destruct k, sl; intros [= <- <-] _; own.
    all: try (split; discriminate).
    all: exfalso; specialize (E4 ltac:(discriminate) eq_refl); discriminate E4.
  - intros [= <- <-] _; own.
  - destruct dt; intros [= <- <-] _; own.
  - intros [= <- <-] _; own.
Qed.

Lemma own_hist : forall k d b l, dead (fst (run k d b l)) = false ->
  Own k (fst (run k d b l)) (count is_short l) (count is_created (snd (run k d b l))) (count is_released (snd (run k d b l))).
Proof.
  intros k d b. induction l as [|i l IH] using rev_ind; intros Hd.
  - destruct k; constructor; cbn; intros; try discriminate; try congruence; try (split; discriminate).
  - pose proof (proj1 (vals_hist k d b l)) as HK.
    rewrite run_snoc in Hd |- *. destruct (run k d b l) as [s o]. destruct (step s i) as [s1 o1] eqn:Hst. cbn [fst snd] in *.
    assert (Hd0 : dead s = false).
    { destruct (dead s) eqn:Ed; [|reflexivity]. rewrite (dead_stays s i Ed) in Hst. injection Hst as <- _. congruence. }
    pose proof (own_step k s i s1 o1 _ _ _ HK (IH Hd0) Hst Hd) as H.
    rewrite !count_app. replace (count is_short [i]) with (if is_short i then 1 else 0) by (unfold count; cbn; destruct (is_short i); reflexivity).
    exact H.
Qed.

Lemma freed_step : forall s i s1 o1, step s i = (s1, o1) -> dead s1 = false -> alive s = false \/ i = Free -> alive s1 = false.
Proof.
  intros [k al de dt at_ id pa ms ml sl rq rs] i s1 o1. unfold step. cbn [dead alive].
  destruct de; [intros [= <- <-]; discriminate|].
  destruct i as [v a|v a|v a|f id' a1 a2| | |a l'|c'| |]; intros Hst Hd [H|H]; try discriminate H; try subst al; cbn [negb] in Hst;
    try (injection Hst as <- <-; reflexivity).
  - destruct al; [|injection Hst as <- <-; reflexivity]. unfold do_free in Hst. cbn in Hst. destruct k; injection Hst as <- <-; reflexivity.
  - unfold do_answer in Hst. cbn in Hst. destruct rq; injection Hst as <- <-; try reflexivity.
  - destruct dt; injection Hst as <- <-; reflexivity.
Qed.

Lemma freed_hist : forall k d b l, dead (fst (run k d b l)) = false -> In Free l -> alive (fst (run k d b l)) = false.
Proof.
  intros k d b. induction l as [|i l IH] using rev_ind; intros Hd HF; [destruct HF|].
  rewrite run_snoc in Hd |- *. destruct (run k d b l) as [s o]. destruct (step s i) as [s1 o1] eqn:Hst. cbn [fst snd] in *.
  assert (Hd0 : dead s = false).
  { destruct (dead s) eqn:Ed; [|reflexivity]. rewrite (dead_stays s i Ed) in Hst. injection Hst as <- _. congruence. }
  apply (freed_step s i s1 o1 Hst Hd). apply in_app_or in HF. destruct HF as [HF|[HF|[]]]; [left; auto|right; exact HF].
Qed.

(** Every CoAP request which was made is released when the requests are
    answered and an ICE request is freed.  Partial: when a buffer cannot be
    allocated the CoAP request is lost, see [C94_release_refuted]. *)
Theorem C94_release_partial : forall k d b l,
  Safe (snd (run k d b l)) -> Quiet (snd (run k d b l)) ->
  (forall f id a1 a2, In (Send f id a1 a2) l -> a1 = true /\ a2 = true) ->
  (k = Ice -> In Free l) ->
  count is_created (snd (run k d b l)) = count is_released (snd (run k d b l)).
Proof.
  intros k d b l HS HQ HA HF.
  assert (Hd : dead (fst (run k d b l)) = false).
  { destruct (dead (fst (run k d b l))) eqn:E; [|reflexivity]. apply dead_hist in E. tauto. }
  assert (HN : count is_short l = 0).
  { clear - HA. induction l as [|i l IH]; [reflexivity|]. unfold count in *. cbn [filter].
    destruct (is_short i) eqn:E; [|apply IH; intros f id a1 a2 H; apply (HA f id a1 a2); right; exact H].
    destruct i as [v a|v a|v a|f id' a1 a2| | |a l'|c'| |]; try discriminate E.
    destruct (HA f id' a1 a2 (or_introl eq_refl)) as [-> ->]. discriminate E. }
  destruct (own_hist k d b l Hd) as [O1 O2 O3 O4 O5 O6]. rewrite HN in O2.
  pose proof (bal_hist k d b l Hd) as HB. cbv zeta in HB. destruct HB as [_ _ B3 _ _ _ _].
  unfold Quiet in HQ. pose proof (freed_hist k d b l Hd) as HX.
  rewrite O1. rewrite <- (Nat.add_0_r (count is_released _)) at 2. f_equal.
  assert (K : k = Ice \/ k <> Ice) by (destruct k; [right; discriminate|right; discriminate|left; reflexivity]).
  destruct K as [K|K].
  - rewrite (O5 K (HX (HF K))). reflexivity.
  - destruct (req (fst (run k d b l))) eqn:Er; cbn [own]; try reflexivity.
    + destruct (O2 K eq_refl c eq_refl).
    + destruct (B3 eq_refl). lia.
    + destruct (O3 K eq_refl).
Qed.
Print Assumptions C94_release_partial.

(** ** Only one request for an object *)

Lemma asked_step : forall s i s1 o1, step s i = (s1, o1) ->
  (slot s1 <> None -> slot s <> None \/ exists f, In (Asked f) o1) /\
  (forall f, In (Resolved f EInProgress) o1 -> slot s <> None).
Proof.
  intros [k al de dt at_ id pa ms ml sl rq rs] i s1 o1. unfold step. cbn [dead alive].
  destruct de; [intros [= <- <-]; cbn; auto|].
  destruct i as [v a|v a|v a|f id' a1 a2| | |a l'|c'| |].
  1-3: destruct al; [destruct a|]; intros [= <- <-]; cbn; intuition discriminate.
  - destruct al; [|intros [= <- <-]; cbn; intuition].
    cbn [negb]. unfold do_send. cbn [slot knd].
    destruct sl as [g|]; [intros _; split; intros; try left; discriminate|].
    unfold core_send. cbn [att set_slot knd negb dtls].
    destruct at_; [|destruct k; intros [= <- <-]; (split; [intros; right; exists f; left; reflexivity|cbn; intuition discriminate])].
    destruct k; cbn [negb];
        match goal with |- context [encode ?x ?y] => destruct (encode x y) end; cbn;
        [destruct a1, a2|..|destruct a1, a2|]; cbn; try (intros [= <- <-]; (split; [intros; right; exists f; left; reflexivity|cbn; intuition discriminate])).
    all: try (destruct a1, a2; cbn).
    all: try (destruct rq; cbn).
    all: intros [= <- <-]; (split; [intros; right; exists f; left; reflexivity|cbn; intuition discriminate]).
  - destruct al; [|intros [= <- <-]; cbn; intuition].
    unfold do_stop. cbn [knd req negb]. destruct k, rq; intros [= <- <-]; cbn; intuition discriminate.
  - destruct al; [|intros [= <- <-]; cbn; intuition].
    unfold do_free. cbn [knd req negb]. destruct k; intros [= <- <-]; cbn; intuition discriminate.
  - intros H. destruct (answer_step (mk k al false dt at_ id pa ms ml sl rq rs) a l' s1 o1 H) as [[-> ->]|[(H1 & H2 & H3 & H3' & ->)|(H1 & H2 & H3 & H4 & e & x & Hh & Hx & ->)]]; cbn in *.
    + intuition.
    + rewrite H3'. cbn. intuition discriminate.
    + rewrite H3. split; [auto|]. intros f Hf.
      assert (Hf' : In (Resolved f EInProgress) (x ++ match sl with Some f => [Resolved f e] | None => [] end)).
      { destruct Hf as [Hf|Hf]; [discriminate Hf|exact Hf]. }
      apply in_app_or in Hf'. destruct Hf' as [Hf'|Hf'].
      * destruct Hx as [-> | ->]; [destruct Hf'|destruct Hf' as [Q|[]]; discriminate Q].
      * destruct sl; [discriminate|destruct Hf'].
  - intros [= <- <-]; cbn; intuition.
  - destruct dt; intros [= <- <-]; cbn; intuition.
  - intros [= <- <-]; cbn; intuition.
Qed.

(** A request is refused because one is in progress only when the object was
    used for a request before.  Partial: it is refused also when that one has
    failed, see [C94_retry_refuted]. *)
Theorem C94_busy_partial : forall k d b l i f,
  In (Resolved f EInProgress) (snd (step (fst (run k d b l)) i)) ->
  exists g, In (Asked g) (snd (run k d b l)).
Proof.
  intros k d b l i f H.
  assert (HS : slot (fst (run k d b l)) <> None).
  { destruct (step (fst (run k d b l)) i) as [s1 o1] eqn:E. exact (proj2 (asked_step _ _ _ _ E) f H). }
  clear H i f. revert HS. induction l as [|i l IH] using rev_ind; intros HS.
  - destruct k; destruct (HS eq_refl).
  - rewrite run_snoc in HS |- *. destruct (run k d b l) as [s o]. destruct (step s i) as [s1 o1] eqn:Hst. cbn [fst snd] in *.
    destruct (proj1 (asked_step _ _ _ _ Hst) HS) as [H|[g H]].
    + destruct (IH H) as [g Hg]. exists g. apply in_or_app. auto.
    + exists g. apply in_or_app. auto.
Qed.
Print Assumptions C94_busy_partial.

(** ** What does not hold *)

Definition up : list op := [Connecting 7; Attached].
Definition good_fcm : answer := AResponse 201 (Some 60) (Some (Some (CMap [(CText "StatusCode", CInt 200); (CText "Body", CText "sent")]))).
Definition good_svc : answer := AResponse 201 (Some 60) (Some (Some (CMap
  [(CText "StatusCode", CInt 200); (CText "MessageFormat", CInt 2); (CText "Message", CBytes [4; 5])]))).
Definition good_ice : answer := AResponse 201 (Some 60) (Some (Some (CArr
  [CMap [(CText "Urls", CArr [CText "stun:a"])];
   CMap [(CText "Username", CText "u"); (CText "Credential", CText "p"); (CText "Urls", CArr [CText "turn:b"; CText "turn:c"])]]))).
Definition fcm : list op := up ++ [SetIdent "project" true; SetPayload "hello" true; Send 0 "" true true].
Definition svc : list op := up ++ [SetIdent "service" true; SetMessage [1; 2] true; Send 0 "" true true].

(** A request for ICE servers goes to the connection there was when the
    object was made, not to the one the device is attached with. *)
Theorem C94_connection_refuted : exists d b l i c q,
  Careful Ice d b (l ++ [i]) /\
  In (Posted c q) (snd (step (fst (run Ice d b l)) i)) /\
  att (fst (run Ice d b l)) = true /\ c <> dtls (fst (run Ice d b l)).
Proof.
  exists (Some 1), true, [Detached; Connecting 2; Attached], (Send 0 "id" true true), (Some 1), (QIce "id").
  split.
  - intros x i y E. destruct x as [|x0 [|x1 [|x2 [|x3 x]]]]; cbn [app] in E; injection E as E; subst; try exact I;
      try (injection E; intros; subst; exact I); try discriminate.
    all: repeat (match goal with H : _ :: _ = _ :: _ |- _ => injection H; clear H; intros; subst end); try exact I;
      destruct x; discriminate.
  - vm_compute. split; [right; left; reflexivity|]. split; [reflexivity|discriminate].
Qed.
Print Assumptions C94_connection_refuted.

(** Stopping a notification or a service invocation whose future is resolved
    uses a CoAP request which was freed. *)
Theorem C94_stop_refuted : exists k d b l,
  Safe (snd (run k d b l)) /\ Quiet (snd (run k d b l)) /\ ~ In Free l /\
  In UseAfterFree (snd (step (fst (run k d b l)) Stop)).
Proof.
  exists Fcm, None, false, (fcm ++ [Answer good_fcm []]). vm_compute.
  split; [split; intuition discriminate|]. split; [reflexivity|]. split; [intuition discriminate|]. left. reflexivity.
Qed.
Print Assumptions C94_stop_refuted.

(** A notification without a project id is not refused: a null pointer is read. *)
Theorem C94_state_refuted : exists l,
  Safe (snd (run Fcm None false l)) /\ (forall v al, ~ In (SetIdent v al) l) /\
  In NullRead (snd (step (fst (run Fcm None false l)) (Send 0 "" true true))).
Proof.
  exists (up ++ [SetPayload "hello" true]). vm_compute.
  split; [split; intuition discriminate|]. split; [intros v al; intuition discriminate|]. right. right. left. reflexivity.
Qed.
Print Assumptions C94_state_refuted.

(** A message which could not be copied leaves the length of the one before:
    the next invocation reads a null pointer. *)
Theorem C94_message_refuted : exists l,
  Safe (snd (run Svc None false l)) /\ last_set ident_of l None = Some "service"%string /\
  In (SetTo EOom) (snd (run Svc None false l)) /\
  In NullRead (snd (step (fst (run Svc None false l)) (Send 0 "" true true))).
Proof.
  exists (up ++ [SetIdent "service" true; SetMessage [1; 2] true; SetMessage [3] false]). vm_compute.
  split; [split; intuition discriminate|]. split; [reflexivity|]. split; [right; right; left; reflexivity|]. right. right. left. reflexivity.
Qed.
Print Assumptions C94_message_refuted.

(** A list of ICE servers with an element which is not a map is not refused. *)
Theorem C94_list_refuted : exists l a,
  Safe (snd (run Ice (Some 1) true l)) /\ ~ In Free l /\ Payload a (CArr [CText "stun:a"]) /\
  In UseAfterFree (snd (step (fst (run Ice (Some 1) true l)) (Answer a []))).
Proof.
  exists [Send 0 "id" true true], (AResponse 201 (Some 60) (Some (Some (CArr [CText "stun:a"])))). vm_compute.
  split; [split; intuition discriminate|]. split; [intuition discriminate|]. split; [reflexivity|]. right. left. reflexivity.
Qed.
Print Assumptions C94_list_refuted.

(** A status code of more than 32 bits is told as another one. *)
Theorem C94_status_refuted : exists d b l a f,
  In (Given a) (snd (run Fcm d b l)) /\ In (Resolved f EOk) (snd (run Fcm d b l)) /\
  ~ ToldFcm a (resp (fst (run Fcm d b l))).
Proof.
  exists None, false, (fcm ++ [Answer (AResponse 201 (Some 60) (Some (Some (CMap
    [(CText "StatusCode", CInt (2^32 + 200)); (CText "Body", CText "sent")])))) []]).
  eexists. exists 0. split; [vm_compute; repeat (first [left; reflexivity | right])|]. split; [vm_compute; repeat (first [left; reflexivity | right])|].
  intros (m & b & HP & _ & _ & HZ). injection HP as <-. apply entry_find in HZ. vm_compute in HZ. discriminate HZ.
Qed.
Print Assumptions C94_status_refuted.

(** After a notification which failed there may be a response body. *)
Theorem C94_body_refuted : exists l f,
  Resolved f EBadResponse = last (snd (run Fcm None false l)) Created /\
  body (resp (fst (run Fcm None false l))) <> None.
Proof.
  exists (fcm ++ [Answer (AResponse 201 (Some 60) (Some (Some (CMap [(CText "Body", CText "sent")])))) []]), 0.
  vm_compute. split; [reflexivity|discriminate].
Qed.
Print Assumptions C94_body_refuted.

(** A credential without a username is not told. *)
Theorem C94_complete_refuted : exists l a f,
  (forall a al, In (Answer a al) l -> al = []) /\
  In (Given a) (snd (run Ice (Some 1) true l)) /\ In (Resolved f EOk) (snd (run Ice (Some 1) true l)) /\
  ~ (exists x, Payload a (CArr x) /\ Forall2 Complete x (servers (resp (fst (run Ice (Some 1) true l))))).
Proof.
  exists [Send 0 "id" true true; Answer (AResponse 201 (Some 60) (Some (Some (CArr
    [CMap [(CText "Credential", CText "p"); (CText "Urls", CArr [CText "turn:b"])]])))) []].
  eexists. exists 0. split; [intros a al [H|[H|[]]]; [discriminate H|injection H; intros; subst; reflexivity]|].
  split; [vm_compute; repeat (first [left; reflexivity | right])|]. split; [vm_compute; repeat (first [left; reflexivity | right])|].
  intros (x & HP & HF). injection HP as <-. vm_compute in HF. inversion HF as [|? ? ? ? (m & Hm & _ & HC) _]; subst.
  injection Hm as <-. specialize (HC "p"%string). cbn [cred] in HC.
  assert (Q : None = Some "p"%string); [|discriminate Q].
  apply HC; [exists [], [(CText "Urls", CArr [CText "turn:b"])]; split; [reflexivity|intros w []]|discriminate].
Qed.
Print Assumptions C94_complete_refuted.

(** A CoAP request is lost when its buffer cannot be allocated. *)
Theorem C94_release_refuted : exists l,
  Safe (snd (run Svc None false l)) /\ Quiet (snd (run Svc None false l)) /\ In Free l /\
  count is_released (snd (run Svc None false l)) < count is_created (snd (run Svc None false l)).
Proof.
  exists (up ++ [SetIdent "service" true; Send 0 "" false true; Free]). vm_compute.
  split; [split; intuition discriminate|]. split; [reflexivity|]. split; [repeat (first [left; reflexivity | right])|]. constructor.
Qed.
Print Assumptions C94_release_refuted.

(** An object whose request was refused because the device was not attached
    cannot be used when it is: nothing is in progress, and every send says
    that there is. *)
Theorem C94_retry_refuted : forall k, exists l,
  Safe (snd (run k None false l)) /\ Quiet (snd (run k None false l)) /\ count is_posted (snd (run k None false l)) = 0 /\
  In (Resolved 0 ENotAttached) (snd (run k None false l)) /\ att (fst (run k None false l)) = true /\
  forall f id a1 a2, In (Resolved f EInProgress) (snd (step (fst (run k None false l)) (Send f id a1 a2))).
Proof.
  intros k. exists ([SetIdent "i" true; SetPayload "p" true; Send 0 "id" true true] ++ up).
  destruct k; vm_compute; (split; [split; intuition discriminate|]); (split; [reflexivity|]); (split; [reflexivity|]);
    (split; [first [repeat (first [left; reflexivity | right]) | repeat (first [left; reflexivity | right])]|]); (split; [reflexivity|]);
    intros f id a1 a2; right; left; reflexivity.
Qed.
Print Assumptions C94_retry_refuted.

(** A request for ICE servers returns success although the device is not attached. *)
Theorem C94_return_refuted : exists l,
  att (fst (run Ice None false l)) = false /\
  In (Resolved 0 ENotAttached) (snd (step (fst (run Ice None false l)) (Send 0 "id" true true))) /\
  In (Returned EOk) (snd (step (fst (run Ice None false l)) (Send 0 "id" true true))).
Proof. exists []. vm_compute. split; [reflexivity|]. split; [right; left; reflexivity|]. right. right. left. reflexivity. Qed.
Print Assumptions C94_return_refuted.

(** A request for ICE servers with an invalid identifier is sent. *)
Theorem C94_identifier_refuted : exists id,
  ~ valid_id id /\ In (Posted (Some 1) (QIce id)) (snd (run Ice (Some 1) true [Send 0 id true true])) /\ valid_id "Dev_1-x".
Proof.
  exists "a b"%string. split; [|split].
  - intros H. inversion H as [|? ? _ H1]; subst. inversion H1 as [|? ? H2 _]; subst. vm_compute in H2. discriminate H2.
  - vm_compute. repeat (first [left; reflexivity | right]).
  - repeat constructor.
Qed.
Print Assumptions C94_identifier_refuted.

(** ** Examples *)

Example C94_ex_fcm :
  snd (run Fcm None false (fcm ++ [Answer good_fcm []; Send 1 "" true true; Free])) =
  [SetTo EOk; SetTo EOk; Asked 0; Created; Posted (Some 7) (QFcm "project" "hello");
   Given good_fcm; Released; Resolved 0 EOk; Asked 1; Resolved 1 EInProgress] /\
  resp (fst (run Fcm None false (fcm ++ [Answer good_fcm []]))) = mkview 200 (Some "sent"%string) [] 0 [].
Proof. vm_compute. split; reflexivity. Qed.

Example C94_ex_svc :
  snd (run Svc None false (svc ++ [Stop; Answer good_svc []])) =
  [SetTo EOk; SetTo EOk; Asked 0; Created; Posted (Some 7) (QSvc "service" [1; 2]); Given good_svc; Released; Resolved 0 EOk] /\
  resp (fst (run Svc None false (svc ++ [Stop; Answer good_svc []]))) = mkview 200 None [4; 5] 2 [].
Proof. vm_compute. split; reflexivity. Qed.

Example C94_ex_ice :
  snd (run Ice (Some 7) true [Send 0 "id" true true; Answer good_ice []; Free]) =
  [Created; Asked 0; Posted (Some 7) (QIce "id"); Returned EOk; Given good_ice; Resolved 0 EOk; Released] /\
  servers (resp (fst (run Ice (Some 7) true [Send 0 "id" true true; Answer good_ice []]))) =
  [mkserver None None ["stun:a"%string]; mkserver (Some "u"%string) (Some "p"%string) ["turn:b"%string; "turn:c"%string]].
Proof. vm_compute. split; reflexivity. Qed.

(** The histories of the examples meet the hypotheses. *)
Lemma entry_here : forall k v m, Entry ((CText k, v) :: m) k v.
Proof. intros. exists [], m. split; [reflexivity|intros w []]. Qed.

Example C94_ex_careful : Careful Fcm None false (fcm ++ [Answer good_fcm []; Free]).
Proof.
  intros x i y E. unfold fcm, up in E. cbn [app] in E.
  do 7 (destruct x as [|? x]; cbn [app] in E;
    [injection E; intros; subst; first [exact I | vm_compute; split; discriminate | vm_compute; reflexivity | intros l c HP; discriminate HP]
    |injection E; clear E; intros E ?; subst]).
  destruct x; discriminate E.
Qed.

Example C94_ex_good : Good Fcm good_fcm /\ Good Svc good_svc /\ Good Ice good_ice /\ Small good_fcm /\
  ~ Quiet (snd (run Fcm None false fcm)) /\ ~ Quiet (snd (run Svc None false svc)).
Proof.
  split; [|split; [|split; [|split; [|split]]]].
  - eexists _, _, _. split; [reflexivity|]. split; [apply find_entry; [reflexivity|discriminate]|]. split; [discriminate|].
    split; [apply find_entry; [reflexivity|discriminate]|]. split; [discriminate|reflexivity].
  - eexists _, _, _. split; [reflexivity|]. split; [apply find_entry; [reflexivity|discriminate]|]. split; [split; [discriminate|reflexivity]|].
    right. split; [right; left; apply find_entry; [reflexivity|discriminate]|].
    split; [apply find_entry; [reflexivity|discriminate]|]. discriminate.
  - eexists. split; [reflexivity|]. intros c [<-|[<-|[]]].
    + eexists _, ["stun:a"%string]. split; [reflexivity|]. split; [apply find_entry; [reflexivity|discriminate]|].
      repeat constructor; discriminate.
    + eexists _, ["turn:b"%string; "turn:c"%string]. split; [reflexivity|]. split; [apply find_entry; [reflexivity|discriminate]|].
      repeat constructor; discriminate.
  - intros m z HP H. injection HP as <-. destruct H as [H|H]; apply entry_find in H; vm_compute in H; [injection H as <-; split; [discriminate|reflexivity]|discriminate H].
  - vm_compute. discriminate.
  - vm_compute. discriminate.
Qed.

Example C94_ex_named : Named (AResponse 201 (Some 60) (Some (Some (CArr
  [CMap [(CText "Username", CText "u"); (CText "Credential", CText "p"); (CText "Urls", CArr [CText "turn:b"])]])))).
Proof.
  intros l c HP Hin. injection HP as <-. destruct Hin as [<-|[]]. eexists _, _. split; [reflexivity|].
  split; [apply entry_here|discriminate].
Qed.
