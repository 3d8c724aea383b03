From Coq Require Import List Bool Arith Lia.
From Verif Require Import VirtModel VirtSpec VirtProofs.
Import ListNotations.

(** ** Which events complete *)
Lemma in_resolve : forall e c x d, In (Complete e c) (resolve x d) -> x = Some e /\ c = d.
Proof. intros e c [x|] d; cbn; intros X; [destruct X as [X|[]]; inversion X; auto|destruct X]. Qed.
Ltac ins H := repeat first [rewrite in_app_iff in H | destruct H as [H|H] | (apply in_resolve in H as [H ?]) | discriminate H | (destruct H; fail) | (inversion H; subst; clear H)].
Lemma resolve_write_events : forall s e c, In (Complete e c) (snd (resolve_write Ok s)) ->
  option_map w_ev (d_write (cli s)) = Some e \/ d_close (cli s) = Some e \/ (d_closed (cli s) = true /\ exists r, d_read (srv s) = Some r /\ r_ev r = e /\ r_all r = true).
Proof.
  intros s e c. unfold resolve_write. cbn. destruct (d_closed (cli s)); cbn [snd]; [|intros H; apply in_resolve in H as [H _]; auto].
  destruct (d_read (srv s)) as [r|]; [destruct (r_all r) eqn:A|]; cbn [snd]; rewrite ?in_app_iff; intros [H|[H|H]]; try (apply in_resolve in H as [H _]; cbn in H; auto); cbn in H; try (destruct H; fail). destruct H as [H|[]]. inversion H; subst. right. right. split; [reflexivity|]. exists r. auto.
Qed.
Lemma do_write_events : forall s e c, In (Complete e c) (snd (do_write s)) ->
  (exists r, d_read (srv s) = Some r /\ r_ev r = e) \/ (exists w, d_write (cli s) = Some w /\ w_ev w = e /\ d_write (cli (fst (do_write s))) = None) \/ d_close (cli s) = Some e.
Proof.
  intros s e c. unfold do_write. destruct (d_read (srv s)) as [r|] eqn:R; [|intros []]. destruct (d_write (cli s)) as [w|] eqn:W; [|intros []].
  destruct (r_left r <? length (w_rest w)).
  - cbn. intros [H|[H|[H|[]]]]; inversion H; subst. left. exists r. auto.
  - assert (N : forall x, d_write (cli (fst (resolve_write Ok x))) = None). { intros x. unfold resolve_write. cbn. destruct (d_closed (cli x)); [|reflexivity]. destruct (d_read (srv x)) as [y|]; [destruct (r_all y)|]; reflexivity. }
    destruct (_ && _).
    + match goal with |- context [resolve_write Ok ?x] => pose proof (resolve_write_events x e c) as T; specialize (N x); destruct (resolve_write Ok x) as [s' l] end. cbn [fst snd] in *. intros H. apply in_app_iff in H as [H|H]; [cbn in H; destruct H as [H|[H|[]]]; discriminate|].
      destruct (T H) as [E|[E|(_ & x & E & F & _)]]; cbn in E; [right; left; exists w; rewrite W in E; inversion E; auto|auto|left; inversion E; subst; exists r; auto].
    + match goal with |- context [resolve_write Ok ?x] => pose proof (resolve_write_events x e c) as T; specialize (N x); destruct (resolve_write Ok x) as [s' l] end. cbn [fst snd] in *. intros H. apply in_app_iff in H as [H|H]; [cbn in H; destruct H as [H|[H|[]]]; discriminate|].
      destruct H as [H|H]; [inversion H; subst; left; exists r; auto|]. destruct (T H) as [E|[E|(_ & x & E & F & _)]]; cbn in E; [right; left; exists w; rewrite W in E; inversion E; auto|auto|discriminate].
Qed.
Lemma do_read_events : forall s e c, In (Complete e c) (snd (do_read s)) ->
  (exists r, d_read (cli s) = Some r /\ r_ev r = e) \/ (exists w, d_write (srv s) = Some w /\ w_ev w = e /\ d_write (srv (fst (do_read s))) = None) \/ d_close (srv s) = Some e.
Proof.
  intros s e c. unfold do_read. destruct (d_read (cli s)) as [r|] eqn:R; [|intros []]. destruct (d_write (srv s)) as [w|] eqn:W; [|intros []].
  destruct (r_left r <? length (w_rest w)); [|destruct (_ && _)].
  - cbn. intros [H|[H|[H|[]]]]; inversion H; subst. left. exists r. auto.
  - cbn. destruct (d_closed (srv s)); cbn; intros [H|[H|[H|H]]]; try discriminate; try (inversion H; subst; right; left; exists w; auto; fail); first [apply in_resolve in H as [H _]; auto|destruct H].
  - cbn. destruct (d_closed (srv s)); cbn; intros [H|[H|[H|[H|H]]]]; try discriminate; try (inversion H; subst; right; left; exists w; auto; fail); try (inversion H; subst; left; exists r; auto; fail); first [apply in_resolve in H as [H _]; auto|destruct H].
Qed.

(** ** What the fields hold *)
Definition holds (o : op) (s : vstream) : Prop :=
  match o with
  | SAccept e => d_open (srv s) = Some e
  | SRead all e _ => exists r, d_read (srv s) = Some r /\ r_ev r = e
  | SWrite e _ => exists w, d_write (srv s) = Some w /\ w_ev w = e
  | SClose e => d_close (srv s) = Some e
  | CRead all e _ => exists r, d_read (cli s) = Some r /\ r_ev r = e
  | CWrite e _ => exists w, d_write (cli s) = Some w /\ w_ev w = e
  | CClose e => d_close (cli s) = Some e
  | _ => False
  end.
Record kinds (e0 : nat) (h : list op) (s : vstream) : Prop := {
  k_so : d_open (srv s) = None;
  k_co : forall e, d_open (cli s) = Some e -> e = e0;
  k_sr : forall r, d_read (srv s) = Some r -> exists n, In (SRead (r_all r) (r_ev r) n) h;
  k_cr : forall r, d_read (cli s) = Some r -> exists n, In (CRead (r_all r) (r_ev r) n) h;
  k_sw : forall w, d_write (srv s) = Some w -> exists b, In (SWrite (w_ev w) b) h;
  k_cw : forall w, d_write (cli s) = Some w -> exists b, In (CWrite (w_ev w) b) h;
  k_sc : forall e, d_close (srv s) = Some e -> In (SClose e) h;
  k_cc : forall e, d_close (cli s) = Some e -> In (CClose e) h
}.
(** What [do_write] and [do_read] leave in the fields was there before. *)
Definition sub_read (a b : option reading) : Prop := forall r, a = Some r -> exists r', b = Some r' /\ r_ev r = r_ev r' /\ r_all r = r_all r'.
Definition sub_write (a b : option writing) : Prop := forall r, a = Some r -> exists r', b = Some r' /\ w_ev r = w_ev r'.
Definition sub_ev (a b : option nat) : Prop := forall e, a = Some e -> b = Some e.
Record sub_side (a b : side) : Prop := { s_open : sub_ev (d_open a) (d_open b); s_read : sub_read (d_read a) (d_read b); s_write : sub_write (d_write a) (d_write b); s_close : sub_ev (d_close a) (d_close b) }.
Definition sub (a b : vstream) : Prop := sub_side (srv a) (srv b) /\ sub_side (cli a) (cli b).
Lemma sub_side_refl : forall a, sub_side a a.
Proof. intros a. constructor; intros x H; try (exists x); auto. Qed.
Lemma sub_refl : forall a, sub a a. Proof. intros a. split; apply sub_side_refl. Qed.
Ltac subs := constructor; unfold sub_ev, sub_read, sub_write; cbn; intros ?x ?H; try discriminate; try (inversion H; subst; cbn); eauto.
Lemma resolve_write_sub : forall s, sub (fst (resolve_write Ok s)) s.
Proof.
  intros s. unfold resolve_write. cbn. destruct (d_closed (cli s)); [|split; cbn; subs]. destruct (d_read (srv s)) as [r|] eqn:R; [destruct (r_all r)|]; split; cbn; subs.
Qed.
Lemma sub_trans : forall a b c, sub a b -> sub b c -> sub a c.
Proof.
  assert (T : forall a b c, sub_side a b -> sub_side b c -> sub_side a c). { intros a b c [A1 A2 A3 A4] [B1 B2 B3 B4]. constructor.
    - intros x H. auto.
    - intros x H. destruct (A2 x H) as (y & Y & E & F). destruct (B2 y Y) as (z & Z & G & K). exists z. split; [exact Z|]. split; congruence.
    - intros x H. destruct (A3 x H) as (y & Y & E). destruct (B3 y Y) as (z & Z & G). exists z. split; [exact Z|congruence].
    - intros x H. auto. }
  intros a b c [A1 A2] [B1 B2]. split; eapply T; eauto.
Qed.
Lemma do_write_sub : forall s, sub (fst (do_write s)) s.
Proof.
  intros s. unfold do_write. destruct (d_read (srv s)) as [r|] eqn:R; [|apply sub_refl]. destruct (d_write (cli s)) as [w|] eqn:W; [|apply sub_refl].
  destruct (r_left r <? length (w_rest w)); [split; cbn; subs|]. destruct (_ && _).
  - match goal with |- context [resolve_write Ok ?x] => pose proof (resolve_write_sub x) as T; destruct (resolve_write Ok x) as [s' l] end. cbn [fst snd] in *. eapply sub_trans; [exact T|]. split; cbn; subs.
  - match goal with |- context [resolve_write Ok ?x] => pose proof (resolve_write_sub x) as T; destruct (resolve_write Ok x) as [s' l] end. cbn [fst snd] in *. eapply sub_trans; [exact T|]. split; cbn; subs.
Qed.
Lemma do_read_sub : forall s, sub (fst (do_read s)) s.
Proof.
  intros s. unfold do_read. destruct (d_read (cli s)) as [r|] eqn:R; [|apply sub_refl]. destruct (d_write (srv s)) as [w|] eqn:W; [|apply sub_refl].
  destruct (r_left r <? length (w_rest w)); [|destruct (_ && _)]; cbn; try destruct (d_closed (srv s)); split; cbn; subs.
Qed.
Lemma kinds_sub : forall e0 h s s', kinds e0 h s -> sub s' s -> kinds e0 h s'.
Proof.
  intros e0 h s s' [] [[A1 A2 A3 A4] [B1 B2 B3 B4]]. constructor.
  - destruct (d_open (srv s')) eqn:E; [|reflexivity]. specialize (A1 n eq_refl). congruence.
  - intros e E. auto.
  - intros r E. destruct (A2 r E) as (r' & E' & F & G). rewrite F, G. auto.
  - intros r E. destruct (B2 r E) as (r' & E' & F & G). rewrite F, G. auto.
  - intros r E. destruct (A3 r E) as (r' & E' & F). rewrite F. auto.
  - intros r E. destruct (B3 r E) as (r' & E' & F). rewrite F. auto.
  - intros e E. auto.
  - intros e E. auto.
Qed.
Lemma kinds_more : forall e0 h s o, kinds e0 h s -> kinds e0 (h ++ [o]) s.
Proof.
  intros e0 h s o []. constructor; auto; intros x E; rewrite ?in_app_iff; auto.
  - destruct (k_sr0 x E) as [n I]. exists n. apply in_app_iff. auto.
  - destruct (k_cr0 x E) as [n I]. exists n. apply in_app_iff. auto.
  - destruct (k_sw0 x E) as [n I]. exists n. apply in_app_iff. auto.
  - destruct (k_cw0 x E) as [n I]. exists n. apply in_app_iff. auto.
Qed.
Lemma kinds_set : forall e0 h o s s', kinds e0 h s -> (sub s' s \/ 
  (exists all e n, o = SRead all e n /\ sub s' (on_srv (set_read (Some {| r_all := all; r_ev := e; r_left := n; r_len := 0 |})) s)) \/
  (exists all e n, o = CRead all e n /\ sub s' (on_cli (set_read (Some {| r_all := all; r_ev := e; r_left := n; r_len := 0 |})) s)) \/
  (exists e b, o = SWrite e b /\ sub s' (on_srv (set_write (Some {| w_ev := e; w_rest := b |})) s)) \/
  (exists e b, o = CWrite e b /\ sub s' (on_cli (set_write (Some {| w_ev := e; w_rest := b |})) s)) \/
  (exists e, o = SClose e /\ sub s' (on_srv (set_close (Some e)) s)) \/
  (exists e, o = CClose e /\ sub s' (on_cli (set_close (Some e)) s))) -> kinds e0 (h ++ [o]) s'.
Proof.
  intros e0 h o s s' K H. apply (kinds_more _ _ _ o) in K. assert (L : In o (h ++ [o])) by (apply in_app_iff; right; left; reflexivity).
  destruct H as [H|[(all & e & n & -> & H)|[(all & e & n & -> & H)|[(e & b & -> & H)|[(e & b & -> & H)|[(e & -> & H)|(e & -> & H)]]]]]]; [eapply kinds_sub; eauto|..]; (eapply kinds_sub; [|exact H]); destruct K; constructor; cbn; auto; intros x E; inversion E; subst; cbn; eauto.
Qed.
Lemma step_kinds : forall e0 h o s, kinds e0 h s -> kinds e0 (h ++ [o]) (fst (step o s)).
Proof.
  intros e0 h o s K. apply kinds_set with (s := s); [exact K|]. pose proof (sub_refl s) as R.
  destruct o as [e|all e n|e b|e| |all e n|e b|e|]; cbn [step].
  - left. destruct (_ || _); [exact R|]. destruct (d_open (srv s)); [exact R|]. split; cbn; subs.
  - destruct (_ || _); [left; exact R|]. destruct (d_read (srv s)) eqn:E; [left; exact R|]. destruct (_ && _); [left; exact R|]. right. left. exists all, e, n. split; [reflexivity|]. match goal with |- context [do_write ?x] => pose proof (do_write_sub x) as T; destruct (do_write x) as [s' l] end. exact T.
  - destruct (_ || _); [left; exact R|]. destruct (d_write (srv s)) eqn:E; [left; exact R|]. destruct (d_closed (srv s)); [left; exact R|]. right. right. right. left. exists e, b. split; [reflexivity|]. apply do_read_sub.
  - destruct (_ || _); [left; exact R|]. destruct (d_close (srv s)) eqn:E; [left; exact R|]. cbn. destruct (d_write (srv s)) eqn:W.
    + do 5 right. left. exists e. split; [reflexivity|]. split; cbn; subs.
    + left. split; cbn; subs.
  - left. destruct (d_stopped (srv s)); [exact R|]. split; cbn; subs.
  - destruct (d_read (cli s)) eqn:E; [left; exact R|]. destruct (d_closed (srv s)); [left; exact R|]. do 2 right. left. exists all, e, n. split; [reflexivity|]. match goal with |- context [do_read ?x] => pose proof (do_read_sub x) as T; destruct (do_read x) as [s' l] end. exact T.
  - destruct (_ || _); [left; exact R|]. destruct (d_closed (cli s)); [left; exact R|]. destruct (d_write (cli s)) eqn:E; [left; exact R|]. do 4 right. left. exists e, b. split; [reflexivity|]. apply do_write_sub.
  - cbn. destruct (d_write (cli s)) eqn:W.
    + do 6 right. exists e. split; [reflexivity|]. split; cbn; subs.
    + left. split; cbn; subs.
  - left. destruct (d_stopped (cli s)); [exact R|]. split; cbn; subs.
Qed.
Lemma reach_kinds : forall e0 h, kinds e0 h (fst (run (init e0) h)).
Proof.
  intros e0. induction h as [|o h IH] using rev_ind; [constructor; cbn; intros; try discriminate; congruence|]. rewrite run_snoc. apply step_kinds. exact IH.
Qed.

(** ** Waiting operations *)
Lemma in_run : forall h s o, In o h -> exists l, In (o, l) (snd (run s h)).
Proof. intros h s o I. rewrite <- (run_ops h s) in I. apply in_map_iff in I as ([o' l] & E & I). cbn in E. subst. eauto. Qed.
Lemma run_in : forall h s o l, In (o, l) (snd (run s h)) -> In o h.
Proof. intros h s o l I. rewrite <- (run_ops h s). apply in_map_iff. exists (o, l). auto. Qed.
Lemma occ_in : forall e l, In e l -> 1 <= occ e l.
Proof. intros e l I. unfold occ, count. induction l as [|a l IH]; [destruct I|]. cbn. destruct I as [->|I]; [rewrite Nat.eqb_refl; cbn; lia|]. specialize (IH I). destruct (e =? a); cbn; lia. Qed.
Lemma in_occ : forall e l, 1 <= occ e l -> In e l.
Proof. intros e l. unfold occ, count. induction l as [|a l IH]; cbn; [lia|]. destruct (e =? a) eqn:E; [apply Nat.eqb_eq in E; auto|auto]. Qed.
Lemma occ_nodup : forall e l, NoDup l -> occ e l <= 1.
Proof.
  intros e l N. induction N as [|a l NI N IH]; [cbn; lia|]. unfold occ, count in *. cbn. destruct (e =? a) eqn:E; [|exact IH]. apply Nat.eqb_eq in E. subst. cbn. destruct (length (filter (Nat.eqb a) l)) eqn:F; [lia|]. destruct NI. apply in_occ. unfold occ, count. lia.
Qed.
Lemma begun_in : forall h o e, In o h -> event1 o = Some e -> In e (begun h).
Proof. intros h o e I E. unfold begun. apply in_flat_map. exists o. rewrite E. split; [exact I|left; reflexivity]. Qed.
Lemma nodup_tail : forall (a b : list nat), NoDup (a ++ b) -> NoDup b.
Proof. induction a as [|x a IH]; intros b N; [exact N|]. inversion N; auto. Qed.
Lemma nodup_left : forall (a b : list nat), NoDup (a ++ b) -> NoDup a.
Proof. induction a as [|x a IH]; intros b N; [constructor|]. inversion N; subst. constructor; [intros X; apply H1; apply in_app_iff; auto|eauto]. Qed.
Lemma unique : forall h o o' e, NoDup (begun h) -> In o h -> In o' h -> event1 o = Some e -> event1 o' = Some e -> o = o'.
Proof.
  induction h as [|a h IH]; intros o o' e N I I' E E'; [destruct I|]. change (begun (a :: h)) with (opt (event1 a) ++ begun h) in N.
  destruct I as [->|I], I' as [->|I']; auto.
  - rewrite E in N. inversion N; subst. destruct H1. eapply begun_in; eauto.
  - rewrite E' in N. inversion N; subst. destruct H1. eapply begun_in; eauto.
  - eapply IH; eauto. eapply nodup_tail; eauto.
Qed.
Lemma lawful_app : forall e0 h h', lawful e0 (h ++ h') -> lawful e0 h.
Proof. unfold lawful. intros e0 h h' N. unfold begun in N. rewrite flat_map_app in N. change (e0 :: flat_map ?f h ++ flat_map ?f h') with ((e0 :: flat_map f h) ++ flat_map f h') in N. eapply nodup_left; eauto. Qed.
Lemma lawful_unique : forall e0 h o o' e, lawful e0 h -> In o h -> In o' h -> event1 o = Some e -> event1 o' = Some e -> o = o'.
Proof. intros e0 h o o' e L. inversion L; subst. apply unique. assumption. Qed.
Lemma lawful_open : forall e0 h o, lawful e0 h -> In o h -> event1 o <> Some e0.
Proof. intros e0 h o L I E. inversion L; subst. destruct H1. eapply begun_in; eauto. Qed.
Lemma closes_app : forall e0 h h', closes_once e0 (h ++ h') -> closes_once e0 h.
Proof. intros e0 h h' C h1 h2 e e' E. apply (C h1 (h2 ++ h') e e'). rewrite E, <- app_assoc. reflexivity. Qed.
Lemma ho_le : forall e s, ho e (d_open (srv s)) + ho e (d_open (cli s)) + ho e (option_map r_ev (d_read (srv s))) + ho e (option_map r_ev (d_read (cli s))) + ho e (option_map w_ev (d_write (srv s))) + ho e (option_map w_ev (d_write (cli s))) + ho e (d_close (srv s)) + ho e (d_close (cli s)) = held e s.
Proof. intros. unfold held, hs. lia. Qed.
Lemma ho_some : forall e, ho e (Some e) = 1. Proof. intros e. cbn. rewrite Nat.eqb_refl. reflexivity. Qed.
Lemma ho_pos : forall e x, ho e x <> 0 -> x = Some e. Proof. intros e [x|]; cbn; [|congruence]. destruct (e =? x) eqn:E; [apply Nat.eqb_eq in E; congruence|congruence]. Qed.
Lemma holds_held : forall o s e, holds o s -> event1 o = Some e -> 1 <= held e s.
Proof.
  intros o s e H E. rewrite <- ho_le. destruct o; inversion E; subst; cbn [holds] in H; try (rewrite H, ho_some; lia); try (destruct H as (r & R & <-); rewrite R; cbn [option_map]; rewrite ho_some; lia); destruct H.
Qed.
Lemma holds_waits : forall e0 h o e, lawful e0 h -> holds o (fst (run (init e0) h)) -> event1 o = Some e -> completions e (snd (run (init e0) h)) = 0.
Proof. intros e0 h o e L H E. pose proof (holds_held _ _ _ H E). pose proof (reach_tally e0 h e). pose proof (occ_nodup e _ L). lia. Qed.
Lemma tally_eq : forall e0 h e, lawful e0 h -> closes_once e0 h \/ ~ In (CClose e) h -> completions e (snd (run (init e0) h)) + held e (fst (run (init e0) h)) = occ e (e0 :: begun h).
Proof.
  intros e0 h e. change (e0 :: begun h) with ([e0] ++ begun h). induction h as [|o h IH] using rev_ind; intros L C.
  - unfold begun. cbn [flat_map]. rewrite app_nil_r. change [e0] with (opt (Some e0)). rewrite occ_opt. cbn. lia.
  - pose proof (lawful_app _ _ _ L) as L1. specialize (IH L1). assert (C1 : closes_once e0 h \/ ~ In (CClose e) h) by (destruct C as [C|C]; [left; eapply closes_app; eauto|right; intros X; apply C; apply in_app_iff; auto]). specialize (IH C1).
    rewrite run_snoc. cbn [fst snd]. rewrite completions_snoc, begun_snoc, app_assoc, (occ_app e _ (opt (event1 o))), occ_opt. pose proof (step_tally e o (fst (run (init e0) h))) as T.
    assert (Z : lost e o (fst (run (init e0) h)) = 0); [|lia]. destruct (Nat.eq_dec (lost e o (fst (run (init e0) h))) 0) as [Z|Z]; [exact Z|exfalso]. unfold lost in Z. destruct o; try congruence. destruct (d_write (cli _)); [|congruence]. apply ho_pos in Z. pose proof (k_cc _ _ _ (reach_kinds e0 h) e Z) as I.
    destruct C as [C|C]; [|apply C; apply in_app_iff; auto]. apply (C h [] e1 e eq_refl). destruct (in_run h (init e0) _ I) as [l J]. exists e, l. split; [reflexivity|]. split; [exact J|]. exact (holds_waits e0 h (CClose e) e L1 Z eq_refl).
Qed.
Lemma held_op : forall e0 h e, held e (fst (run (init e0) h)) <> 0 -> e = e0 \/ exists o, In o h /\ event1 o = Some e /\ holds o (fst (run (init e0) h)).
Proof.
  intros e0 h e H. pose proof (reach_kinds e0 h) as K. set (s := fst (run (init e0) h)) in *. rewrite <- ho_le in H.
  assert (D : d_open (cli s) = Some e \/ option_map r_ev (d_read (srv s)) = Some e \/ option_map r_ev (d_read (cli s)) = Some e \/ option_map w_ev (d_write (srv s)) = Some e \/ option_map w_ev (d_write (cli s)) = Some e \/ d_close (srv s) = Some e \/ d_close (cli s) = Some e).
  { rewrite (k_so _ _ _ K) in H. change (ho e None) with 0 in H. pose proof (ho_pos e (d_open (cli s))). pose proof (ho_pos e (option_map r_ev (d_read (srv s)))). pose proof (ho_pos e (option_map r_ev (d_read (cli s)))). pose proof (ho_pos e (option_map w_ev (d_write (srv s)))). pose proof (ho_pos e (option_map w_ev (d_write (cli s)))). pose proof (ho_pos e (d_close (srv s))). pose proof (ho_pos e (d_close (cli s))).
    destruct (ho e (d_open (cli s))); [|left; auto]. destruct (ho e (option_map r_ev (d_read (srv s)))); [|right; left; auto]. destruct (ho e (option_map r_ev (d_read (cli s)))); [|right; right; left; auto]. destruct (ho e (option_map w_ev (d_write (srv s)))); [|do 3 right; left; auto]. destruct (ho e (option_map w_ev (d_write (cli s)))); [|do 4 right; left; auto]. destruct (ho e (d_close (srv s))); [|do 5 right; left; auto]. destruct (ho e (d_close (cli s))); [lia|do 6 right; auto]. }
  destruct D as [D|[D|[D|[D|[D|[D|D]]]]]].
  - left. eapply k_co; eauto.
  - right. destruct (d_read (srv s)) as [r|] eqn:R; [|discriminate]. inversion D. destruct (k_sr _ _ _ K r R) as [n I]. exists (SRead (r_all r) (r_ev r) n). split; [exact I|]. split; [cbn; congruence|]. exists r. auto.
  - right. destruct (d_read (cli s)) as [r|] eqn:R; [|discriminate]. inversion D. destruct (k_cr _ _ _ K r R) as [n I]. exists (CRead (r_all r) (r_ev r) n). split; [exact I|]. split; [cbn; congruence|]. exists r. auto.
  - right. destruct (d_write (srv s)) as [r|] eqn:R; [|discriminate]. inversion D. destruct (k_sw _ _ _ K r R) as [n I]. exists (SWrite (w_ev r) n). split; [exact I|]. split; [cbn; congruence|]. exists r. auto.
  - right. destruct (d_write (cli s)) as [r|] eqn:R; [|discriminate]. inversion D. destruct (k_cw _ _ _ K r R) as [n I]. exists (CWrite (w_ev r) n). split; [exact I|]. split; [cbn; congruence|]. exists r. auto.
  - right. exists (SClose e). split; [eapply k_sc; eauto|]. split; [reflexivity|exact D].
  - right. exists (CClose e). split; [eapply k_cc; eauto|]. split; [reflexivity|exact D].
Qed.
Lemma waits_holds : forall e0 h o, lawful e0 h -> closes_once e0 h \/ by1 o = Server \/ (forall e, o <> CClose e) -> waits o (snd (run (init e0) h)) -> holds o (fst (run (init e0) h)).
Proof.
  intros e0 h o L C (e & l & E & I & Z). apply run_in in I. assert (C' : closes_once e0 h \/ ~ In (CClose e) h).
  { destruct C as [C|C]; [auto|]. right. intros X. pose proof (lawful_unique e0 h o (CClose e) e L I X E eq_refl). subst o. destruct C as [C|C]; [discriminate|congruence]. }
  pose proof (tally_eq e0 h e L C') as T. pose proof (occ_in e (e0 :: begun h) (or_intror (begun_in _ _ _ I E))). assert (H0 : held e (fst (run (init e0) h)) <> 0) by lia.
  destruct (held_op e0 h e H0) as [->|(o' & I' & E' & H')]; [destruct (lawful_open _ _ _ L I E)|]. rewrite (lawful_unique e0 h o o' e L I I' E E'). exact H'.
Qed.
(** A reader and a writer never wait for each other. *)
Definition apart (s : vstream) : Prop := (d_read (srv s) = None \/ d_write (cli s) = None) /\ (d_read (cli s) = None \/ d_write (srv s) = None).
Lemma do_write_apart : forall s, (d_read (cli s) = None \/ d_write (srv s) = None) -> apart (fst (do_write s)).
Proof.
  intros s H. unfold do_write. destruct (d_read (srv s)) as [r|] eqn:R; [|split; auto]. destruct (d_write (cli s)) as [w|] eqn:W; [|split; auto].
  destruct (r_left r <? length (w_rest w)); [split; cbn; auto|]. destruct (_ && _); unfold resolve_write; cbn; destruct (d_closed (cli s)); cbn; try destruct (r_all r); split; cbn; auto.
Qed.
Lemma do_read_apart : forall s, (d_read (srv s) = None \/ d_write (cli s) = None) -> apart (fst (do_read s)).
Proof.
  intros s H. unfold do_read. destruct (d_read (cli s)) as [r|] eqn:R; [|split; auto]. destruct (d_write (srv s)) as [w|] eqn:W; [|split; auto].
  destruct (r_left r <? length (w_rest w)); [|destruct (_ && _)]; cbn; try destruct (d_closed (srv s)); split; cbn; auto.
Qed.
Lemma step_apart : forall o s, apart s -> apart (fst (step o s)).
Proof.
  intros o s A. pose proof A as [A1 A2]. destruct o as [e|all e n|e b|e| |all e n|e b|e|]; cbn [step].
  - destruct (_ || _); [exact A|]. destruct (d_open (srv s)); exact A.
  - destruct (_ || _); [exact A|]. destruct (d_read (srv s)); [exact A|]. destruct (_ && _); [exact A|]. match goal with |- context [do_write ?x] => pose proof (do_write_apart x A2) as T; destruct (do_write x) as [s' l] end. exact T.
  - destruct (_ || _); [exact A|]. destruct (d_write (srv s)); [exact A|]. destruct (d_closed (srv s)); [exact A|]. apply do_read_apart. exact A1.
  - destruct (_ || _); [exact A|]. destruct (d_close (srv s)); [exact A|]. cbn. destruct (d_write (srv s)) eqn:W; split; cbn; rewrite ?W; auto.
  - destruct (d_stopped (srv s)); [exact A|]. split; cbn; auto.
  - destruct (d_read (cli s)); [exact A|]. destruct (d_closed (srv s)); [exact A|]. match goal with |- context [do_read ?x] => pose proof (do_read_apart x A1) as T; destruct (do_read x) as [s' l] end. exact T.
  - destruct (_ || _); [exact A|]. destruct (d_closed (cli s)); [exact A|]. destruct (d_write (cli s)); [exact A|]. apply do_write_apart. exact A2.
  - cbn. destruct (d_write (cli s)) eqn:W; split; cbn; rewrite ?W; auto. 
  - destruct (d_stopped (cli s)); [exact A|]. split; cbn; auto.
Qed.
Lemma reach_apart : forall e0 h, apart (fst (run (init e0) h)).
Proof. intros e0. induction h as [|o h IH] using rev_ind; [split; cbn; auto|]. rewrite run_snoc. apply step_apart. exact IH. Qed.
(** The stream is stopped when somebody has stopped it. *)
Lemma step_live : forall o s, stopped s = false -> o <> SStop -> o <> CStop -> stopped (fst (step o s)) = false.
Proof.
  intros o s S N1 N2. destruct o as [e|all e n|e b|e| |all e n|e b|e|]; try congruence; cbn [step]; fold (stopped s); rewrite ?S.
  - destruct (d_open (srv s)); exact S.
  - destruct (d_read (srv s)); [exact S|]. destruct (_ && _); [exact S|]. match goal with |- context [do_write ?x] => pose proof (do_write_bytes x) as (_ & _ & _ & T); destruct (do_write x) as [s' l] end. cbn [fst snd] in *. rewrite T. exact S.
  - destruct (d_write (srv s)); [exact S|]. destruct (d_closed (srv s)); [exact S|]. match goal with |- context [do_read ?x] => pose proof (do_read_bytes x) as (_ & _ & _ & T) end. rewrite T. exact S.
  - destruct (d_close (srv s)); [exact S|]. cbn. destruct (d_write (srv s)); exact S.
  - destruct (d_read (cli s)); [exact S|]. destruct (d_closed (srv s)); [exact S|]. match goal with |- context [do_read ?x] => pose proof (do_read_bytes x) as (_ & _ & _ & T); destruct (do_read x) as [s' l] end. cbn [fst snd] in *. rewrite T. exact S.
  - destruct (d_closed (cli s)); [exact S|]. destruct (d_write (cli s)); [exact S|]. match goal with |- context [do_write ?x] => pose proof (do_write_bytes x) as (_ & _ & _ & T) end. rewrite T. exact S.
  - cbn. destruct (d_write (cli s)); exact S.
Qed.
Lemma reach_live : forall e0 h, live h -> stopped (fst (run (init e0) h)) = false.
Proof.
  intros e0. induction h as [|o h IH] using rev_ind; intros [A B]; [reflexivity|]. rewrite run_snoc. cbn [fst]. apply step_live.
  - apply IH. split; intros X; [apply A|apply B]; apply in_app_iff; auto.
  - intros ->. apply A. apply in_app_iff. right. left. reflexivity.
  - intros ->. apply B. apply in_app_iff. right. left. reflexivity.
Qed.
