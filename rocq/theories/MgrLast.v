(** More about steps of the stream manager: what is stuck stays stuck, who is offered a stream, and flushing. *)
From Coq Require Import List Bool Arith NArith Lia.
From Verif Require Import MgrModel MgrSpec MgrProofs MgrMore MgrRun.
Import ListNotations.

(** * A failed send is never repaired. *)
Definition rst_stuck (m : mgr) : Prop := rst_busy m = true /\ rst_fly m = false.
Definition pkt_stuck (k : nat) (m : mgr) : Prop := k < next m /\ forall s, get k m = Some s -> k_sending s = true /\ k_flying s = false.
Definition no_rst (l : list out) : Prop := forall c id, ~ In (RstSent c id) l.
Definition st (k : nat) (m m' : mgr) (l : list out) : Prop :=
  (rst_stuck m -> rst_stuck m' /\ no_rst l) /\ (pkt_stuck k m -> pkt_stuck k m' /\ ~ In (PacketSent k) l).
Lemma st_refl : forall k m l, (forall c id, ~ In (RstSent c id) l) -> ~ In (PacketSent k) l -> st k m m l. Proof. intros. split; auto. Qed.
Lemma st_nil : forall k m, st k m m []. Proof. intros. apply st_refl; auto. Qed.
Lemma st_trans : forall k m m1 m2 l1 l2, st k m m1 l1 -> st k m1 m2 l2 -> st k m m2 (l1 ++ l2).
Proof.
  intros k m m1 m2 l1 l2 (A1 & A2) (B1 & B2). split; intros H.
  - destruct (A1 H) as (X & Y). destruct (B1 X) as (Z & W). split; [exact Z|]. intros c id I. apply in_app_or in I. destruct I; [apply (Y c id)|apply (W c id)]; assumption.
  - destruct (A2 H) as (X & Y). destruct (B2 X) as (Z & W). split; [exact Z|]. intros I. apply in_app_or in I. tauto.
Qed.
Lemma st_bind : forall k m x f m' l, (forall m1 l1, x = Some (m1, l1) -> st k m m1 l1) -> (forall m1 m2 l2, f m1 = Some (m2, l2) -> st k m1 m2 l2) -> bind x f = Some (m', l) -> st k m m' l.
Proof.
  intros k m x f m' l Hx Hf H. unfold bind in H. destruct x as [[m1 l1]|]; [|discriminate]. destruct (f m1) as [[m2 l2]|] eqn:E; inversion H; subst. eapply st_trans; eauto.
Qed.
Lemma st_put : forall k j m s s' l, get j m = Some s -> (k_sending s = true /\ k_flying s = false -> k_sending s' = true /\ k_flying s' = false) -> (forall c id, ~ In (RstSent c id) l) -> ~ In (PacketSent k) l -> st k m (put j s' m) l.
Proof.
  intros k j m s s' l G F N1 N2. split; intros H; [split; [exact H|exact N1]|]. split; [|exact N2]. destruct H as (H1 & H2). split; [exact H1|]. intros a Ga.
  destruct (Nat.eq_dec k j) as [->|E]; [rewrite (get_put_same _ _ _ _ G) in Ga; inversion Ga; subst; auto|rewrite get_put_other in Ga by exact E; auto].
Qed.
Lemma st_dec : forall k j m m' l, dec j m = Some (m', l) -> st k m m' l.
Proof.
  intros k j m m' l H. pose proof (tou_dec _ _ _ _ H) as T. unfold dec in H. destruct (get j m) as [s|] eqn:G; [|discriminate]. destruct (k_refs s) as [|[|n]]; [discriminate| |].
  - inversion H; subst. split; intros Hs; [split; [exact Hs|intros c id [X|[]]; discriminate]|]. split; [|intros [X|[]]; discriminate]. destruct Hs as (H1 & H2). split; [exact H1|]. intros a Ga.
    destruct (Nat.eq_dec k j) as [->|E]; [|rewrite (t_other _ _ _ _ T k E) in Ga; auto]. apply get_in in Ga. unfold with_current, with_heap in Ga. cbn [heap] in Ga. apply filter_In in Ga. cbn in Ga. rewrite Nat.eqb_refl in Ga. destruct Ga. discriminate.
  - inversion H; subst. eapply st_put; [exact G|auto|auto|auto].
Qed.
Lemma st_rst : forall k m c id r m' l, send_rst c id r m = (m', l) -> st k m m' l.
Proof.
  intros k m c id r m' l H. unfold send_rst in H. destruct (rst_busy m) eqn:E; [inversion H; subst; apply st_nil|].
  split; intros Hs; [destruct Hs; congruence|]. destruct r; inversion H; subst; (split; [exact Hs|]); intros X; try (destruct X as [X|[]]; discriminate); destruct X.
Qed.
Lemma st_stop : forall k j m r m' l, stop j r m = Some (m', l) -> st k m m' l.
Proof.
  intros k j m r m' l H. unfold stop in H. destruct (get j m) as [s|] eqn:G; [|discriminate]. destruct (k_stopped s); [inversion H; subst; apply st_nil|].
  set (q := match k_virt s with true => _ | false => _ end) in H. assert (Q : st k m (fst q) (snd q)).
  { subst q. destruct (k_virt s); [apply st_nil|]. destruct r as [r|]; [|apply st_nil]. destruct (k_conn s) as [[c|c]|]; [|apply st_nil|apply st_nil].
    destruct (send_rst c (k_id s) r m) as [m1 l1] eqn:E. apply (st_rst _ _ _ _ _ _ _ E). }
  assert (Qh : heap (fst q) = heap m).
  { subst q. destruct (k_virt s); [reflexivity|]. destruct r as [r|]; [|reflexivity]. destruct (k_conn s) as [[c|c]|]; [|reflexivity|reflexivity]. unfold send_rst. destruct (rst_busy m); [reflexivity|]. destruct r; reflexivity. }
  destruct q as [m1 l1]. cbn [fst snd] in *. inversion H; subst. eapply st_trans; [exact Q|]. eapply st_put; [rewrite (get_heap _ _ _ Qh); exact G|auto|intros c id [X|[]]; discriminate|intros [X|[]]; discriminate].
Qed.
Lemma st_remove : forall k j m m' l, remove j m = Some (m', l) -> st k m m' l.
Proof.
  intros k j m m' l H. unfold remove in H. destruct (get j m) as [s|] eqn:G; [|discriminate]. destruct (k_listed s); [|discriminate].
  change l with ([] ++ l). eapply st_trans; [|apply (st_dec _ _ _ _ _ H)]. eapply st_put; [exact G|auto|auto|auto].
Qed.
Lemma st_destroy : forall k j r m m' l, destroy j r m = Some (m', l) -> st k m m' l.
Proof.
  intros k j r m m' l H. unfold destroy in H. destruct (get j m) as [s|] eqn:G; [|discriminate].
  change l with ([] ++ l). eapply st_trans; [eapply (st_put k j m s (set_app false s) []); [exact G|auto|auto|auto]|].
  eapply st_bind; [| |exact H]; [apply st_stop|]. intros m1 m2 l2 E. eapply st_bind; [| |exact E]; [apply st_remove|apply st_dec].
Qed.
Lemma st_ready : forall k j p t r m m' l, ready j p t r m = Some (m', l) -> st k m m' l.
Proof.
  intros k j p t r m m' l H. unfold ready in H. destruct (get j m) as [s|] eqn:G; [|discriminate]. set (s1 := set_accepted _) in H.
  destruct (find _ (listeners m)) as [[l0 p0]|]; [destruct t|].
  - inversion H; subst. eapply st_put; [exact G|auto|intros c id [X|[X|[]]]; discriminate|intros [X|[X|[]]]; discriminate].
  - eapply st_bind; [| |exact H]; [|apply st_destroy]. intros m1 l1 E. inversion E; subst. eapply st_put; [exact G|auto|intros c id [X|[]]; discriminate|intros [X|[]]; discriminate].
  - change l with ([] ++ l). eapply st_trans; [eapply (st_put k j m s s1 []); [exact G|auto|auto|auto]|apply (st_destroy _ _ _ _ _ _ H)].
Qed.
Lemma st_post : forall k j m s s0, get j m = Some s0 -> (k_sending s0 = true /\ k_flying s0 = false -> k_sending s = true /\ k_flying s = false) -> st k m (post j s m) [].
Proof. intros k j m s s0 G F. unfold post. destruct (k_posted s); [apply st_nil|]. eapply st_put; [exact G|auto|auto|auto]. Qed.
Lemma st_send : forall k j e o m m' l, send_packet j e o m = Some (m', l) -> st k m m' l.
Proof.
  intros k j e o m m' l H. unfold send_packet in H. destruct (get j m) as [s|] eqn:G; [|discriminate].
  destruct (k_conn s); [|inversion H; subst; eapply st_post; [exact G|auto]].
  destruct (k_sending s) eqn:Se; [inversion H; subst; apply st_nil|]. destruct e; [inversion H; subst; apply st_nil|].
  assert (K : k = j -> pkt_stuck k m -> False) by (intros -> (_ & X); destruct (X s G); congruence).
  destruct o; inversion H; subst.
  - split; intros Hs; [split; [exact Hs|intros c0 id [X|[]]; discriminate]|]. assert (E : k <> j) by (intros E; exact (K E Hs)). split; [|intros [X|[]]; congruence]. destruct Hs as (H1 & H2). split; [exact H1|]. intros a Ga. rewrite get_put_other in Ga by exact E. auto.
  - change (@nil out) with (@nil out ++ []). eapply st_trans; [eapply (st_put k j m s (set_send true false s) []); [exact G|auto|auto|auto]|eapply st_post; [apply (get_put_same _ _ _ _ G)|auto]].
Qed.
Lemma st_events : forall k j evs m m' l, events j evs m = Some (m', l) -> st k m m' l.
Proof.
  intros k j evs. induction evs as [|e evs IH]; intros m m' l H; cbn [events] in H; destruct (get j m) as [s|] eqn:G; try discriminate; destruct (k_stopped s); try (inversion H; subst; apply st_nil).
  destruct e as [p t r|e o| |].
  - destruct (k_accepted s); [auto|]. eapply st_bind; [| |exact H]; [apply st_ready|auto].
  - apply (st_send _ _ _ _ _ _ _ H).
  - auto.
  - inversion H; subst; apply st_nil.
Qed.
Lemma st_inc : forall k j m m' l, lift (inc j m) = Some (m', l) -> st k m m' l.
Proof. intros k j m m' l H. unfold inc in H. destruct (get j m) as [s|] eqn:G; inversion H; subst. eapply st_put; [exact G|auto|auto|auto]. Qed.
Lemma st_deliver : forall k j evs m m' l, deliver j evs m = Some (m', l) -> st k m m' l.
Proof.
  intros k j evs m m' l H. unfold deliver in H. eapply st_bind; [| |exact H]; [apply st_inc|]. intros m1 m2 l2 E. eapply st_bind; [| |exact E]; [apply st_events|apply st_dec].
Qed.
Lemma st_closed : forall k ks m m' l, conn_closed ks m = Some (m', l) -> st k m m' l.
Proof.
  intros k ks. induction ks as [|j ks IH]; intros m m' l H; cbn [conn_closed] in H; [inversion H; subst; apply st_nil|]. eapply st_bind; [| |exact H]; [|auto].
  clear. intros m1 l1 H. unfold conn_closed1 in H. destruct (get j m) as [s|] eqn:G; [|discriminate].
  eapply st_bind; [| |exact H]; [apply st_inc|]. intros m2 m3 l3 E. eapply st_bind; [| |exact E]; [|apply st_dec].
  intros m4 l4 E3. destruct (k_stopped s); [inversion E3; subst; apply st_nil|]. eapply st_bind; [| |exact E3]; [apply st_stop|].
  intros m5 m6 l6 E5. destruct (k_accepted s); [inversion E5; subst; apply st_nil|apply (st_remove _ _ _ _ _ E5)].
Qed.
Lemma st_push : forall k s m l, (forall c id, ~ In (RstSent c id) l) -> ~ In (PacketSent k) l -> st k m (push s m) l.
Proof.
  intros k s m l N1 N2. split; intros H; [split; [exact H|exact N1]|]. split; [|exact N2]. destruct H as (H1 & H2). split; [unfold push; cbn [next]; lia|]. intros a Ga. apply H2.
  unfold get, push in *. cbn [heap] in Ga. clear -H1 Ga. induction (heap m) as [|y h IH]; cbn [find app] in *.
  - cbn [fst] in Ga. destruct (Nat.eqb_spec (next m) k); [lia|discriminate].
  - destruct (fst y =? k); auto.
Qed.
Lemma step_stuck : forall k o m m' l, step o m = Some (m', l) -> st k m m' l.
Proof.
  intros k o m m' l H. assert (U : st k m m [Unhandled]) by (apply st_refl; [intros c id [X|[]]|intros [X|[]]]; discriminate).
  destruct o; cbn [step] in H.
  - unfold listen in H. destruct (if (type =? 0)%N then _ else _) as [p|]; [destruct (in_use p m)|]; inversion H; subst;
    try (apply st_refl; [intros c id [X|[]]|intros [X|[]]]; discriminate). split; intros Hs; (split; [exact Hs|]); [intros c id [X|[]]|intros [X|[]]]; discriminate.
  - inversion H; subst. split; intros Hs; (split; [exact Hs|]); [intros c id []|intros []].
  - inversion H; subst. split; intros Hs; (split; [exact Hs|]); [intros c id []|intros []].
  - unfold handle_packet in H. destruct (found c id m) as [j|]; [apply (st_deliver _ _ _ _ _ _ H)|].
    destruct (if syn then accept c id alloc m else None) as [[[m1 j] l1]|] eqn:A.
    + eapply st_bind; [| |exact H]; [|apply st_deliver]. intros m2 l2 E. inversion E; subst. destruct syn; [|discriminate]. unfold accept in A. destruct (N.odd id); [discriminate|]. destruct (limit m <=? current m); [discriminate|].
      destruct (negb alloc); inversion A; subst. apply st_push; [intros c0 id0 [X|[]]|intros [X|[]]]; discriminate.
    + destruct isrst; [inversion H; subst; apply st_nil|]. inversion H. apply (st_rst _ _ _ _ _ _ _ H1).
  - destruct (get k0 m) as [s|]; [|inversion H; subst; exact U]. destruct (k_virt s); [inversion H; subst; exact U|]. apply (st_events _ _ _ _ _ _ H).
  - destruct (get k0 m) as [s|] eqn:G; [|inversion H; subst; exact U]. destruct (k_posted s); [|inversion H; subst; exact U]. change l with ([] ++ l).
    eapply st_trans; [eapply (st_put k k0 m s (set_posted false s) []); [exact G|auto|auto|auto]|eapply st_bind; [| |exact H]; [apply st_events|apply st_dec]].
  - destruct (get k0 m) as [s|] eqn:G; [|inversion H; subst; exact U]. destruct (k_flying s) eqn:Fl; [|inversion H; subst; exact U]. change l with ([] ++ l).
    eapply st_trans; [eapply (st_put k k0 m s (set_send false false s) []); [exact G|intros []; congruence|auto|auto]|eapply st_bind; [| |exact H]; [apply st_events|apply st_dec]].
  - destruct (rst_fly m) eqn:Fl; inversion H; subst; [|exact U]. split; intros Hs; [destruct Hs; congruence|]. split; [exact Hs|intros []].
  - apply (st_closed _ _ _ _ _ H).
  - unfold open_virtual in H. destruct (_ || _); [inversion H; subst; apply st_refl; [intros c0 id [X|[]]|intros [X|[]]]; discriminate|].
    eapply st_bind; [| |exact H].
    + intros m1 l1 E. inversion E; subst. apply st_push; [intros c0 id [X|[]]|intros [X|[]]]; discriminate.
    + intros m1 m2 l2 E. eapply st_bind; [| |exact E]; [apply st_ready|]. intros m3 m4 l4 E4. cbv beta in E4. destruct (get (next m) m3) as [s|] eqn:G; [|discriminate]. inversion E4; subst.
      eapply st_put; [exact G|auto|intros c0 id [X|[]]; discriminate|intros [X|[]]; discriminate].
  - destruct (get k0 m); inversion H; subst. apply st_nil.
  - destruct (get k0 m) as [s|] eqn:G; [|discriminate]. change l with ([] ++ l). eapply st_trans; [eapply (st_put k k0 m s (set_client false s) []); [exact G|auto|auto|auto]|apply (st_dec _ _ _ _ _ H)].
  - destruct (get k0 m) as [s|] eqn:G; [|discriminate]. destruct (k_virt s); [inversion H; subst; apply st_nil|]. unfold deferred in H. rewrite G in H. cbn [lift] in H. destruct (k_stopped s); inversion H; subst; [apply st_nil|].
    eapply st_post; [exact G|auto].
  - apply (st_stop _ _ _ _ _ _ H).
  - apply (st_destroy _ _ _ _ _ _ H).
Qed.
Lemma run_stuck : forall k n h h' m, after n h = Some m ->
  (rst_stuck m -> forall c id, ~ In (RstSent c id) (outs (skipn (length h) (trace n (h ++ h'))))) /\ (pkt_stuck k m -> ~ In (PacketSent k) (outs (skipn (length h) (trace n (h ++ h'))))).
Proof.
  intros k n h h' m A. assert (E : skipn (length h) (trace n (h ++ h')) = snd (run (Some m) h')).
  { unfold after in A. unfold trace. rewrite run_app, A. cbn [snd]. assert (L : length (snd (run (Some (init n)) h)) = length h) by (rewrite <- (ops_trace n h) at 2; unfold ops, trace; rewrite map_length; reflexivity).
    rewrite <- L. rewrite skipn_app, skipn_all, Nat.sub_diag. reflexivity. }
  rewrite E. clear A E. revert m. induction h' as [|o h' IH]; intros m; [split; [intros _ c id []|intros _ []]|]. cbn [run]. destruct (step o m) as [[m1 l1]|] eqn:S.
  - destruct (step_stuck k _ _ _ _ S) as (S1 & S2). destruct (IH m1) as (I1 & I2). destruct (run (Some m1) h') as [x t]. cbn [snd] in *. unfold outs. cbn [flat_map snd]. split.
    + intros H c id X. destruct (S1 H) as (Y & Z). apply in_app_or in X. destruct X as [X|X]; [apply (Z c id X)|apply (I1 Y c id X)].
    + intros H X. destruct (S2 H) as (Y & Z). apply in_app_or in X. destruct X as [X|X]; [apply (Z X)|apply (I2 Y X)].
  - rewrite run_none. cbn [snd]. unfold outs. cbn [flat_map snd app]. assert (Z : flat_map snd (map (fun o : op => (o, @nil out)) h') = []) by (clear; induction h'; auto). rewrite Z. split; [intros _ c id []|intros _ []].
Qed.

(** * Who is offered a stream. *)
Definition no_offer (l : list out) : Prop := forall l0 k, ~ In (Offered l0 k) l.
Lemma no_offer_app : forall l l', no_offer l -> no_offer l' -> no_offer (l ++ l').
Proof. intros l l' A B l0 k X. apply in_app_or in X. destruct X; [apply (A l0 k)|apply (B l0 k)]; assumption. Qed.
Lemma dec_offer : forall k m m' l, dec k m = Some (m', l) -> no_offer l.
Proof. intros k m m' l H l0 j X. unfold dec in H. destruct (get k m) as [s|]; [|discriminate]. destruct (k_refs s) as [|[|n]]; inversion H; subst; [destruct X as [X|[]]; discriminate|destruct X]. Qed.
Lemma stop_offer : forall k r m m' l, stop k r m = Some (m', l) -> no_offer l.
Proof.
  intros k r m m' l H. unfold stop in H. destruct (get k m) as [s|]; [|discriminate]. destruct (k_stopped s); [inversion H; intros l0 j []|].
  assert (R : forall c id r m, no_offer (snd (send_rst c id r m))) by (intros c id r0 m0 l0 j; unfold send_rst; destruct (rst_busy m0); [intros []|destruct r0; cbn; intros X; intuition discriminate]).
  assert (E1 : no_offer [Ended k]) by (intros l0 j [X|[]]; discriminate).
  destruct (k_virt s); [inversion H; apply E1|]. destruct r as [r|]; [|inversion H; apply E1]. destruct (k_conn s) as [[c|c]|]; [|inversion H; apply E1|inversion H; apply E1].
  specialize (R c (k_id s) r m). destruct (send_rst _ _ _ _) as [m1 l1]. inversion H; subst. apply no_offer_app; [exact R|exact E1].
Qed.
Lemma remove_offer : forall k m m' l, remove k m = Some (m', l) -> no_offer l.
Proof. intros k m m' l H. unfold remove in H. destruct (get k m) as [s|]; [|discriminate]. destruct (k_listed s); [|discriminate]. apply (dec_offer _ _ _ _ H). Qed.
Lemma bind_offer : forall x f m' l, (forall m1 l1, x = Some (m1, l1) -> no_offer l1) -> (forall m1 m2 l2, f m1 = Some (m2, l2) -> no_offer l2) -> bind x f = Some (m', l) -> no_offer l.
Proof. intros x f m' l Hx Hf H. unfold bind in H. destruct x as [[m1 l1]|]; [|discriminate]. destruct (f m1) as [[m2 l2]|] eqn:E; inversion H; subst. apply no_offer_app; eauto. Qed.
Lemma destroy_offer : forall k r m m' l, destroy k r m = Some (m', l) -> no_offer l.
Proof.
  intros k r m m' l H. unfold destroy in H. destruct (get k m) as [s|]; [|discriminate]. eapply bind_offer; [| |exact H]; [apply stop_offer|].
  intros m1 m2 l2 E. eapply bind_offer; [| |exact E]; [apply remove_offer|apply dec_offer].
Qed.
Lemma ready_offer : forall k p t r m m' l l0 j, ready k p t r m = Some (m', l) -> In (Offered l0 j) l -> j = k /\ In (l0, p) (listeners m).
Proof.
  intros k p t r m m' l l0 j H X. unfold ready in H. destruct (get k m) as [s|]; [|discriminate]. set (s1 := set_accepted _) in H.
  destruct (find _ (listeners m)) as [[l1 p1]|] eqn:F.
  - apply find_some in F. destruct F as [F1 F2]. cbn in F2. apply N.eqb_eq in F2. subst p1. destruct t.
    + inversion H; subst. destruct X as [X|[X|[]]]; inversion X; subst; auto.
    + unfold bind in H. destruct (destroy k r _) as [[m2 l2]|] eqn:E; inversion H; subst. destruct X as [X|X]; [inversion X; subst; auto|]. destruct (destroy_offer _ _ _ _ _ E l0 j X).
  - destruct (destroy_offer _ _ _ _ _ H l0 j X).
Qed.
Lemma send_offer : forall k e o m m' l, send_packet k e o m = Some (m', l) -> no_offer l.
Proof.
  intros k e o m m' l H l0 j X. unfold send_packet in H. destruct (get k m) as [s|]; [|discriminate]. destruct (k_conn s); [|inversion H; subst; destruct X].
  destruct (k_sending s); [inversion H; subst; destruct X|]. destruct e; [inversion H; subst; destruct X|]. destruct o; inversion H; subst; [destruct X as [X|[]]; discriminate|destruct X].
Qed.
Lemma events_offer : forall k evs m m' l l0 j, events k evs m = Some (m', l) -> In (Offered l0 j) l -> j = k /\ exists p, existsb (accepts p) evs = true /\ In (l0, p) (listeners m).
Proof.
  intros k evs. induction evs as [|e evs IH]; intros m m' l l0 j H X; cbn [events] in H; destruct (get k m) as [s|]; try discriminate; destruct (k_stopped s); try (inversion H; subst; destruct X; fail).
  assert (L : forall m1, listeners m1 = listeners m -> (j = k /\ exists p, existsb (accepts p) evs = true /\ In (l0, p) (listeners m1)) -> j = k /\ exists p, existsb (accepts p) (e :: evs) = true /\ In (l0, p) (listeners m)).
  { intros m1 -> (Y & p & Y1 & Y2). split; [exact Y|]. exists p. split; [cbn [existsb]; rewrite Y1; apply orb_true_r|exact Y2]. }
  destruct e as [p t r|e o| |].
  - destruct (k_accepted s); [apply (L m eq_refl); eapply IH; eassumption|]. unfold bind in H. destruct (ready k p t r m) as [[m1 l1]|] eqn:R; [|discriminate]. destruct (events k evs m1) as [[m2 l2]|] eqn:E; inversion H; subst.
    apply in_app_or in X. destruct X as [X|X]; [|apply (L m1 (t_list _ _ _ _ (tou_ready _ _ _ _ _ _ _ R))); eapply IH; eassumption].
    destruct (ready_offer _ _ _ _ _ _ _ _ _ R X) as (Y1 & Y2). split; [exact Y1|]. exists p. split; [cbn; rewrite N.eqb_refl; reflexivity|exact Y2].
  - destruct (send_offer _ _ _ _ _ _ H l0 j X).
  - apply (L m eq_refl). eapply IH; eassumption.
  - inversion H; subst. destruct X.
Qed.
Lemma step_offer : forall o m m' l l0 k, step o m = Some (m', l) -> In (Offered l0 k) l -> exists p, offered_ports o p = true /\ In (l0, p) (listeners m).
Proof.
  intros o m m' l l0 k H X. destruct o; cbn [step] in H; cbn [offered_ports].
  - unfold listen in H. destruct (if (type =? 0)%N then _ else _) as [p|]; [destruct (in_use p m)|]; inversion H; subst; destruct X as [X|[]]; discriminate.
  - inversion H; subst. destruct X.
  - inversion H; subst. destruct X.
  - assert (Dl : forall j m1, listeners m1 = listeners m -> forall m2 l2, deliver j evs m1 = Some (m2, l2) -> In (Offered l0 k) l2 -> exists p, existsb (accepts p) evs = true /\ In (l0, p) (listeners m)).
    { clear. intros j m1 E m2 l2 H X. unfold deliver in H. unfold bind at 1 in H. destruct (lift (inc j m1)) as [[m3 l3]|] eqn:I3; [|discriminate]. pose proof (tou_inc _ _ _ _ I3) as T3.
      assert (l3 = []) by (unfold inc in I3; destruct (get j m1); inversion I3; reflexivity). subst l3. unfold bind in H. destruct (events j evs m3) as [[m4 l4]|] eqn:E4; [|discriminate]. destruct (dec j m4) as [[m5 l5]|] eqn:E5; inversion H; subst.
      cbn [app] in X. apply in_app_or in X. destruct X as [X|X]; [|destruct (dec_offer _ _ _ _ E5 l0 k X)]. destruct (events_offer _ _ _ _ _ _ _ E4 X) as (_ & p & P1 & P2). exists p. split; [exact P1|]. rewrite <- E, <- (t_list _ _ _ _ T3). exact P2. }
    unfold handle_packet in H. destruct (found c id m) as [j|]; [apply (Dl j m eq_refl _ _ H X)|].
    destruct (if syn then accept c id alloc m else None) as [[[m1 j] l1]|] eqn:A.
    + destruct syn; [|discriminate]. unfold accept in A. destruct (N.odd id); [discriminate|]. destruct (limit m <=? current m); [discriminate|]. destruct (negb alloc); inversion A; subst.
      unfold bind in H. destruct (deliver (next m) evs _) as [[m2 l2]|] eqn:E2; inversion H; subst. destruct X as [X|X]; [discriminate|]. refine (Dl _ _ _ _ _ E2 X). reflexivity.
    + destruct isrst; [inversion H; subst; destruct X|]. inversion H as [H1]. unfold send_rst in H1. destruct (rst_busy m); [inversion H1; subst; destruct X|]. destruct r; inversion H1; subst; try destruct X as [X|[]]; try discriminate; destruct X.
  - destruct (get k0 m) as [s|]; [|inversion H; subst; destruct X as [X|[]]; discriminate]. destruct (k_virt s); [inversion H; subst; destruct X as [X|[]]; discriminate|]. apply (events_offer _ _ _ _ _ _ _ H X).
  - destruct (get k0 m) as [s|]; [|inversion H; subst; destruct X as [X|[]]; discriminate]. destruct (k_posted s); [|inversion H; subst; destruct X as [X|[]]; discriminate].
    unfold bind in H. destruct (events k0 evs _) as [[m4 l4]|] eqn:E4; [|discriminate]. destruct (dec k0 m4) as [[m5 l5]|] eqn:E5; inversion H; subst. apply in_app_or in X. destruct X as [X|X]; [|destruct (dec_offer _ _ _ _ E5 l0 k X)]. apply (events_offer _ _ _ _ _ _ _ E4 X).
  - destruct (get k0 m) as [s|]; [|inversion H; subst; destruct X as [X|[]]; discriminate]. destruct (k_flying s); [|inversion H; subst; destruct X as [X|[]]; discriminate].
    unfold bind in H. destruct (events k0 evs _) as [[m4 l4]|] eqn:E4; [|discriminate]. destruct (dec k0 m4) as [[m5 l5]|] eqn:E5; inversion H; subst. apply in_app_or in X. destruct X as [X|X]; [|destruct (dec_offer _ _ _ _ E5 l0 k X)]. apply (events_offer _ _ _ _ _ _ _ E4 X).
  - destruct (rst_fly m); inversion H; subst; [destruct X|destruct X as [X|[]]; discriminate].
  - exfalso. remember (of_conn c m) as ks eqn:Hk. clear Hk. revert m m' l H X. induction ks as [|j ks IH]; intros m m' l H X; cbn [conn_closed] in H; [inversion H; subst; destruct X|].
    unfold bind at 1 in H. destruct (conn_closed1 j m) as [[m1 l1]|] eqn:E1; [|discriminate]. destruct (conn_closed ks m1) as [[m2 l2]|] eqn:E2; inversion H; subst. apply in_app_or in X. destruct X as [X|X]; [|eapply IH; eassumption].
    clear -E1 X. unfold conn_closed1 in E1. destruct (get j m) as [s|]; [|discriminate]. assert (N : no_offer l1); [|destruct (N l0 k X)]. eapply bind_offer; [| |exact E1].
    + intros m3 l3 E. unfold inc in E. destruct (get j m); inversion E. intros a b [].
    + intros m3 m4 l4 E. eapply bind_offer; [| |exact E]; [|apply dec_offer]. intros m5 l5 E5. destruct (k_stopped s); [inversion E5; intros a b []|]. eapply bind_offer; [| |exact E5]; [apply stop_offer|].
      intros m6 m7 l7 E7. destruct (k_accepted s); [inversion E7; intros a b []|apply (remove_offer _ _ _ _ E7)].
  - unfold open_virtual in H. destruct (_ || _); [inversion H; subst; destruct X as [X|[]]; discriminate|]. unfold bind in H. destruct (ready (next m) port take None _) as [[m1 l1]|] eqn:R; [|discriminate].
    destruct (get (next m) m1); inversion H; subst. destruct X as [X|X]; [discriminate|]. apply in_app_or in X. destruct X as [X|[X|[]]]; [|discriminate]. destruct (ready_offer _ _ _ _ _ _ _ _ _ R X) as (_ & Y). exists port. rewrite N.eqb_refl. split; [reflexivity|exact Y].
  - destruct (get k0 m); inversion H; subst. destruct X.
  - destruct (get k0 m) as [s|]; [|discriminate]. destruct (dec_offer _ _ _ _ H l0 k X).
  - destruct (get k0 m) as [s|] eqn:G; [|discriminate]. destruct (k_virt s); [inversion H; subst; destruct X|]. unfold deferred in H. rewrite G in H. cbn [lift] in H. inversion H; subst. destruct X.
  - destruct (stop_offer _ _ _ _ _ H l0 k X).
  - destruct (destroy_offer _ _ _ _ _ H l0 k X).
Qed.
(** * Pending callbacks run. *)
Lemma dec_get : forall k m m' l s, dec k m = Some (m', l) -> get k m = Some s -> (exists n, k_refs s = S (S n) /\ l = [] /\ get k m' = Some (set_refs (S n) s)) \/ (l = [Freed k] /\ get k m' = None).
Proof.
  intros k m m' l s H G. unfold dec in H. rewrite G in H. destruct (k_refs s) as [|[|n]] eqn:R; [discriminate| |].
  - right. inversion H; subst. split; [reflexivity|]. apply get_none. unfold with_current, with_heap. cbn [heap]. intros X. apply in_map_iff in X. destruct X as (x & X1 & X2). apply filter_In in X2. rewrite X1, Nat.eqb_refl in X2. destruct X2. discriminate.
  - left. exists n. inversion H; subst. split; [reflexivity|]. split; [reflexivity|]. apply (get_put_same _ _ _ _ G).
Qed.
Lemma events_nil : forall k m s, get k m = Some s -> events k [] m = Some (m, []).
Proof. intros k m s G. cbn [events]. rewrite G. destruct (k_stopped s); reflexivity. Qed.
Lemma done_nil : forall k m m' l, step (SendDone k []) m = Some (m', l) ->
  (l = [Unhandled] /\ m' = m /\ (forall s, get k m = Some s -> k_flying s = false)) \/
  (exists s, get k m = Some s /\ k_flying s = true /\ ((l = [Freed k] /\ get k m' = None) \/ (l = [] /\ exists n, get k m' = Some (set_refs n (set_send false false s))))).
Proof.
  intros k m m' l H. cbn [step] in H. destruct (get k m) as [s|] eqn:G; [|left; inversion H; subst; split; [reflexivity|]; split; [reflexivity|]; intros s X; congruence].
  destruct (k_flying s) eqn:Fl; [|left; inversion H; subst; split; [reflexivity|]; split; [reflexivity|]; intros s' X; congruence].
  right. exists s. split; [reflexivity|]. split; [exact Fl|]. assert (G1 := get_put_same _ (set_send false false s) _ _ G). rewrite (events_nil _ _ _ G1) in H. unfold bind in H.
  destruct (dec k (put k (set_send false false s) m)) as [[m1 l1]|] eqn:E; inversion H; subst. cbn [app]. destruct (dec_get _ _ _ _ _ E G1) as [(n & _ & -> & X)|(-> & X)]; [right; split; [reflexivity|]; eauto|left; auto].
Qed.
Lemma posted_nil : forall k m m' l, step (Posted k []) m = Some (m', l) ->
  (l = [Unhandled] /\ m' = m /\ (forall s, get k m = Some s -> k_posted s = false)) \/
  (exists s, get k m = Some s /\ k_posted s = true /\ ((l = [Freed k] /\ get k m' = None) \/ (l = [] /\ exists n, get k m' = Some (set_refs n (set_posted false s))))).
Proof.
  intros k m m' l H. cbn [step] in H. destruct (get k m) as [s|] eqn:G; [|left; inversion H; subst; split; [reflexivity|]; split; [reflexivity|]; intros s X; congruence].
  destruct (k_posted s) eqn:Fl; [|left; inversion H; subst; split; [reflexivity|]; split; [reflexivity|]; intros s' X; congruence].
  right. exists s. split; [reflexivity|]. split; [exact Fl|]. assert (G1 := get_put_same _ (set_posted false s) _ _ G). rewrite (events_nil _ _ _ G1) in H. unfold bind in H.
  destruct (dec k (put k (set_posted false s) m)) as [[m1 l1]|] eqn:E; inversion H; subst. cbn [app]. destruct (dec_get _ _ _ _ _ E G1) as [(n & _ & -> & X)|(-> & X)]; [right; split; [reflexivity|]; eauto|left; auto].
Qed.
