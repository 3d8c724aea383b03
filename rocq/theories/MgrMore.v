(** Steps and runs of the stream manager. *)
From Coq Require Import List Bool Arith NArith Lia.
From Verif Require Import MgrModel MgrSpec MgrProofs.
Import ListNotations.

(** What a function which works on one stream leaves alone. *)
Definition plain (l : list out) : Prop := Forall (fun x => match x with Listening _ _ => False | _ => True end) l.
Record tou (k : nat) (m m' : mgr) (l : list out) : Prop := {
  t_other : forall j, j <> k -> get j m' = get j m;
  t_same : forall s', get k m' = Some s' -> exists s, get k m = Some s /\ (k_accepted s = true -> k_accepted s' = true) /\ k_virt s' = k_virt s;
  t_list : listeners m' = listeners m;
  t_limit : limit m' = limit m;
  t_next : next m' = next m;
  t_plain : plain l }.
Lemma tou_refl : forall k m, tou k m m [].
Proof. intros. constructor; auto; [eauto|constructor]. Qed.
Lemma tou_trans : forall k m m1 m2 l1 l2, tou k m m1 l1 -> tou k m1 m2 l2 -> tou k m m2 (l1 ++ l2).
Proof.
  intros k m m1 m2 l1 l2 [] []. constructor; try congruence.
  - intros j N. rewrite t_other1, t_other0 by exact N. reflexivity.
  - intros s' H. destruct (t_same1 _ H) as (s1 & A1 & A2 & A3). destruct (t_same0 _ A1) as (s & B1 & B2 & B3). exists s. split; [exact B1|]. split; [auto|congruence].
  - apply Forall_app. auto.
Qed.
Lemma tou_put : forall k m s s' l, get k m = Some s -> (k_accepted s = true -> k_accepted s' = true) -> k_virt s' = k_virt s -> plain l -> tou k m (put k s' m) l.
Proof.
  intros k m s s' l G A V P. constructor; auto.
  - intros j N. apply get_put_other. exact N.
  - intros s0 H. rewrite (get_put_same _ _ _ _ G) in H. inversion H; subst. eauto.
Qed.
Lemma tou_dec : forall k m m' l, dec k m = Some (m', l) -> tou k m m' l.
Proof.
  intros k m m' l H. unfold dec in H. destruct (get k m) as [s|] eqn:G; [|discriminate]. destruct (k_refs s) as [|[|n]]; [discriminate| |].
  - inversion H; subst. constructor; auto; [| |repeat constructor].
    + intros j N. unfold get, with_current, with_heap. cbn [heap]. f_equal. clear H G. induction (heap m) as [|y h IH]; [reflexivity|]. cbn [filter find]. destruct (Nat.eqb_spec (fst y) k); cbn [negb].
      * destruct (Nat.eqb_spec (fst y) j); [congruence|exact IH].
      * cbn [find]. destruct (fst y =? j); [reflexivity|exact IH].
    + intros s' X. exfalso. apply get_in in X. unfold with_current, with_heap in X. cbn [heap] in X. apply filter_In in X. cbn in X. rewrite Nat.eqb_refl in X. destruct X. discriminate.
  - inversion H; subst. eapply tou_put; eauto; constructor.
Qed.
Lemma tou_bind : forall k m x f m' l, (forall m1 l1, x = Some (m1, l1) -> tou k m m1 l1) -> (forall m1 m2 l2, f m1 = Some (m2, l2) -> tou k m1 m2 l2) -> bind x f = Some (m', l) -> tou k m m' l.
Proof.
  intros k m x f m' l Hx Hf H. unfold bind in H. destruct x as [[m1 l1]|]; [|discriminate]. destruct (f m1) as [[m2 l2]|] eqn:E; inversion H; subst. eapply tou_trans; eauto.
Qed.
Lemma tou_rst : forall k m c id r m' l, send_rst c id r m = (m', l) -> tou k m m' l.
Proof.
  intros k m c id r m' l H. unfold send_rst in H. destruct (rst_busy m); [inversion H; subst; apply tou_refl|]. destruct r; inversion H; subst; [apply tou_refl| |];
  (constructor; auto; [intros s' X; exists s'; auto|repeat constructor]).
Qed.
Lemma tou_stop : forall k m r m' l, stop k r m = Some (m', l) -> tou k m m' l.
Proof.
  intros k m r m' l H. unfold stop in H. destruct (get k m) as [s|] eqn:G; [|discriminate]. destruct (k_stopped s); [inversion H; subst; apply tou_refl|].
  set (q := match k_virt s with true => _ | false => _ end) in H. assert (Q : tou k m (fst q) (snd q)).
  { subst q. destruct (k_virt s); [apply tou_refl|]. destruct r as [r|]; [|apply tou_refl]. destruct (k_conn s) as [[c|c]|]; [|apply tou_refl|apply tou_refl].
    destruct (send_rst c (k_id s) r m) as [m1 l1] eqn:E. apply (tou_rst _ _ _ _ _ _ _ E). }
  assert (Qh : heap (fst q) = heap m).
  { subst q. destruct (k_virt s); [reflexivity|]. destruct r as [r|]; [|reflexivity]. destruct (k_conn s) as [[c|c]|]; [|reflexivity|reflexivity]. unfold send_rst. destruct (rst_busy m); [reflexivity|]. destruct r; reflexivity. }
  destruct q as [m1 l1]. cbn [fst snd] in *. inversion H; subst. eapply tou_trans; [exact Q|]. eapply tou_put; [rewrite (get_heap _ _ _ Qh); exact G|auto|reflexivity|repeat constructor].
Qed.
Lemma tou_remove : forall k m m' l, remove k m = Some (m', l) -> tou k m m' l.
Proof.
  intros k m m' l H. unfold remove in H. destruct (get k m) as [s|] eqn:G; [|discriminate]. destruct (k_listed s); [|discriminate].
  change l with ([] ++ l). eapply tou_trans; [|apply tou_dec; exact H]. eapply tou_put; [exact G|auto|reflexivity|constructor].
Qed.
Lemma tou_destroy : forall k r m m' l, destroy k r m = Some (m', l) -> tou k m m' l.
Proof.
  intros k r m m' l H. unfold destroy in H. destruct (get k m) as [s|] eqn:G; [|discriminate].
  change l with ([] ++ l). eapply tou_trans; [eapply tou_put; [exact G| | |constructor]|]. 3: {
    eapply tou_bind; [| |exact H]; [apply tou_stop|]. intros m1 m2 l2 E. eapply tou_bind; [| |exact E]; [apply tou_remove|apply tou_dec]. }
  - auto.
  - reflexivity.
Qed.
Lemma ready_accepted : forall k p t r m m' l s', ready k p t r m = Some (m', l) -> get k m' = Some s' -> k_accepted s' = true.
Proof.
  intros k p t r m m' l s' H G'. unfold ready in H. destruct (get k m) as [s|] eqn:G; [|discriminate]. set (s1 := set_accepted _) in H.
  assert (G1 : get k (put k s1 m) = Some s1) by apply (get_put_same _ _ _ _ G).
  assert (X : forall l0, destroy k r (put k s1 m) = Some (m', l0) -> k_accepted s' = true).
  { intros l0 E. destruct (t_same _ _ _ _ (tou_destroy _ _ _ _ _ E) _ G') as (a & A1 & A2 & _). apply A2. rewrite G1 in A1. inversion A1; subst. reflexivity. }
  destruct (find _ (listeners m)) as [[l0 p0]|]; [destruct t|]; [|unfold bind in H; destruct (destroy k r (put k s1 m)) as [[m2 l2]|] eqn:E; inversion H; subst; eapply X; reflexivity|eapply X; exact H].
  inversion H; subst. rewrite (get_put_same _ _ _ _ G) in G'. inversion G'; subst. reflexivity.
Qed.
Lemma tou_ready : forall k p t r m m' l, ready k p t r m = Some (m', l) -> tou k m m' l.
Proof.
  intros k p t r m m' l H. unfold ready in H. destruct (get k m) as [s|] eqn:G; [|discriminate]. set (s1 := set_accepted _) in H.
  assert (P : tou k m (put k s1 m) []) by (eapply tou_put; [exact G|auto|reflexivity|constructor]).
  destruct (find _ (listeners m)) as [[l0 p0]|]; [destruct t|].
  - inversion H; subst. eapply tou_put; [exact G|auto|reflexivity|repeat constructor].
  - eapply tou_bind; [| |exact H]; [|apply tou_destroy]. intros m1 l1 E. inversion E; subst. eapply tou_put; [exact G|auto|reflexivity|repeat constructor].
  - change l with ([] ++ l). eapply tou_trans; [exact P|apply (tou_destroy _ _ _ _ _ H)].
Qed.
Lemma tou_post : forall k m s s0, get k m = Some s0 -> k_accepted s = k_accepted s0 -> k_virt s = k_virt s0 -> tou k m (post k s m) [].
Proof. intros k m s s0 G A Vs. unfold post. destruct (k_posted s); [apply tou_refl|]. eapply tou_put; [exact G|cbn; congruence|cbn; congruence|constructor]. Qed.
Lemma tou_send : forall k e o m m' l, send_packet k e o m = Some (m', l) -> tou k m m' l.
Proof.
  intros k e o m m' l H. unfold send_packet in H. destruct (get k m) as [s|] eqn:G; [|discriminate].
  destruct (k_conn s); [|inversion H; subst; eapply tou_post; [exact G|reflexivity|reflexivity]].
  destruct (k_sending s); [inversion H; subst; apply tou_refl|]. destruct e; [inversion H; subst; apply tou_refl|]. destruct o; inversion H; subst.
  - eapply tou_put; [exact G|auto|reflexivity|repeat constructor].
  - change (@nil out) with (@nil out ++ []). eapply tou_trans; [eapply tou_put; [exact G| | |constructor]|eapply tou_post; [apply (get_put_same _ _ _ _ G)|reflexivity|reflexivity]]; auto.
Qed.
Lemma tou_events : forall k evs m m' l, events k evs m = Some (m', l) -> tou k m m' l.
Proof.
  intros k evs. induction evs as [|e evs IH]; intros m m' l H; cbn [events] in H; destruct (get k m) as [s|] eqn:G; try discriminate; destruct (k_stopped s); try (inversion H; subst; apply tou_refl).
  destruct e as [p t r|e o| |].
  - destruct (k_accepted s); [auto|]. eapply tou_bind; [| |exact H]; [apply tou_ready|auto].
  - apply (tou_send _ _ _ _ _ _ H).
  - auto.
  - inversion H; subst; apply tou_refl.
Qed.
Lemma tou_inc : forall k m m' l, lift (inc k m) = Some (m', l) -> tou k m m' l.
Proof. intros k m m' l H. unfold inc in H. destruct (get k m) as [s|] eqn:G; inversion H; subst. eapply tou_put; [exact G|auto|reflexivity|constructor]. Qed.
Lemma tou_deliver : forall k evs m m' l, deliver k evs m = Some (m', l) -> tou k m m' l.
Proof.
  intros k evs m m' l H. unfold deliver in H. eapply tou_bind; [| |exact H]; [apply tou_inc|]. intros m1 m2 l2 E. eapply tou_bind; [| |exact E]; [apply tou_events|apply tou_dec].
Qed.
Lemma tou_closed1 : forall k m m' l, conn_closed1 k m = Some (m', l) -> tou k m m' l.
Proof.
  intros k m m' l H. unfold conn_closed1 in H. destruct (get k m) as [s|] eqn:G; [|discriminate].
  eapply tou_bind; [| |exact H]; [apply tou_inc|]. intros m1 m2 l2 E. eapply tou_bind; [| |exact E]; [|apply tou_dec].
  intros m3 l3 E3. destruct (k_stopped s); [inversion E3; subst; apply tou_refl|]. eapply tou_bind; [| |exact E3]; [apply tou_stop|].
  intros m4 m5 l5 E5. destruct (k_accepted s); [inversion E5; subst; apply tou_refl|apply (tou_remove _ _ _ _ E5)].
Qed.

Section Step.
Variable B : Prop.
Notation Inv := (Inv B).

Definition fair_b (o : op) (g : list out) (D V : nat -> bool) : bool :=
  match o with
  | Use k | Abort k _ | Destroy k _ => tk k g && negb (D k)
  | VUse k | VFree k => vo k g && negb (V k)
  | Timer _ evs => negb (existsb offers evs)
  | _ => true
  end.
Definition nextD (o : op) (D : nat -> bool) : nat -> bool := match o with Destroy k _ => upd k D | _ => D end.
Definition nextV (o : op) (V : nat -> bool) : nat -> bool := match o with VFree k => upd k V | _ => V end.

Lemma owned_get : forall k g D V m, Inv k 0 false g D V m -> tk k g && negb (D k) = true -> exists s, get k m = Some s /\ k_app s = true.
Proof.
  intros k g D V m I T. pose proof (i_all _ _ _ _ _ _ _ _ I k) as X. unfold at_ in X. destruct (get k m) as [s|]; [|destruct X as (_ & X & _); congruence].
  exists s. split; [reflexivity|]. destruct X as (_ & _ & X). destruct X. congruence.
Qed.
Lemma held_get2 : forall k g D V m, Inv k 0 false g D V m -> vo k g && negb (V k) = true -> exists s, get k m = Some s /\ k_client s = true.
Proof.
  intros k g D V m I T. pose proof (i_all _ _ _ _ _ _ _ _ I k) as X. unfold at_ in X. destruct (get k m) as [s|]; [|destruct X as (_ & _ & X & _); congruence].
  exists s. split; [reflexivity|]. destruct X as (_ & _ & X). destruct X. congruence.
Qed.
Lemma not_stopped : forall k d w g D V m s c, Inv k d w g D V m -> get k m = Some s -> k_conn s = Some c -> k_stopped s = false /\ k_listed s = true.
Proof. intros k d w g D V m s c I G C. destruct (good_of _ _ _ _ _ _ _ _ _ I G) as (_ & _ & X). destruct X. rewrite C in g_conn. cbn in g_conn. split; [congruence|apply g_run; congruence]. Qed.
Lemma client_not_virt : forall k d w g D V m s c, Inv k d w g D V m -> get k m = Some s -> k_conn s = Some (Client c) -> k_virt s = false.
Proof. intros k d w g D V m s c I G C. destruct (good_of _ _ _ _ _ _ _ _ _ I G) as (_ & _ & X). destruct X. rewrite C in g_client. apply g_client. reflexivity. Qed.
Lemma of_client_true : forall c x, of_client c x = true -> x = Some (Client c).
Proof. intros c [[c'|c']|] H; try discriminate. cbn in H. apply Nat.eqb_eq in H. congruence. Qed.
Lemma found_some : forall c id m k, NoDup (map fst (heap m)) -> found c id m = Some k -> exists s, get k m = Some s /\ k_conn s = Some (Client c) /\ k_id s = id.
Proof.
  intros c id m k N H. unfold found in H. destruct (find _ _) as [[k' s]|] eqn:F; inversion H; subst. apply find_some in F. destruct F as [F1 F2]. cbn [snd] in F2.
  apply andb_prop in F2. destruct F2 as [F2 F3]. apply andb_prop in F2. destruct F2 as [F2 F4]. exists s. split; [apply in_get; assumption|]. split; [apply of_client_true; assumption|apply N.eqb_eq; assumption].
Qed.
Lemma found_none : forall c id m k s, found c id m = None -> get k m = Some s -> k_conn s = Some (Client c) -> k_listed s = true -> k_id s <> id.
Proof.
  intros c id m k s H G C L E. unfold found in H. destruct (find _ _) as [x|] eqn:F; [discriminate|]. pose proof (find_none _ _ F _ (get_in _ _ _ G)) as X. cbn [snd] in X.
  rewrite L, E, N.eqb_refl, C in X. cbn in X. rewrite Nat.eqb_refl in X. discriminate.
Qed.
Definition fresh (c : nat) (id : N) : stream := set_refs 1 {| k_id := id; k_conn := Some (Client c); k_refs := 0; k_virt := false; k_accepted := false; k_stopped := false; k_listed := true; k_sending := false; k_flying := false; k_posted := false; k_app := false; k_client := false |}.
Lemma accept_inv : forall c id alloc m m' k l g D V, Inv 0 0 false g D V m -> found c id m = None -> accept c id alloc m = Some (m', k, l) ->
  k = next m /\ l = [Opened k c id] /\ m' = push (fresh c id) m /\ Inv k 0 false (g ++ l) D V m' /\ get k m' = Some (fresh c id) /\ current m < limit m.
Proof.
  intros c id alloc m m' k l g D V I F H. unfold accept in H. destruct (N.odd id) eqn:O; [discriminate|]. destruct (limit m <=? current m) eqn:Li; [discriminate|]. destruct alloc; [|discriminate]. cbn [negb] in H.
  inversion H; subst. clear H. apply Nat.leb_gt in Li. apply (rekey _ 0 (next m)) in I.
  destruct (push_inv B g D V m (fresh c id) (Opened (next m) c id) I) as (I1 & G1).
  - constructor; cbn; auto; try lia; try discriminate.
  - right. exists c. split; [reflexivity|]. split; [reflexivity|]. split; [reflexivity|]. intros j a G C. cbn [fresh k_id set_refs].
    apply (found_none _ _ _ _ _ F G C). apply (rekey _ _ j) in I. apply (not_stopped _ _ _ _ _ _ _ _ _ I G C).
  - auto 10.
Qed.
Lemma packet_inv : forall c id syn isrst alloc r evs m g D V, Inv 0 0 false g D V m -> (B -> bad_op (Packet c id syn isrst alloc r evs) = false) ->
  exists m' l, handle_packet c id syn isrst alloc r evs m = Some (m', l) /\ Inv 0 0 false (g ++ l) D V m'.
Proof.
  intros c id syn isrst alloc r evs m g D V I Bb. cbn [bad_op] in Bb.
  assert (Be : B -> existsb bad_ev evs = false) by (intros b; specialize (Bb b); apply orb_false_iff in Bb; apply Bb).
  assert (Br : B -> r <> Failed) by (intros b ->; specialize (Bb b); discriminate).
  unfold handle_packet. destruct (found c id m) as [k|] eqn:F.
  - destruct (found_some _ _ _ _ (i_nd _ _ _ _ _ _ _ _ I) F) as (s & G & C & _). apply (rekey _ _ k) in I.
    destruct (deliver_inv B evs k g D V m s I G (client_not_virt _ _ _ _ _ _ _ _ _ I G C) Be) as (m1 & l1 & E1 & I1). exists m1, l1. split; [exact E1|]. apply (rekey _ _ 0 _ _ _ _ I1).
  - destruct (if syn then accept c id alloc m else None) as [[[m1 k] l1]|] eqn:A.
    + destruct syn; [|discriminate]. destruct (accept_inv _ _ _ _ _ _ _ _ _ _ I F A) as (_ & _ & _ & I1 & G1 & _).
      destruct (deliver_inv B evs k _ D V m1 _ I1 G1 eq_refl Be) as (m2 & l2 & E2 & I2). exists m2, (l1 ++ l2). split; [apply (bind_some _ _ _ _ _ _ eq_refl E2)|]. rewrite app_assoc. apply (rekey _ _ 0 _ _ _ _ I2).
    + destruct isrst; [exists m, []; split; [reflexivity|apply nil_inv; exact I]|]. destruct (send_rst c id r m) as [m1 l1] eqn:E. exists m1, l1. split; [reflexivity|]. apply (send_rst_inv _ _ _ _ _ _ _ _ _ _ _ I Br _ _ E).
Qed.
Lemma closed1_inv : forall k m g D V s c, Inv 0 0 false g D V m -> get k m = Some s -> k_conn s = Some (Client c) -> exists m' l, conn_closed1 k m = Some (m', l) /\ Inv 0 0 false (g ++ l) D V m'.
Proof.
  intros k m g D V s c I G C. apply (rekey _ _ k) in I. destruct (not_stopped _ _ _ _ _ _ _ _ _ I G C) as (Ss & Ls). unfold conn_closed1. rewrite G, Ss.
  destruct (good_of _ _ _ _ _ _ _ _ _ I G) as (_ & _ & X).
  destruct (inc_inv _ _ _ _ _ _ _ _ _ I G) as (E0 & I0). rewrite E0. cbn [lift]. assert (G0 := get_put_same _ (set_refs (S (k_refs s)) s) _ _ G).
  assert (W : k_app (set_refs (S (k_refs s)) s) = true \/ k_stopped (set_refs (S (k_refs s)) s) = true \/ negb (k_accepted s) = true).
  { cbn. destruct X. destruct (g_set Ls) as [Y|[(Y1 & Y2)|Y]]; [left; exact Y|right; right; rewrite Y2; reflexivity|discriminate]. }
  destruct (stop_inv _ _ _ _ _ _ _ _ _ None (negb (k_accepted s)) I0 G0) as (m1 & l1 & s1 & E1 & I1 & G1 & S1 & A1 & C1 & L1 & _); [intros _; discriminate|exact W|discriminate|].
  assert (Y : exists m2 l2, (if k_accepted s then ret m1 else remove k m1) = Some (m2, l2) /\ Inv k 1 false ((g ++ l1) ++ l2) D V m2).
  { destruct (k_accepted s) eqn:As; cbn [negb] in *; [exists m1, []; split; [reflexivity|apply nil_inv; exact I1]|].
    apply (remove_inv _ _ _ _ _ _ _ _ _ I1 G1); [rewrite L1; exact Ls|exact S1|]. rewrite A1. cbn. destruct X. destruct (k_app s); [destruct (g_app eq_refl); congruence|reflexivity]. }
  destruct Y as (m2 & l2 & E2 & I2). destruct (dec_inv _ _ _ _ _ _ _ _ I2) as (m3 & l3 & E3 & I3).
  exists m3, ([] ++ ((l1 ++ l2) ++ l3)). split; [exact (bind_some _ _ _ _ _ _ eq_refl (bind_some _ _ _ _ _ _ (bind_some _ _ _ _ _ _ E1 E2) E3))|]. cbn [app]. rewrite !app_assoc. apply (rekey _ _ 0 _ _ _ _ I3).
Qed.
Lemma closed_inv : forall c ks m g D V, Inv 0 0 false g D V m -> NoDup ks -> (forall k, In k ks -> exists s, get k m = Some s /\ k_conn s = Some (Client c)) -> exists m' l, conn_closed ks m = Some (m', l) /\ Inv 0 0 false (g ++ l) D V m'.
Proof.
  intros c ks. induction ks as [|k ks IH]; intros m g D V I N H; cbn [conn_closed]; [exists m, []; split; [reflexivity|apply nil_inv; exact I]|].
  destruct (H k (or_introl eq_refl)) as (s & G & C). inversion N; subst. destruct (closed1_inv _ _ _ _ _ _ _ I G C) as (m1 & l1 & E1 & I1).
  destruct (IH m1 _ D V I1) as (m2 & l2 & E2 & I2); [assumption| |].
  - intros k' Hk. rewrite (t_other _ _ _ _ (tou_closed1 _ _ _ _ E1)); [apply H; right; exact Hk|]. intros ->. contradiction.
  - exists m2, (l1 ++ l2). split; [exact (bind_some _ _ _ _ _ _ E1 E2)|]. rewrite app_assoc. exact I2.
Qed.
Lemma of_conn_ok : forall c m, NoDup (map fst (heap m)) -> NoDup (of_conn c m) /\ forall k, In k (of_conn c m) -> exists s, get k m = Some s /\ k_conn s = Some (Client c).
Proof.
  intros c m N. split.
  - unfold of_conn. induction (heap m) as [|[k s] h IH]; [constructor|]. cbn [filter map fst] in *. inversion N; subst. destruct (k_listed _ && _); [|auto]. cbn [map fst]. constructor; [|auto].
    intros Y. apply H1. apply in_map_iff in Y. destruct Y as (y & Y1 & Y2). apply filter_In in Y2. rewrite <- Y1. apply in_map. apply Y2.
  - intros k H. unfold of_conn in H. apply in_map_iff in H. destruct H as ([k' s] & H1 & H2). cbn in H1. subst k'. apply filter_In in H2. destruct H2 as [H2 H3]. cbn in H3. apply andb_prop in H3.
    exists s. split; [apply in_get; assumption|apply of_client_true; apply H3].
Qed.
(** Opening a virtual stream: it works, is refused, or crashes; it works if somebody listens who takes it. *)
Definition vfresh (c : nat) : stream := {| k_id := 0; k_conn := Some (Virtual c); k_refs := 1; k_virt := true; k_accepted := false; k_stopped := false; k_listed := true; k_sending := false; k_flying := false; k_posted := false; k_app := false; k_client := false |}.
Lemma virtual_inv : forall c p alloc take m g D V, Inv 0 0 false g D V m ->
  match open_virtual c p alloc take m with
  | Some (m', l) => Inv 0 0 false (g ++ l) D V m' /\ listeners m' = listeners m /\ limit m' = limit m /\ plain l /\ (existsb is_new l = true -> current m < limit m)
  | None => take = false \/ in_use p m = false
  end.
Proof.
  intros c p alloc take m g D V I. unfold open_virtual. destruct ((limit m <=? current m) || negb alloc) eqn:Li; [split; [apply quiet_inv; [exact I|repeat constructor]|]; repeat split; [repeat constructor|discriminate]|].
  apply orb_false_iff in Li. destruct Li as [Li _]. apply Nat.leb_gt in Li. fold (vfresh c).
  apply (rekey _ 0 (next m)) in I. destruct (push_inv B g D V m (vfresh c) (VNew (next m)) I) as (I1 & G1); [constructor; cbn; auto; try lia; try discriminate|left; auto|].
  destruct (ready_inv B _ _ _ _ _ _ _ p take None I1 G1) as (m2 & l2 & E2 & I2); [discriminate|reflexivity|reflexivity|].
  unfold bind at 1. cbv beta. unfold bind. rewrite E2. pose proof (tou_ready _ _ _ _ _ _ _ E2) as T.
  destruct (get (next m) m2) as [s|] eqn:G2.
  - destruct (good_of _ _ _ _ _ _ _ _ _ I2 G2) as (_ & _ & X). pose proof (ready_accepted _ _ _ _ _ _ _ _ E2 G2) as As. destruct T. destruct (t_same0 _ G2) as (s0 & Y1 & _ & Y2). rewrite G1 in Y1. inversion Y1; subst s0. cbn in Y2.
    assert (Vn : vo (next m) ((g ++ [VNew (next m)]) ++ l2) = false).
    { pose proof (i_all _ _ _ _ _ _ _ _ I (next m)) as Z. unfold at_ in Z. destruct (get (next m) m) eqn:Gn; [lia|]. destruct Z as (_ & _ & _ & _ & Z). destruct (Z (le_n _)) as (_ & Zv & _).
      rewrite !vo_app, Zv. cbn [vo existsb orb]. clear -E2. unfold ready in E2. destruct (get _ _); [|discriminate].
      assert (DV : forall k r m m' l, destroy k r m = Some (m', l) -> vo (next m) l = false /\ forall j, vo j l = false).
      { intros k r m0 m' l H. assert (Z : forall j, vo j l = false); [|auto]. intros j. unfold destroy in H. destruct (get k m0) as [a|]; [|discriminate]. unfold bind in H.
        destruct (stop k r (put k (set_app false a) m0)) as [[m3 l3]|] eqn:S3; [|discriminate]. destruct (remove k m3) as [[m4 l4]|] eqn:R4; [|discriminate]. destruct (dec k m4) as [[m5 l5]|] eqn:D5; [|discriminate]. inversion H; subst.
        assert (Dd : forall m m' l, dec k m = Some (m', l) -> vo j l = false). { clear. intros m m' l H. unfold dec in H. destruct (get k m) as [a|]; [|discriminate]. destruct (k_refs a) as [|[|n]]; inversion H; reflexivity. }
        rewrite !vo_app, (Dd _ _ _ D5), orb_false_r. unfold remove in R4. destruct (get k m3) as [a3|]; [|discriminate]. destruct (k_listed a3); [|discriminate]. rewrite (Dd _ _ _ R4), orb_false_r.
        unfold stop in S3. destruct (get k (put k (set_app false a) m0)) as [a4|]; [|discriminate]. destruct (k_stopped a4); [inversion S3; reflexivity|].
        assert (Dr : forall c id r m, vo j (snd (send_rst c id r m)) = false) by (intros c0 id r0 m7; unfold send_rst; destruct (rst_busy m7); [reflexivity|destruct r0; reflexivity]).
        destruct (k_virt a4); [inversion S3; reflexivity|]. destruct r as [r|]; [|inversion S3; reflexivity]. destruct (k_conn a4) as [[c0|c0]|]; [|inversion S3; reflexivity|inversion S3; reflexivity].
        specialize (Dr c0 (k_id a4) r (put k (set_app false a) m0)). destruct (send_rst _ _ _ _) as [m7 l7]. inversion S3; subst. rewrite vo_app. cbn [snd] in Dr. rewrite Dr. reflexivity. }
      destruct (find _ _) as [[l0 p0]|]; [destruct take|].
      - inversion E2; reflexivity.
      - unfold bind in E2. destruct (destroy _ _ _) as [[m3 l3]|] eqn:E3; inversion E2; subst. cbn [vo existsb orb app]. apply (DV _ _ _ _ _ E3).
      - apply (DV _ _ _ _ _ E2). }
    split; [|].
    + rewrite !app_assoc. apply (rekey _ (next m) 0). eapply put_inv; [exact I2|exact G2|repeat constructor|auto| |reflexivity|left; auto].
      rewrite tk_app, ended_app, (vo_app (next m) _ [VOpened (next m)]), Vn. cbn [tk ended vo existsb]. rewrite Nat.eqb_refl, !orb_false_r. cbn [orb].
      assert (Vk : V (next m) = false). { pose proof (i_all _ _ _ _ _ _ _ _ I (next m)) as Z. unfold at_ in Z. destruct (get (next m) m) eqn:Gn; [lia|]. destruct Z as (_ & _ & _ & _ & Z). apply (Z (le_n _)). }
      destruct X. rewrite Vn, Vk in *. cbn [andb negb] in *.
      constructor; cbn [k_id k_conn k_refs k_virt k_accepted k_stopped k_listed k_sending k_flying k_posted k_app k_client set_refs set_client b2n]; auto; try congruence; try lia. rewrite g_refs, g_held. cbn [b2n]. lia.
    + split; [exact t_list0|]. split; [exact t_limit0|]. split; [|intros; exact Li]. constructor; [exact Logic.I|]. apply Forall_app. split; [exact t_plain0|repeat constructor].
  - destruct take; [right|left; reflexivity]. destruct (in_use p m) eqn:U; [|reflexivity]. exfalso. unfold ready in E2. rewrite G1 in E2.
    assert (F : exists x, find (fun x : nat * N => (snd x =? p)%N) (listeners m) = Some x).
    { unfold in_use in U. clear -U. induction (listeners m) as [|x l IH]; [discriminate|]. cbn [existsb find] in *. destruct (snd x =? p)%N; [eauto|auto]. }
    destruct F as ([l0 p0] & F). change (listeners (push (vfresh c) m)) with (listeners m) in E2. rewrite F in E2. inversion E2; subst. rewrite (get_put_same _ _ _ _ G1) in G2. discriminate.
Qed.

Lemma listen_inv : forall l0 type rands m m' l g D V, Inv 0 0 false g D V m -> listen l0 type rands m = (m', l) -> Inv 0 0 false (g ++ l) D V m'.
Proof.
  intros l0 type rands m m' l g D V I H. unfold listen in H. destruct (if (type =? 0)%N then _ else _) as [p|].
  - destruct (in_use p m); inversion H; subst.
    + apply quiet_inv; [exact I|repeat constructor].
    + assert (J : Inv 0 0 false (g ++ [Listening l0 p]) D V m) by (apply quiet_inv; [exact I|repeat constructor]). destruct J. constructor; assumption.
  - inversion H; subst. apply quiet_inv; [exact I|repeat constructor].
Qed.
Lemma same_inv : forall m m' g D V, heap m' = heap m -> current m' = current m -> next m' = next m -> rst_busy m' = rst_busy m -> rst_fly m' = rst_fly m -> Inv 0 0 false g D V m -> Inv 0 0 false g D V m'.
Proof.
  intros m m' g D V H1 H2 H3 H4 H5 I. assert (G : forall j, get j m' = get j m) by (intros; apply get_heap; exact H1). destruct I. constructor; rewrite ?H1, ?H2, ?H3, ?H4, ?H5; auto.
  - intros j. specialize (i_all j). unfold at_ in *. rewrite G, H3. exact i_all.
  - intros j s j' s' c. rewrite !G. eauto.
  - intros j c id. rewrite !G. eauto.
  - intros j c id s. rewrite !G. eauto.
  - intros j s c. rewrite !G. eauto.
  - intros j s. rewrite !G. eauto.
Qed.
Lemma step_inv : forall o m g D V, Inv 0 0 false g D V m -> fair_b o g D V = true -> (B -> bad_op o = false) ->
  match step o m with
  | Some (m', l) => Inv 0 0 false (g ++ l) (nextD o D) (nextV o V) m'
  | None => exists c p a t, o = VOpen c p a t /\ (t = false \/ in_use p m = false)
  end.
Proof.
  intros o m g D V I F Bb. assert (U : Inv 0 0 false (g ++ [Unhandled]) D V m) by (apply quiet_inv; [exact I|repeat constructor]).
  assert (N : Inv 0 0 false (g ++ []) D V m) by (apply nil_inv; exact I).
  destruct o; cbn [step nextD nextV]; cbn [fair_b] in F; cbn [bad_op] in Bb.
  - destruct (listen l type rands m) as [m' l'] eqn:E. apply (listen_inv _ _ _ _ _ _ _ _ _ I E).
  - refine (same_inv m _ _ _ _ _ _ _ _ _ N); reflexivity.
  - refine (same_inv m _ _ _ _ _ _ _ _ _ N); reflexivity.
  - destruct (packet_inv c id syn isrst alloc r evs m g D V I Bb) as (m' & l & -> & X). exact X.
  - destruct (get k m) as [s|] eqn:G; [|exact U]. destruct (k_virt s) eqn:Vs; [exact U|]. apply (rekey _ _ k) in I.
    destruct (events_inv B evs k 0 g D V m s I G Vs Bb) as (m' & l & -> & X); [right; apply negb_true_iff; exact F|]. apply (rekey _ _ 0 _ _ _ _ X).
  - destruct (get k m) as [s|] eqn:G; [|exact U]. destruct (k_posted s) eqn:P; [|exact U]. apply (rekey _ _ k) in I. destruct (good_of _ _ _ _ _ _ _ _ _ I G) as (_ & _ & X).
    assert (Vs : k_virt s = false) by (destruct X; destruct (k_virt s); [destruct (g_virt eq_refl); congruence|reflexivity]).
    assert (I1 : Inv k 1 false g D V (put k (set_posted false s) m)).
    { rewrite <- (app_nil_r g). eapply put_inv; [exact I|exact G|constructor|auto| |reflexivity|left; auto]. rewrite app_nil_r. destruct X. constructor; cbn [k_id k_conn k_refs k_virt k_accepted k_stopped k_listed k_sending k_flying k_posted k_app k_client set_posted b2n]; auto; [rewrite g_refs, P; cbn [b2n]; lia|intros Y; destruct (g_virt Y); auto]. }
    destruct (events_inv B evs k 1 g D V _ _ I1 (get_put_same _ _ _ _ G) Vs Bb (or_introl (le_n 1))) as (m1 & l1 & E1 & I2). destruct (dec_inv _ _ _ _ _ _ _ _ I2) as (m2 & l2 & E2 & I3).
    rewrite (bind_some _ _ _ _ _ _ E1 E2), app_assoc. apply (rekey _ _ 0 _ _ _ _ I3).
  - destruct (get k m) as [s|] eqn:G; [|exact U]. destruct (k_flying s) eqn:P; [|exact U]. apply (rekey _ _ k) in I. destruct (good_of _ _ _ _ _ _ _ _ _ I G) as (_ & _ & X).
    assert (Vs : k_virt s = false) by (destruct X; destruct (k_virt s); [destruct (g_virt eq_refl); congruence|reflexivity]).
    assert (I1 : Inv k 1 false g D V (put k (set_send false false s) m)).
    { rewrite <- (app_nil_r g). eapply put_inv; [exact I|exact G|constructor|auto| |reflexivity|left; auto]. rewrite app_nil_r. destruct X. constructor; cbn [k_id k_conn k_refs k_virt k_accepted k_stopped k_listed k_sending k_flying k_posted k_app k_client set_send b2n]; auto; [rewrite g_refs, P; cbn [b2n]; lia|intros Y; destruct (g_virt Y); auto]. }
    destruct (events_inv B evs k 1 g D V _ _ I1 (get_put_same _ _ _ _ G) Vs Bb (or_introl (le_n 1))) as (m1 & l1 & E1 & I2). destruct (dec_inv _ _ _ _ _ _ _ _ I2) as (m2 & l2 & E2 & I3).
    rewrite (bind_some _ _ _ _ _ _ E1 E2), app_assoc. apply (rekey _ _ 0 _ _ _ _ I3).
  - destruct (rst_fly m); [apply rst_inv; [exact I|reflexivity|constructor]|exact U].
  - destruct (of_conn_ok c m (i_nd _ _ _ _ _ _ _ _ I)) as (N1 & N2). destruct (closed_inv c _ m g D V I N1 N2) as (m' & l & -> & X). exact X.
  - pose proof (virtual_inv c port alloc take m g D V I) as X. destruct (open_virtual c port alloc take m) as [[m' l]|]; [apply X|]. exists c, port, alloc, take. auto.
  - apply (rekey _ _ k) in I. destruct (held_get2 k g D V m I F) as (s & -> & _). exact N.
  - apply (rekey _ _ k) in I. destruct (held_get2 k g D V m I F) as (s & G & Cs). rewrite G. destruct (good_of _ _ _ _ _ _ _ _ _ I G) as (_ & _ & X).
    assert (I1 : Inv k 1 false g D (upd k V) (put k (set_client false s) m)).
    { rewrite <- (app_nil_r g). eapply put_inv; [exact I|exact G|constructor| | |reflexivity|left; auto].
      - intros j E. unfold upd. rewrite (proj2 (Nat.eqb_neq j k) E). auto.
      - unfold upd. rewrite Nat.eqb_refl, app_nil_r. destruct X. apply andb_prop in F. destruct F as [F1 F2]. constructor; cbn [k_id k_conn k_refs k_virt k_accepted k_stopped k_listed k_sending k_flying k_posted k_app k_client set_client b2n]; auto; [rewrite g_refs, Cs; cbn [b2n]; lia|cbn; rewrite andb_false_r; reflexivity]. }
    destruct (dec_inv _ _ _ _ _ _ _ _ I1) as (m2 & l2 & E2 & I3). rewrite E2. apply (rekey _ _ 0 _ _ _ _ I3).
  - apply (rekey _ _ k) in I. destruct (owned_get k g D V m I F) as (s & G & As). rewrite G. destruct (k_virt s) eqn:Vs; [exact N|]. unfold deferred. rewrite G. cbn [lift].
    destruct (k_stopped s); [exact N|]. destruct (post_inv B k 0 g D V m s I G Vs) as (s' & _ & X). apply nil_inv. apply (rekey _ _ 0 _ _ _ _ X).
  - apply (rekey _ _ k) in I. destruct (owned_get k g D V m I F) as (s & G & As). assert (Br : B -> r <> Some Failed) by (intros b ->; specialize (Bb b); discriminate).
    destruct (stop_inv B k 0 false g D V m s r false I G Br (or_introl As) (fun x => x)) as (m1 & l1 & s1 & -> & I1 & _). apply (rekey _ _ 0 _ _ _ _ I1).
  - apply (rekey _ _ k) in I. destruct (owned_get k g D V m I F) as (s & G & As). assert (Br : B -> r <> Some Failed) by (intros b ->; specialize (Bb b); discriminate).
    destruct (destroy_owned B k 0 g D V m s r I G Br As) as (m1 & l1 & -> & I1). apply (rekey _ _ 0 _ _ _ _ I1).
Qed.
End Step.

(** What a step does to the listeners and the limit. *)
Lemma plain_listen : forall l, plain l -> flat_map (fun y => match y with Listening l p => [(l, p)] | _ => [] end) l = [].
Proof. intros l P. induction P as [|x l X P IH]; [reflexivity|]. cbn [flat_map]. rewrite IH. destruct x; [destruct X|..]; reflexivity. Qed.
Definition mild (m m' : mgr) (l : list out) : Prop := listeners m' = listeners m /\ limit m' = limit m /\ plain l.
Lemma tou_mild : forall k m m' l, tou k m m' l -> mild m m' l.
Proof. intros k m m' l []. split; [|split]; assumption. Qed.
Lemma mild_trans : forall m m1 m2 l1 l2, mild m m1 l1 -> mild m1 m2 l2 -> mild m m2 (l1 ++ l2).
Proof. intros m m1 m2 l1 l2 (A1 & A2 & A3) (B1 & B2 & B3). split; [congruence|]. split; [congruence|]. apply Forall_app. auto. Qed.
Lemma mild_refl : forall m, mild m m []. Proof. intros. split; [|split]; [reflexivity|reflexivity|constructor]. Qed.
Lemma closed_mild : forall ks m m' l, conn_closed ks m = Some (m', l) -> mild m m' l.
Proof.
  induction ks as [|k ks IH]; intros m m' l H; cbn [conn_closed] in H; [inversion H; subst; apply mild_refl|]. unfold bind in H.
  destruct (conn_closed1 k m) as [[m1 l1]|] eqn:E1; [|discriminate]. destruct (conn_closed ks m1) as [[m2 l2]|] eqn:E2; inversion H; subst. eapply mild_trans; [apply (tou_mild k); apply tou_closed1; exact E1|auto].
Qed.
Lemma step_mild : forall o m m' l, step o m = Some (m', l) ->
  match o with
  | Listen l0 type rands => (m', l) = listen l0 type rands m
  | Unlisten l0 => listeners m' = filter (fun x => negb (fst x =? l0)) (listeners m) /\ limit m' = limit m
  | SetMax n => listeners m' = listeners m /\ limit m' = n /\ plain l
  | _ => mild m m' l
  end.
Proof.
  intros o m m' l H. assert (U : mild m m [Unhandled]) by (split; [|split]; [reflexivity|reflexivity|repeat constructor]).
  destruct o; cbn [step] in H.
  - congruence.
  - inversion H; subst. auto.
  - inversion H; subst. split; [|split]; [reflexivity|reflexivity|constructor].
  - unfold handle_packet in H. destruct (found c id m) as [k|]; [apply (tou_mild k); apply (tou_deliver _ _ _ _ _ H)|].
    destruct (if syn then accept c id alloc m else None) as [[[m1 k] l1]|] eqn:A.
    + unfold bind in H. destruct (deliver k evs m1) as [[m2 l2]|] eqn:E2; inversion H; subst. apply mild_trans with (m1 := m1); [|apply (tou_mild k); apply (tou_deliver _ _ _ _ _ E2)].
      destruct syn; [|discriminate]. unfold accept in A. destruct (N.odd id); [discriminate|]. destruct (limit m <=? current m); [discriminate|]. destruct (negb alloc); inversion A; subst. split; [|split]; [reflexivity|reflexivity|repeat constructor].
    + destruct isrst; [inversion H; subst; apply mild_refl|]. inversion H. apply (tou_mild 0). apply (tou_rst _ _ _ _ _ _ _ H1).
  - destruct (get k m) as [s|]; [|inversion H; subst; exact U]. destruct (k_virt s); [inversion H; subst; exact U|]. apply (tou_mild k). apply (tou_events _ _ _ _ _ H).
  - destruct (get k m) as [s|] eqn:G; [|inversion H; subst; exact U]. destruct (k_posted s); [|inversion H; subst; exact U]. apply (tou_mild k). change l with ([] ++ l).
    eapply tou_trans; [eapply tou_put; [exact G| | |constructor]|eapply tou_bind; [| |exact H]; [apply tou_events|apply tou_dec]]; auto.
  - destruct (get k m) as [s|] eqn:G; [|inversion H; subst; exact U]. destruct (k_flying s); [|inversion H; subst; exact U]. apply (tou_mild k). change l with ([] ++ l).
    eapply tou_trans; [eapply tou_put; [exact G| | |constructor]|eapply tou_bind; [| |exact H]; [apply tou_events|apply tou_dec]]; auto.
  - destruct (rst_fly m); inversion H; subst; [split; [|split]; [reflexivity|reflexivity|constructor]|exact U].
  - apply (closed_mild _ _ _ _ H).
  - unfold open_virtual in H. destruct (_ || _); [inversion H; subst; split; [|split]; [reflexivity|reflexivity|repeat constructor]|]. unfold bind in H.
    set (m0 := push _ m) in H. destruct (ready (next m) port take None m0) as [[m1 l1]|] eqn:E1; [|discriminate]. pose proof (tou_ready _ _ _ _ _ _ _ E1) as T. destruct (get (next m) m1) as [s|]; [|discriminate].
    inversion H; subst. destruct T. split; [exact t_list0|]. split; [exact t_limit0|]. constructor; [exact I|]. apply Forall_app. split; [exact t_plain0|repeat constructor].
  - destruct (get k m); inversion H; subst. apply mild_refl.
  - destruct (get k m) as [s|] eqn:G; [|discriminate]. apply (tou_mild k). change l with ([] ++ l). eapply tou_trans; [eapply tou_put; [exact G| | |constructor]|apply tou_dec; exact H]; auto.
  - destruct (get k m) as [s|] eqn:G; [|discriminate]. destruct (k_virt s); [inversion H; subst; apply mild_refl|]. unfold deferred in H. rewrite G in H. cbn [lift] in H. destruct (k_stopped s); inversion H; subst; [apply mild_refl|].
    apply (tou_mild k). eapply tou_post; [exact G|reflexivity|reflexivity].
  - apply (tou_mild k). apply (tou_stop _ _ _ _ _ H).
  - apply (tou_mild k). apply (tou_destroy _ _ _ _ _ H).
Qed.
Lemma listen_mild : forall l0 type rands m m' l, listen l0 type rands m = (m', l) ->
  limit m' = limit m /\ listeners m' = listeners m ++ flat_map (fun y => match y with Listening l p => [(l, p)] | _ => [] end) l.
Proof.
  intros l0 type rands m m' l H. unfold listen in H. destruct (if (type =? 0)%N then _ else _) as [p|]; [destruct (in_use p m)|]; inversion H; subst; cbn; rewrite ?app_nil_r; auto.
Qed.
