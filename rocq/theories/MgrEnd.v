(** The properties of the stream manager, as lemmas about runs. *)
From Coq Require Import List Bool Arith NArith Lia.
From Verif Require Import MgrModel MgrSpec MgrProofs MgrMore MgrRun MgrLast.
Import ListNotations.

Lemma new_outs1 : forall n h o, new_outs n h [o] = match after n h with Some m => match step o m with Some (_, l) => l | None => [] end | None => [] end.
Proof.
  intros n h o. unfold new_outs. rewrite trace_snoc. assert (L : length (trace n h) = length h) by (rewrite <- (ops_trace n h) at 2; unfold ops; rewrite map_length; reflexivity).
  rewrite <- L, skipn_app, skipn_all, Nat.sub_diag. cbn [app skipn outs flat_map]. apply app_nil_r.
Qed.
Lemma outs_snoc : forall n h o, outs (trace n (h ++ [o])) = outs (trace n h) ++ new_outs n h [o].
Proof. intros. rewrite new_outs1, trace_snoc, outs_app. f_equal. cbn [outs flat_map snd]. apply app_nil_r. Qed.
Lemma live_nodup : forall (A : Type) (l : list (nat * A)) (f : nat -> bool), NoDup (map fst l) ->
  (forall k a k' a', In (k, a) l -> In (k', a') l -> f k = true -> f k' = true -> a = a' -> k = k') -> NoDup (map snd (filter (fun x => f (fst x)) l)).
Proof.
  intros A l f. induction l as [|[k a] l IH]; intros N H; [constructor|]. cbn [map fst] in N. inversion N; subst. cbn [filter fst]. destruct (f k) eqn:F; [|apply IH; [assumption|intros; eapply H; try (right; eassumption); eassumption]].
  cbn [map snd]. constructor.
  - intros X. apply in_map_iff in X. destruct X as ([k' a'] & X1 & X2). cbn in X1. subst a'. apply filter_In in X2. destruct X2 as [X2 X3]. cbn in X3.
    assert (k = k') by (eapply H; [left; reflexivity|right; exact X2|exact F|exact X3|reflexivity]). subst k'. apply H2. apply (in_map fst) in X2. exact X2.
  - apply IH; [assumption|]. intros; eapply H; try (right; eassumption); eassumption.
Qed.
Lemma ids : forall n h, lawful n h -> NoDup (map snd (live (trace n h))) /\ forall k c id, In (Opened k c id) (outs (trace n h)) -> N.odd id = false.
Proof.
  intros n h L. unfold live. apply (inv_outs (fun g => NoDup (map snd (filter (fun x => negb (ended (fst x) g)) (opened g))) /\ forall k c id, In (Opened k c id) g -> N.odd id = false) n h L).
  clear h L. intros h m L A. pose proof (run_inv False n h m L (fun f => match f with end) A) as I. set (g := outs (trace n h)) in *. split.
  - apply (live_nodup _ (opened g) (fun k => negb (ended k g))); [apply (i_open _ _ _ _ _ _ _ _ I)|].
    intros k [c id] k' [c' id'] H1 H2 F1 F2 E. inversion E; subst c' id'. apply negb_true_iff in F1, F2.
    destruct (i_open2 _ _ _ _ _ _ _ _ I _ _ _ H1) as (_ & [X|(s & X1 & X2 & X3)]); [congruence|]. destruct (i_open2 _ _ _ _ _ _ _ _ I _ _ _ H2) as (_ & [Y|(s' & Y1 & Y2 & Y3)]); [congruence|].
    eapply (i_uniq _ _ _ _ _ _ _ _ I k s k' s' c); congruence.
  - intros k c id H. apply (i_even _ _ _ _ _ _ _ _ I k c id). unfold opened. apply in_flat_map. exists (Opened k c id). split; [exact H|left; reflexivity].
Qed.
Lemma ports_nodup : forall n h, NoDup (map snd (ports (trace n h))).
Proof.
  intros n h. induction h as [|o h IH] using rev_ind; [constructor|]. rewrite trace_snoc. unfold ports. rewrite fold_left_app. cbn [fold_left]. fold (ports (trace n h)). unfold ports1. cbn [fst snd].
  destruct (match o with Unlisten _ => true | _ => false end) eqn:U.
  - destruct o; try discriminate. clear -IH. induction (ports (trace n h)) as [|x l0 IH2]; [constructor|]. cbn [filter map] in *. inversion IH; subst. destruct (negb (fst x =? l)); [|auto]. cbn [map]. constructor; [|auto].
    intros X. apply H1. apply in_map_iff in X. destruct X as (y & Y1 & Y2). apply filter_In in Y2. rewrite <- Y1. apply in_map. apply Y2.
  - assert (X : ports (trace n h) ++ flat_map (fun y => match y with Listening l p => [(l, p)] | _ => [] end) match after n h with Some m => match step o m with Some (_, l) => l | None => [] end | None => [] end = ports (trace n h) \/
      exists l p, ports (trace n h) ++ flat_map (fun y => match y with Listening l p => [(l, p)] | _ => [] end) match after n h with Some m => match step o m with Some (_, l) => l | None => [] end | None => [] end = ports (trace n h) ++ [(l, p)] /\ ~ In p (map snd (ports (trace n h)))).
    { destruct (after n h) as [m|] eqn:A; [|left; apply app_nil_r]. destruct (step o m) as [[m1 l1]|] eqn:S; [|left; apply app_nil_r]. pose proof (step_mild _ _ _ _ S) as X.
      destruct o; try (destruct X as (_ & _ & X3); left; rewrite (plain_listen _ X3); apply app_nil_r); [|discriminate]. unfold listen in X. destruct (if (type =? 0)%N then _ else _) as [p|]; [destruct (in_use p m) eqn:P|]; inversion X; subst; try (left; apply app_nil_r).
      right. exists l, p. split; [reflexivity|]. rewrite <- (proj1 (run_lists _ _ _ A)). intros Y. apply in_use_in in Y. congruence. }
    replace (match o with Unlisten l => filter (fun y => negb (fst y =? l)) (ports (trace n h)) | _ => ports (trace n h) ++ flat_map (fun y => match y with Listening l p => [(l, p)] | _ => [] end) match after n h with Some m => match step o m with Some (_, l) => l | None => [] end | None => [] end end)
      with (ports (trace n h) ++ flat_map (fun y => match y with Listening l p => [(l, p)] | _ => [] end) match after n h with Some m => match step o m with Some (_, l) => l | None => [] end | None => [] end) by (destruct o; try reflexivity; discriminate).
    destruct X as [->|(l & p & -> & N)]; [exact IH|]. rewrite map_app. cbn [map snd]. clear -IH N. induction (map snd (ports (trace n h))) as [|y q IH2]; [repeat constructor; auto|]. cbn [app]. inversion IH; subst. constructor; [|apply IH2; [assumption|intros Y; apply N; right; exact Y]].
    intros Y. apply in_app_or in Y. destruct Y as [Y|[Y|[]]]; [auto|]. subst y. apply N. left. reflexivity.
Qed.
Lemma ephemeral_range : forall r, (2147483648 <= ephemeral_of r < 4294967296)%N /\ ephemeral_of r = (2147483648 + r mod 2147483648)%N.
Proof.
  intros r. assert (E : N.land r 2147483647 = (r mod 2147483648)%N) by (change 2147483647%N with (N.ones 31); rewrite N.land_ones; reflexivity).
  unfold ephemeral_of. rewrite E. pose proof (N.mod_lt r 2147483648). split; [|reflexivity]. assert (r mod 2147483648 < 2147483648)%N by (apply H; discriminate). lia.
Qed.
Lemma ephemeral_spec : forall m i rands, match ephemeral i rands m with Some p => exists r, In r (firstn i rands) /\ p = ephemeral_of r /\ in_use p m = false | None => forall r, In r (firstn i rands) -> in_use (ephemeral_of r) m = true end.
Proof.
  intros m i. induction i as [|i IH]; intros rands; [intros r []|]. destruct rands as [|r rands]; [intros r []|]. cbn [ephemeral firstn]. destruct (in_use (ephemeral_of r) m) eqn:U.
  - specialize (IH rands). destruct (ephemeral i rands m) as [p|]; [destruct IH as (r' & X & Y); exists r'; split; [right; exact X|exact Y]|]. intros r' [<-|X]; auto.
  - exists r. split; [left; reflexivity|auto].
Qed.
Lemma listen_spec : forall n h l type rands, ~ crashed n h ->
  (type <> 0%N -> new_outs n h [Listen l type rands] = if existsb (fun x => (snd x =? type)%N) (ports (trace n h)) then [Refused l] else [Listening l type]) /\
  (type = 0%N -> (exists p, new_outs n h [Listen l type rands] = [Listening l p] /\ (2147483648 <= p < 4294967296)%N /\ ~ In p (map snd (ports (trace n h)))) \/
                 (new_outs n h [Listen l type rands] = [Refused l] /\ forall r, In r (firstn 10 rands) -> In (2147483648 + r mod 2147483648)%N (map snd (ports (trace n h))))).
Proof.
  intros n h l type rands C. unfold crashed in C. fold (after n h) in C. rewrite new_outs1. destruct (after n h) as [m|] eqn:A; [clear C|destruct C; reflexivity]. rewrite <- (proj1 (run_lists _ _ _ A)). cbn [step]. unfold listen. split; intros T.
  - apply N.eqb_neq in T. rewrite T. unfold in_use. destruct (existsb _ _); reflexivity.
  - subst type. rewrite N.eqb_refl. pose proof (ephemeral_spec m 10 rands) as X. destruct (ephemeral 10 rands m) as [p|].
    + left. destruct X as (r & _ & -> & U). rewrite U. exists (ephemeral_of r). split; [reflexivity|]. split; [apply ephemeral_range|]. intros Y. apply in_use_in in Y. congruence.
    + right. split; [reflexivity|]. intros r R. apply in_use_in. rewrite <- (proj2 (ephemeral_range r)). apply X. exact R.
Qed.
Lemma allocated_current : forall n h m, lawful n h -> after n h = Some m -> allocated (trace n h) = current m.
Proof. intros n h m L A. pose proof (run_inv False n h m L (fun f => match f with end) A) as I. unfold allocated. rewrite (i_cnt _ _ _ _ _ _ _ _ I). lia. Qed.
Lemma is_new_about : forall l, existsb is_new l = true -> count is_new l <> 0.
Proof. unfold count. induction l as [|x l IH]; [discriminate|]. cbn [existsb filter]. destruct (is_new x); [intros _; cbn; lia|exact IH]. Qed.
Definition no_new (l : list out) : Prop := existsb is_new l = false.
Lemma no_new_app : forall l l', no_new l -> no_new l' -> no_new (l ++ l'). Proof. unfold no_new. intros l l' A B. rewrite existsb_app, A, B. reflexivity. Qed.
Lemma bind_new : forall x f m' l, (forall m1 l1, x = Some (m1, l1) -> no_new l1) -> (forall m1 m2 l2, f m1 = Some (m2, l2) -> no_new l2) -> bind x f = Some (m', l) -> no_new l.
Proof. intros x f m' l Hx Hf H. unfold bind in H. destruct x as [[m1 l1]|]; [|discriminate]. destruct (f m1) as [[m2 l2]|] eqn:E; inversion H; subst. apply no_new_app; eauto. Qed.
Lemma dec_new : forall k m m' l, dec k m = Some (m', l) -> no_new l.
Proof. intros k m m' l H. unfold dec in H. destruct (get k m) as [s|]; [|discriminate]. destruct (k_refs s) as [|[|n]]; inversion H; reflexivity. Qed.
Lemma rst_new : forall c id r m m' l, send_rst c id r m = (m', l) -> no_new l.
Proof. intros c id r m m' l H. unfold send_rst in H. destruct (rst_busy m); [inversion H; reflexivity|]. destruct r; inversion H; reflexivity. Qed.
Lemma stop_new : forall k r m m' l, stop k r m = Some (m', l) -> no_new l.
Proof.
  intros k r m m' l H. unfold stop in H. destruct (get k m) as [s|]; [|discriminate]. destruct (k_stopped s); [inversion H; reflexivity|].
  destruct (k_virt s); [inversion H; reflexivity|]. destruct r as [r|]; [|inversion H; reflexivity]. destruct (k_conn s) as [[c|c]|]; [|inversion H; reflexivity|inversion H; reflexivity].
  destruct (send_rst c (k_id s) r m) as [m1 l1] eqn:E. inversion H; subst. apply no_new_app; [apply (rst_new _ _ _ _ _ _ E)|reflexivity].
Qed.
Lemma remove_new : forall k m m' l, remove k m = Some (m', l) -> no_new l.
Proof. intros k m m' l H. unfold remove in H. destruct (get k m) as [s|]; [|discriminate]. destruct (k_listed s); [|discriminate]. apply (dec_new _ _ _ _ H). Qed.
Lemma destroy_new : forall k r m m' l, destroy k r m = Some (m', l) -> no_new l.
Proof.
  intros k r m m' l H. unfold destroy in H. destruct (get k m) as [s|]; [|discriminate]. eapply bind_new; [| |exact H]; [apply stop_new|]. intros m1 m2 l2 E. eapply bind_new; [| |exact E]; [apply remove_new|apply dec_new].
Qed.
Lemma ready_new : forall k p t r m m' l, ready k p t r m = Some (m', l) -> no_new l.
Proof.
  intros k p t r m m' l H. unfold ready in H. destruct (get k m) as [s|]; [|discriminate]. set (s1 := set_accepted _) in H. destruct (find _ (listeners m)) as [[l1 p1]|]; [destruct t|].
  - inversion H; reflexivity.
  - eapply bind_new; [| |exact H]; [|apply destroy_new]. intros m1 l2 E. inversion E; reflexivity.
  - apply (destroy_new _ _ _ _ _ H).
Qed.
Lemma events_new : forall k evs m m' l, events k evs m = Some (m', l) -> no_new l.
Proof.
  intros k evs. induction evs as [|e evs IH]; intros m m' l H; cbn [events] in H; destruct (get k m) as [s|]; try discriminate; destruct (k_stopped s); try (inversion H; reflexivity).
  destruct e as [p t r|e o| |].
  - destruct (k_accepted s); [eauto|]. eapply bind_new; [| |exact H]; [apply ready_new|auto].
  - unfold send_packet in H. destruct (get k m) as [a|]; [|discriminate]. destruct (k_conn a); [|inversion H; reflexivity]. destruct (k_sending a); [inversion H; reflexivity|]. destruct e; [inversion H; reflexivity|]. destruct o; inversion H; reflexivity.
  - eauto.
  - inversion H; reflexivity.
Qed.
Lemma deliver_new : forall k evs m m' l, deliver k evs m = Some (m', l) -> no_new l.
Proof.
  intros k evs m m' l H. unfold deliver in H. eapply bind_new; [| |exact H].
  - intros m1 l1 E. unfold inc in E. destruct (get k m); inversion E; reflexivity.
  - intros m1 m2 l2 E. eapply bind_new; [| |exact E]; [apply events_new|apply dec_new].
Qed.
Lemma closed_new : forall ks m m' l, conn_closed ks m = Some (m', l) -> no_new l.
Proof.
  induction ks as [|j ks IH]; intros m m' l H; cbn [conn_closed] in H; [inversion H; reflexivity|]. eapply bind_new; [| |exact H]; [|auto].
  clear. intros m1 l1 H. unfold conn_closed1 in H. destruct (get j m) as [s|]; [|discriminate]. eapply bind_new; [| |exact H].
  - intros m2 l2 E. unfold inc in E. destruct (get j m); inversion E; reflexivity.
  - intros m2 m3 l3 E. eapply bind_new; [| |exact E]; [|apply dec_new]. intros m5 l5 E5. destruct (k_stopped s); [inversion E5; reflexivity|]. eapply bind_new; [| |exact E5]; [apply stop_new|].
    intros m6 m7 l7 E7. destruct (k_accepted s); [inversion E7; reflexivity|apply (remove_new _ _ _ _ E7)].
Qed.
Lemma step_new : forall o m m' l, step o m = Some (m', l) -> existsb is_new l = true -> current m < limit m.
Proof.
  intros o m m' l H X. assert (Z : no_new l -> current m < limit m) by (unfold no_new; congruence).
  destruct o; cbn [step] in H.
  - apply Z. unfold listen in H. destruct (if (type =? 0)%N then _ else _) as [p|]; [destruct (in_use p m)|]; inversion H; reflexivity.
  - apply Z. inversion H; reflexivity.
  - apply Z. inversion H; reflexivity.
  - unfold handle_packet in H. destruct (found c id m) as [j|]; [apply Z; apply (deliver_new _ _ _ _ _ H)|].
    destruct (if syn then accept c id alloc m else None) as [[[m1 j] l1]|] eqn:A.
    + destruct syn; [|discriminate]. unfold accept in A. destruct (N.odd id); [discriminate|]. destruct (limit m <=? current m) eqn:Li; [discriminate|]. apply Nat.leb_gt in Li. exact Li.
    + apply Z. destruct isrst; [inversion H; reflexivity|]. inversion H. apply (rst_new _ _ _ _ _ _ H1).
  - apply Z. destruct (get k m) as [s|]; [|inversion H; reflexivity]. destruct (k_virt s); [inversion H; reflexivity|]. apply (events_new _ _ _ _ _ H).
  - apply Z. destruct (get k m) as [s|]; [|inversion H; reflexivity]. destruct (k_posted s); [|inversion H; reflexivity]. eapply bind_new; [| |exact H]; [apply events_new|apply dec_new].
  - apply Z. destruct (get k m) as [s|]; [|inversion H; reflexivity]. destruct (k_flying s); [|inversion H; reflexivity]. eapply bind_new; [| |exact H]; [apply events_new|apply dec_new].
  - apply Z. destruct (rst_fly m); inversion H; reflexivity.
  - apply Z. apply (closed_new _ _ _ _ H).
  - unfold open_virtual in H. destruct ((limit m <=? current m) || negb alloc) eqn:Li; [inversion H; subst; discriminate|]. apply orb_false_iff in Li. destruct Li as [Li _]. apply Nat.leb_gt in Li. exact Li.
  - apply Z. destruct (get k m); inversion H; reflexivity.
  - apply Z. destruct (get k m) as [s|]; [|discriminate]. apply (dec_new _ _ _ _ H).
  - apply Z. destruct (get k m) as [s|] eqn:G; [|discriminate]. destruct (k_virt s); [inversion H; reflexivity|]. unfold deferred in H. rewrite G in H. inversion H; reflexivity.
  - apply Z. apply (stop_new _ _ _ _ _ H).
  - apply Z. apply (destroy_new _ _ _ _ _ H).
Qed.
Lemma limits : forall n h o, lawful n h -> existsb is_new (new_outs n h [o]) = true -> allocated (trace n h) < limit_of n (trace n h).
Proof.
  intros n h o L H. rewrite new_outs1 in H. destruct (after n h) as [m|] eqn:A; [|discriminate]. destruct (step o m) as [[m1 l1]|] eqn:S; [|discriminate].
  rewrite (allocated_current n h m L A), <- (proj2 (run_lists _ _ _ A)). apply (step_new _ _ _ _ S H).
Qed.
Lemma live_in : forall k c id t, In (k, (c, id)) (opened (outs t)) -> ended k (outs t) = false -> In (c, id) (map snd (live t)).
Proof. intros k c id t H E. unfold live. apply in_map_iff. exists (k, (c, id)). split; [reflexivity|]. apply filter_In. split; [exact H|]. cbn [fst]. rewrite E. reflexivity. Qed.
Lemma not_found : forall n h m c id, lawful n h -> after n h = Some m -> ~ In (c, id) (map snd (live (trace n h))) -> found c id m = None.
Proof.
  intros n h m c id L A N. pose proof (run_inv False n h m L (fun f => match f with end) A) as I. destruct (found c id m) as [k|] eqn:F; [|reflexivity]. exfalso. apply N.
  destruct (found_some _ _ _ _ (i_nd _ _ _ _ _ _ _ _ I) F) as (s & G & C & E). apply (rekey _ _ k) in I. destruct (not_stopped _ _ _ _ _ _ _ _ _ _ I G C) as (Ss & _). destruct (good_of _ _ _ _ _ _ _ _ _ I G) as (_ & _ & X). destruct X.
  apply (live_in k); [|congruence]. rewrite <- E. apply (i_open4 _ _ _ _ _ _ _ _ I k s c G C).
Qed.
Lemma opens : forall n h c id isrst r evs, lawful n h -> ~ crashed n h -> N.odd id = false -> ~ In (c, id) (map snd (live (trace n h))) -> allocated (trace n h) < limit_of n (trace n h) ->
  exists k, In (Opened k c id) (new_outs n h [Packet c id true isrst true r evs]).
Proof.
  intros n h c id isrst r evs L C O N Li. unfold crashed in C. fold (after n h) in C. rewrite new_outs1. destruct (after n h) as [m|] eqn:A; [clear C|destruct C; reflexivity].
  rewrite (allocated_current n h m L A), <- (proj2 (run_lists _ _ _ A)) in Li. pose proof (run_inv False n h m L (fun f => match f with end) A) as I. pose proof (not_found n h m c id L A N) as F.
  destruct (packet_inv False c id true isrst true r evs m _ _ _ I (fun f => match f with end)) as (m1 & l1 & E & _). cbn [step]. rewrite E. exists (next m).
  unfold handle_packet in E. rewrite F in E. unfold accept in E. rewrite O in E. apply Nat.leb_gt in Li. rewrite Li in E. cbn [negb] in E. unfold bind in E. destruct (deliver _ _ _) as [[m2 l2]|]; inversion E; subst. left. reflexivity.
Qed.
Lemma offered : forall n h o l k, In (Offered l k) (new_outs n h [o]) -> exists p, In (l, p) (ports (trace n h)) /\ offered_ports o p = true.
Proof.
  intros n h o l k H. rewrite new_outs1 in H. destruct (after n h) as [m|] eqn:A; [|destruct H]. destruct (step o m) as [[m1 l1]|] eqn:S; [|destruct H]. destruct (step_offer _ _ _ _ _ _ S H) as (p & P1 & P2).
  exists p. rewrite <- (proj1 (run_lists _ _ _ A)). auto.
Qed.
Lemma done_flush : forall n h k m, lawful n h -> after n h = Some m -> exists m1, after n (h ++ [SendDone k []]) = Some m1 /\ lawful n (h ++ [SendDone k []]) /\ (forall s, get k m1 = Some s -> k_flying s = false) /\
  (forall s, get k m = Some s -> k_flying s = false -> m1 = m) /\ tk k (outs (trace n (h ++ [SendDone k []]))) = tk k (outs (trace n h)) /\ ended k (outs (trace n (h ++ [SendDone k []]))) = ended k (outs (trace n h)).
Proof.
  intros n h k m L A. pose proof (run_inv False n h m L (fun f => match f with end) A) as I. pose proof (step_inv False (SendDone k []) m _ _ _ I eq_refl (fun f => match f with end)) as X.
  rewrite after_snoc, A, outs_snoc, new_outs1, A. destruct (step (SendDone k []) m) as [[m1 l1]|] eqn:S; [|destruct X as (? & ? & ? & ? & X & _); discriminate].
  exists m1. split; [reflexivity|]. split; [apply lawful_add; [exact L|exact Logic.I]|]. destruct (done_nil _ _ _ _ S) as [(-> & -> & Y)|(s & G & Fl & [(-> & Y)|(-> & q & Y)])]; rewrite tk_app, ended_app, !orb_false_r; (split; [|split; [|split; reflexivity]]); auto.
  - intros s' H. congruence.
  - intros s' H1 H2. congruence.
  - intros s' H. rewrite Y in H. inversion H; reflexivity.
  - intros s' H1 H2. congruence.
Qed.
Lemma posted_flush : forall n h k m, lawful n h -> after n h = Some m -> exists m1, after n (h ++ [Posted k []]) = Some m1 /\ lawful n (h ++ [Posted k []]) /\
  (forall s, get k m1 = Some s -> k_posted s = false /\ exists s0, get k m = Some s0 /\ k_flying s = k_flying s0) /\ tk k (outs (trace n (h ++ [Posted k []]))) = tk k (outs (trace n h)) /\ ended k (outs (trace n (h ++ [Posted k []]))) = ended k (outs (trace n h)).
Proof.
  intros n h k m L A. pose proof (run_inv False n h m L (fun f => match f with end) A) as I. pose proof (step_inv False (Posted k []) m _ _ _ I eq_refl (fun f => match f with end)) as X.
  rewrite after_snoc, A, outs_snoc, new_outs1, A. destruct (step (Posted k []) m) as [[m1 l1]|] eqn:S; [|destruct X as (? & ? & ? & ? & X & _); discriminate].
  exists m1. split; [reflexivity|]. split; [apply lawful_add; [exact L|exact Logic.I]|]. destruct (posted_nil _ _ _ _ S) as [(-> & -> & Y)|(s & G & Fl & [(-> & Y)|(-> & q & Y)])]; rewrite tk_app, ended_app, !orb_false_r; (split; [|split; reflexivity]); intros s' H.
  - eauto.
  - congruence.
  - rewrite Y in H. inversion H; subst. split; [reflexivity|]. exists s. auto.
Qed.
Lemma no_leak : forall n h k c id, lawful n h -> ~ crashed n h -> In (Opened k c id) (outs (trace n h)) -> In (Ended k) (outs (trace n h)) -> (In (Taken k) (outs (trace n h)) -> existsb (is_destroy k) h = true) ->
  In (Freed k) (outs (trace n (h ++ [SendDone k []; Posted k []]))).
Proof.
  intros n h k c id L C O E T. unfold crashed in C. fold (after n h) in C. destruct (after n h) as [m|] eqn:A; [clear C|destruct C; reflexivity].
  destruct (done_flush n h k m L A) as (m1 & A1 & L1 & F1 & _ & T1 & E1). destruct (posted_flush n _ k m1 L1 A1) as (m2 & A2 & L2 & F2 & T2 & E2).
  replace (h ++ [SendDone k []; Posted k []]) with ((h ++ [SendDone k []]) ++ [Posted k []]) by (rewrite <- app_assoc; reflexivity).
  pose proof (run_inv False _ _ m2 L2 (fun f => match f with end) A2) as I. set (g := outs (trace n ((h ++ [SendDone k []]) ++ [Posted k []]))) in *. apply fr_in.
  assert (O2 : In (k, (c, id)) (opened g)). { subst g. rewrite !outs_snoc, !opened_app. apply in_or_app. left. apply in_or_app. left. unfold opened. apply in_flat_map. exists (Opened k c id). split; [exact O|left; reflexivity]. }
  destruct (i_open2 _ _ _ _ _ _ _ _ I _ _ _ O2) as (K & _). pose proof (i_all _ _ _ _ _ _ _ _ I k) as X. unfold at_ in X. destruct (get k m2) as [s|] eqn:G; [exfalso|apply X; exact K].
  destruct X as (_ & _ & X). assert (Vs0 := i_open3 _ _ _ _ _ _ _ _ I _ _ _ _ O2 G). destruct (F2 s eq_refl) as (P & s0 & G0 & P0). rewrite (F1 s0 G0) in P0. destruct X. rewrite E2, E1, (proj2 (ended_in _ _) E) in g_en.
  assert (Ap : k_app s = false). { rewrite g_own, T2, T1. destruct (tk k (outs (trace n h))) eqn:Tk; [|reflexivity]. apply tk_in in Tk. unfold Ds. rewrite !existsb_app, (T Tk). reflexivity. }
  assert (Li : k_listed s = false). { destruct (k_listed s); [|reflexivity]. destruct (g_set eq_refl) as [Y|[(Y & _)|Y]]; [congruence|congruence|]. destruct (k =? 0); discriminate. }
  rewrite Ap, Li, (g_cl Vs0), P0, P in g_refs. cbn [b2n] in g_refs. destruct (k =? 0); cbn in g_refs; lia.
Qed.
Lemma no_leak_virtual : forall n h k, lawful n h -> ~ crashed n h -> In (VOpened k) (outs (trace n h)) -> existsb (is_destroy k) h = true -> existsb (is_vfree k) h = true -> In (Freed k) (outs (trace n h)).
Proof.
  intros n h k L C O D V. unfold crashed in C. fold (after n h) in C. destruct (after n h) as [m|] eqn:A; [clear C|destruct C; reflexivity].
  pose proof (run_inv False _ _ m L (fun f => match f with end) A) as I. apply fr_in. pose proof (i_all _ _ _ _ _ _ _ _ I k) as X. unfold at_ in X. destruct (get k m) as [s|] eqn:G.
  - exfalso. destruct X as (_ & _ & X). destruct X. destruct (g_vo (proj2 (vo_in _ _) O)) as (Ac & Vi). destruct (g_virt Vi) as (Fl & Po). unfold Ds in g_own. unfold Vs in g_held. rewrite D, andb_false_r in g_own. rewrite V, andb_false_r in g_held.
    assert (Li : k_listed s = false). { destruct (k_listed s); [|reflexivity]. destruct (g_set eq_refl) as [Y|[(_ & Y)|Y]]; [congruence|congruence|]. destruct (k =? 0); discriminate. }
    rewrite g_own, g_held, Li, Fl, Po in g_refs. cbn [b2n] in g_refs. destruct (k =? 0); cbn in g_refs; lia.
  - destruct (Nat.lt_ge_cases k (next m)) as [Y|Y]; [apply X; exact Y|]. destruct X as (_ & _ & _ & _ & X). destruct (X Y) as (_ & Z & _). apply vo_in in O. congruence.
Qed.
(** * Sending. *)
Lemma rst_recovers : forall n h c id syn r evs, lawful n h -> ~ crashed n h -> calm h -> r = Sent -> ~ In (c, id) (map snd (live (trace n h))) ->
  syn = false \/ N.odd id = true \/ limit_of n (trace n h) <= allocated (trace n h) -> In (RstSent c id) (new_outs n (h ++ [RstDone]) [Packet c id syn false true r evs]).
Proof.
  intros n h c id syn r evs L C Ca -> N W. unfold crashed in C. fold (after n h) in C. destruct (after n h) as [m|] eqn:A; [clear C|destruct C; reflexivity].
  pose proof (run_inv True _ _ m L (fun _ => Ca) A) as I. pose proof (not_found n h m c id L A N) as F.
  assert (Y : exists m1, after n (h ++ [RstDone]) = Some m1 /\ rst_busy m1 = false /\ found c id m1 = None /\ current m1 = current m /\ limit m1 = limit m).
  { rewrite after_snoc, A. cbn [step]. pose proof (i_B _ _ _ _ _ _ _ _ I Logic.I) as B0. destruct (rst_fly m) eqn:Fl; [exists (with_rst false false m)|exists m]; auto 10. }
  destruct Y as (m1 & A1 & B1 & F1 & C1 & L1). rewrite new_outs1, A1. cbn [step]. unfold handle_packet. rewrite F1.
  assert (X : (if syn then accept c id true m1 else None) = None).
  { destruct syn; [|reflexivity]. unfold accept. destruct (N.odd id); [reflexivity|]. destruct W as [W|[W|W]]; [discriminate|discriminate|]. rewrite (allocated_current n h m L A), <- (proj2 (run_lists _ _ _ A)), <- C1, <- L1 in W. apply Nat.leb_le in W. rewrite W. reflexivity. }
  rewrite X. unfold send_rst. rewrite B1. left. reflexivity.
Qed.
Lemma packet_recovers : forall n h k c id, lawful n h -> ~ crashed n h -> calm h -> In (Opened k c id) (outs (trace n h)) -> owned k (trace n h) -> ~ In (Ended k) (outs (trace n h)) ->
  In (PacketSent k) (new_outs n (h ++ [SendDone k []; Use k]) [Posted k [ESend false true]]).
Proof.
  intros n h k c id L C Ca O Ow E. unfold crashed in C. fold (after n h) in C. destruct (after n h) as [m|] eqn:A; [clear C|destruct C; reflexivity].
  destruct (done_flush n h k m L A) as (m1 & A1 & L1 & F1 & F1' & T1 & E1).
  assert (Ca1 : calm (h ++ [SendDone k []])) by (intros o Ho; apply in_app_or in Ho; destruct Ho as [Ho|[<-|[]]]; [apply Ca; exact Ho|reflexivity]).
  pose proof (run_inv True _ _ m1 L1 (fun _ => Ca1) A1) as I.
  assert (O2 : In (k, (c, id)) (opened (outs (trace n (h ++ [SendDone k []]))))). { rewrite outs_snoc, opened_app. apply in_or_app. left. unfold opened. apply in_flat_map. exists (Opened k c id). split; [exact O|left; reflexivity]. }
  destruct (i_open2 _ _ _ _ _ _ _ _ I _ _ _ O2) as (_ & [Y|(s & G & Cn & _)]); [rewrite E1 in Y; apply ended_in in Y; contradiction|].
  apply (rekey _ _ k) in I. assert (Vi := client_not_virt _ _ _ _ _ _ _ _ _ _ I G Cn). destruct (not_stopped _ _ _ _ _ _ _ _ _ _ I G Cn) as (St & _). destruct (good_of _ _ _ _ _ _ _ _ _ I G) as (_ & _ & X).
  assert (Se : k_sending s = false) by (destruct X; pose proof (F1 s G); destruct (k_sending s); [rewrite (g_B Logic.I eq_refl) in H; discriminate|reflexivity]).
  replace (h ++ [SendDone k []; Use k]) with ((h ++ [SendDone k []]) ++ [Use k]) by (rewrite <- app_assoc; reflexivity).
  assert (U : exists m2 s2, after n ((h ++ [SendDone k []]) ++ [Use k]) = Some m2 /\ get k m2 = Some s2 /\ k_posted s2 = true /\ k_sending s2 = false /\ k_conn s2 = Some (Client c) /\ k_stopped s2 = false /\ 1 < k_refs s2).
  { rewrite after_snoc, A1. cbn [step]. rewrite G, Vi. unfold deferred. rewrite G, St. cbn [lift]. unfold post. destruct (k_posted s) eqn:Po.
    - exists m1, s. repeat split; auto. destruct X. rewrite Po, (g_run St) in g_refs. cbn [b2n] in g_refs. lia.
    - eexists. eexists. split; [reflexivity|]. split; [apply (get_put_same _ _ _ _ G)|]. cbn. repeat split; auto. destruct X. lia. }
  destruct U as (m2 & s2 & A2 & G2 & P2 & S2 & C2 & St2 & R2). rewrite new_outs1, A2. cbn [step]. rewrite G2, P2. assert (G3 := get_put_same _ (set_posted false s2) _ _ G2).
  cbn [events]. rewrite G3. cbn [k_stopped set_posted]. rewrite St2. unfold send_packet. rewrite G3. cbn [k_conn k_sending set_posted]. rewrite C2, S2. unfold bind.
  set (m4 := put k (set_send true true _) _). assert (G4 : get k m4 = Some (set_send true true (set_refs (S (k_refs (set_posted false s2))) (set_posted false s2)))) by apply (get_put_same _ _ _ _ G3).
  unfold dec. rewrite G4. cbn [k_refs set_send set_refs set_posted]. destruct (k_refs s2) as [|n2]; [lia|]. left. reflexivity.
Qed.
