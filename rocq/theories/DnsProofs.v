(** Invariants of resolving. *)
From Coq Require Import List Bool Arith Lia.
From Verif Require Import DnsModel DnsSpec.
Import ListNotations.

Lemma run_app P l m s : run P s (l ++ m) = let (s1, o1) := run P s l in let (s2, o2) := run P s1 m in (s2, o1 ++ o2).
Proof.
  revert s. induction l as [|v l IH]; intros s; cbn [app run]; [destruct (run P s m); reflexivity|].
  destruct (step P s v) as [s1 o1]. rewrite IH. destruct (run P s1 l) as [s2 o2]. destruct (run P s2 m) as [s3 o3]. now rewrite app_assoc.
Qed.
Lemma run_snoc P l v s : run P s (l ++ [v]) = let (s1, o1) := run P s l in let (s2, o2) := step P s1 v in (s2, o1 ++ o2).
Proof. rewrite run_app. destruct (run P s l) as [s1 o1]. cbn [run]. destruct (step P s1 v) as [s2 o2]. now rewrite app_nil_r. Qed.

(** * The loop *)
Lemma alternate_nil_r {A} (l : list A) : alternate l [] = l.
Proof. destruct l; reflexivity. Qed.
Lemma push n (got rest : list addr) x : List.length got <= n ->
  firstn n ((if Nat.ltb (List.length got) n then got ++ [x] else got) ++ rest) = firstn n (got ++ x :: rest) /\ List.length (if Nat.ltb (List.length got) n then got ++ [x] else got) <= n.
Proof.
  intros H. destruct (Nat.ltb_spec (List.length got) n) as [L|L].
  - rewrite <- app_assoc. cbn [app]. split; [reflexivity|]. rewrite app_length. cbn. lia.
  - split; [|exact H]. rewrite !firstn_app. replace (n - List.length got) with 0 by lia. reflexivity.
Qed.
Lemma skipn_nth {A} i (l : list A) : skipn i l = match nth_error l i with Some x => x :: skipn (S i) l | None => [] end.
Proof. revert l. induction i as [|i IH]; intros [|y l]; try reflexivity. rewrite !skipn_cons. cbn [nth_error]. rewrite (IH l). destruct (nth_error l i); reflexivity. Qed.
Lemma skipn_none {A} i (l : list A) : nth_error l i = None -> skipn (S i) l = [].
Proof. intros H. apply nth_error_None in H. apply skipn_all2. lia. Qed.
Lemma fill_ok n todo : forall i a4 a6 got, List.length got <= n -> List.length (skipn i a4) <= todo -> List.length (skipn i a6) <= todo ->
  fill n i todo a4 a6 got = firstn n (got ++ alternate (skipn i a4) (skipn i a6)).
Proof.
  induction todo as [|todo IH]; intros i a4 a6 got G L4 L6.
  - destruct (skipn i a4); [|cbn in L4; lia]. destruct (skipn i a6); [|cbn in L6; lia]. cbn [fill alternate]. rewrite app_nil_r. symmetry. now apply firstn_all2.
  - cbn [fill]. rewrite (skipn_nth i a4), (skipn_nth i a6) in *.
    destruct (nth_error a4 i) as [x|] eqn:E4; destruct (nth_error a6 i) as [y|] eqn:E6; cbn [List.length] in L4, L6.
    + destruct (push n got (y :: alternate (skipn (S i) a4) (skipn (S i) a6)) x G) as [Q1 Q2]. destruct (push n _ (alternate (skipn (S i) a4) (skipn (S i) a6)) y Q2) as [Q3 Q4].
      rewrite IH by (auto; lia). cbn [alternate]. rewrite Q3, Q1. reflexivity.
    + destruct (push n got (skipn (S i) a4) x G) as [Q1 Q2]. assert (Y : (if Nat.ltb (List.length (if Nat.ltb (List.length got) n then got ++ [x] else got)) n then (if Nat.ltb (List.length got) n then got ++ [x] else got) else (if Nat.ltb (List.length got) n then got ++ [x] else got)) = (if Nat.ltb (List.length got) n then got ++ [x] else got)) by (destruct (Nat.ltb (List.length (if Nat.ltb (List.length got) n then got ++ [x] else got)) n); reflexivity).
      rewrite Y. rewrite IH; [|exact Q2|lia|rewrite (skipn_none _ _ E6); cbn; lia]. rewrite (skipn_none _ _ E6), !alternate_nil_r. exact Q1.
    + replace (if Nat.ltb (List.length got) n then got else got) with got by (destruct (Nat.ltb (List.length got) n); reflexivity).
      destruct (push n got (skipn (S i) a6) y G) as [Q1 Q2]. rewrite IH; [|exact Q2|rewrite (skipn_none _ _ E4); cbn; lia|lia]. rewrite (skipn_none _ _ E4). cbn [alternate]. exact Q1.
    + replace (if Nat.ltb (List.length got) n then got else got) with got by (destruct (Nat.ltb (List.length got) n); reflexivity).
      replace (if Nat.ltb (List.length got) n then got else got) with got by (destruct (Nat.ltb (List.length got) n); reflexivity).
      rewrite IH; [|exact G|rewrite (skipn_none _ _ E4); cbn; lia|rewrite (skipn_none _ _ E6); cbn; lia]. rewrite (skipn_none _ _ E4), (skipn_none _ _ E6). reflexivity.
Qed.
Lemma fill_all n a4 a6 : fill n 0 (List.length a4 + List.length a6) a4 a6 [] = firstn n (alternate a4 a6).
Proof. rewrite fill_ok; cbn [skipn app List.length]; [reflexivity|lia|lia|lia]. Qed.

(** * The invariant *)
Definition seen (f : fam) (w : option (nat * nat) * option (ec * list addr) * option (ec * list addr)) := match f with F4 => snd (fst w) | F6 => snd w end.
Definition SideI (c : option (nat * nat)) (r : option (ec * list addr)) (x : side) : Prop :=
  match lk x with
  | Busy => code x = InProgress /\ r = None
  | Posted e => code x = InProgress /\ e <> InProgress /\ r = Some (e, ips x)
  | Idle => code x <> InProgress /\ (c <> None -> r = Some (code x, ips x))
  end.
Definition Good (o : list out) (x : nat * ec * list addr) : Prop :=
  let '(id, e, a) := x in
  e = InProgress \/ exists o1 o2 n e4 a4 e6 a6, o = o1 ++ o2 /\ view o1 = (Some (id, n), Some (e4, a4), Some (e6, a6)) /\ outcome n e4 a4 e6 a6 e a.
Definition waits (id : nat) (s : st) : nat := List.length (filter (fun x => Nat.eqb (fst (fst x)) id) (posted s)) + match cur s with Some (j, _) => if Nat.eqb j id then 1 else 0 | None => 0 end.
Record Inv (l : list op) (o : list out) (s : st) : Prop := {
  I_4 : SideI (cur s) (seen F4 (view o)) (s4 s);
  I_6 : SideI (cur s) (seen F6 (view o)) (s6 s);
  I_cur : forall c, cur s = Some c -> fst (fst (view o)) = Some c /\ (code (s4 s) = InProgress \/ code (s6 s) = InProgress);
  I_none : cur s = None -> code (s4 s) <> InProgress /\ code (s6 s) <> InProgress;
  I_posted : forall x, In x (posted s) -> Good o x;
  I_done : forall id e a, In (Completed id e a) o -> Good o (id, e, a);
  I_count : forall id, completed id o + waits id s = requested id l }.
Lemma busy_t c : busy c = true <-> c = InProgress.
Proof. destruct c; split; intros H; try reflexivity; discriminate. Qed.
Lemma busy_f c : busy c = false <-> c <> InProgress.
Proof. destruct c; split; intros H; try reflexivity; try discriminate. destruct H. reflexivity. Qed.
Lemma is_ok_t c : is_ok c = true <-> c = Ok.
Proof. destruct c; split; intros H; try reflexivity; discriminate. Qed.
Lemma view_app o o' : view (o ++ o') = fold_left note o' (view o).
Proof. unfold view. now rewrite fold_left_app. Qed.
Lemma good_app o o' x : Good o x -> Good (o ++ o') x.
Proof. destruct x as [[id e] a]. intros [H|(o1 & o2 & n & e4 & a4 & e6 & a6 & -> & H)]; [now left|right]. exists o1, (o2 ++ o'), n, e4, a4, e6, a6. now rewrite app_assoc. Qed.
Lemma completed_app id o o' : completed id (o ++ o') = completed id o + completed id o'.
Proof. unfold completed. now rewrite filter_app, app_length. Qed.
Lemma requested_app id l l' : requested id (l ++ l') = requested id l + requested id l'.
Proof. unfold requested. now rewrite filter_app, app_length. Qed.
(** What a lookup ending does. *)
Definition LookedOnly (o : list out) : Prop := forall x, In x o -> exists f e a, x = Looked f e a.
Lemma looked_completed id o : LookedOnly o -> completed id o = 0.
Proof. intros H. unfold completed. induction o as [|x o IH]; [reflexivity|]. destruct (H x (or_introl eq_refl)) as (f & e & a & ->). cbn. apply IH. intros y Y. apply H. now right. Qed.
Lemma inv_looked l l' o o' s s' : Inv l o s -> LookedOnly o' -> (forall id, requested id l' = requested id l) -> posted s' = posted s -> cur s' = cur s ->
  code (s4 s') = code (s4 s) -> code (s6 s') = code (s6 s) -> SideI (cur s) (seen F4 (view (o ++ o'))) (s4 s') -> SideI (cur s) (seen F6 (view (o ++ o'))) (s6 s') -> fst (fst (view (o ++ o'))) = fst (fst (view o)) -> Inv l' (o ++ o') s'.
Proof.
  intros [I1 I2 I3 I4 I5 I6 I7] LO RQ EP EC E4 E6 H4 H6 HV. split; rewrite ?EC, ?EP, ?E4, ?E6; auto.
  - rewrite HV. exact I3.
  - intros x X. now apply good_app, I5.
  - intros id e a X. apply good_app. apply in_app_or in X. destruct X as [X|X]; [exact (I6 _ _ _ X)|]. destruct (LO _ X) as (f & e' & a' & Y). discriminate.
  - intros id. rewrite RQ, <- I7, completed_app, (looked_completed _ _ LO). unfold waits. rewrite EP, EC. lia.
Qed.
Lemma looked1 f e a : LookedOnly [Looked f e a].
Proof. intros x [<- | []]. eauto. Qed.
Lemma inv_ended l l' o s f e a : Inv l o s -> (forall id, requested id l' = requested id l) -> lk (side_of f s) = Busy -> e <> InProgress ->
  Inv l' (o ++ snd (ended f e a s)) (fst (ended f e a s)).
Proof.
  intros I RQ B NE. unfold ended. cbn [fst snd]. pose proof (I_4 _ _ _ I) as K4. pose proof (I_6 _ _ _ I) as K6. unfold SideI in *.
  destruct (view o) as [[c r4] r6] eqn:V. destruct f; cbn [side_of set_side seen fst snd] in *; rewrite B in *; (apply (inv_looked l l' o _ s); auto using looked1; cbn [s4 s6 lk code]; try (rewrite view_app, V; cbn); unfold SideI; cbn [lk code ips]; rewrite ?view_app, ?V; cbn; try tauto).
Qed.
Lemma inv_same l l' o s : Inv l o s -> (forall id, requested id l' = requested id l) -> Inv l' (o ++ []) s.
Proof. rewrite app_nil_r. intros [I1 I2 I3 I4 I5 I6 I7] H. split; auto. intros id. now rewrite H. Qed.
Lemma inv_stopped l o s b : Inv l o s -> Inv l o {| s4 := s4 s; s6 := s6 s; cur := cur s; posted := posted s; stopped := b; dead := dead s |}.
Proof. intros [I1 I2 I3 I4 I5 I6 I7]. now split. Qed.
Lemma ended_dead f e a s : dead (fst (ended f e a s)) = dead s.
Proof. destruct f; reflexivity. Qed.
Lemma ended_other f e a s g : f <> g -> side_of g (fst (ended f e a s)) = side_of g s.
Proof. destruct f, g; try congruence; reflexivity. Qed.
Lemma start_other P f h al s g : f <> g -> side_of g (fst (start P f h al s)) = side_of g s.
Proof. intros H. unfold start. destruct P, (stopped s), f, h, al; try (apply ended_other; exact H); reflexivity. Qed.
Lemma inv_start P l o s f h al : Inv l o s -> lk (side_of f s) = Busy -> Inv l (o ++ snd (start P f h al s)) (fst (start P f h al s)).
Proof.
  intros I B. unfold start. destruct P, (stopped s), f, h, al; try (apply inv_ended with (l := l); auto; discriminate); apply inv_same with (l := l); auto.
Qed.
Lemma start_dead P f h al s : dead (fst (start P f h al s)) = dead s.
Proof. unfold start. destruct P, (stopped s), f, h, al; reflexivity. Qed.
Lemma inv_step P l o s v : Inv l o s -> dead s = false -> dead (fst (step P s v)) = false -> Inv (l ++ [v]) (o ++ snd (step P s v)) (fst (step P s v)).
Proof.
  intros I D D'. unfold step in *. rewrite D in *. assert (RQ : forall id, requested id (l ++ [v]) = requested id l + match v with Resolve j _ _ _ _ => if Nat.eqb j id then 1 else 0 | _ => 0 end).
  { intros id. rewrite requested_app. f_equal. unfold requested. destruct v; cbn; try reflexivity. destruct (Nat.eqb id0 id); reflexivity. }
  destruct v as [id h n al4 al6|f r|f| |w4 w6].
  - unfold resolve in *. destruct (busy (code (s4 s)) || busy (code (s6 s))) eqn:B.
    + cbn [fst snd]. rewrite app_nil_r. destruct I as [I1 I2 I3 I4 I5 I6 I7]. split; cbn [post posted cur s4 s6]; auto.
      * intros x X. apply in_app_or in X. destruct X as [X|[<- | []]]; [auto|now left].
      * intros j. rewrite RQ, <- I7. unfold waits. cbn [post posted cur]. rewrite filter_app, app_length. cbn. destruct (Nat.eqb id j); cbn; lia.
    + apply orb_false_elim in B. destruct B as [B4 B6]. apply busy_f in B4, B6.
      set (s0 := {| s4 := {| lk := Busy; code := InProgress; ips := [] |}; s6 := {| lk := Busy; code := InProgress; ips := [] |}; cur := Some (id, n); posted := posted s; stopped := stopped s; dead := dead s |}) in *.
      assert (I0 : Inv (l ++ [Resolve id h n al4 al6]) (o ++ [Started id n]) s0).
      { assert (CN : cur s = None) by (destruct (cur s) as [c|] eqn:E; [destruct (I_cur _ _ _ I c E) as [_ [X|X]]; congruence|reflexivity]).
        destruct I as [I1 I2 I3 I4 I5 I6 I7]. split; cbn [s0 s4 s6 cur posted code]; rewrite ?view_app; cbn [fold_left note seen fst snd].
        - unfold SideI; cbn; auto.
        - unfold SideI; cbn; auto.
        - intros c [= <-]. auto.
        - discriminate.
        - intros x X. now apply good_app, I5.
        - intros j e a X. apply good_app. apply in_app_or in X. destruct X as [X|[X|[]]]; [exact (I6 _ _ _ X)|discriminate].
        - intros j. rewrite RQ, <- I7, completed_app. unfold waits. rewrite CN. cbn. lia. }
      pose proof (inv_start P _ _ _ F4 h al4 I0 eq_refl) as J4. pose proof (start_other P F4 h al4 s0 F6 ltac:(discriminate)) as SO. cbn [side_of] in SO.
      destruct (start P F4 h al4 s0) as [s1 o4]. cbn [fst snd] in *.
      assert (B1 : lk (side_of F6 s1) = Busy) by (cbn [side_of]; rewrite SO; reflexivity).
      pose proof (inv_start P _ _ _ F6 h al6 J4 B1) as J6. destruct (start P F6 h al6 s1) as [s2 o6]. cbn [fst snd] in *. rewrite <- !app_assoc in J6. cbn [app] in J6. exact J6.
  - unfold answer in *. destruct (lk (side_of f s)) eqn:B; try (apply inv_same with (l := l); [exact I|intros; rewrite RQ; lia]).
    destruct P, r as [a|]; try (destruct (Nat.ltb cap (List.length a)); [discriminate D'|]); apply inv_ended with (l := l); auto; try discriminate; try (intros; rewrite RQ; lia). destruct a; discriminate.
  - assert (R0 : forall id, requested id (l ++ [Fire f]) = requested id l) by (intros; rewrite RQ; lia).
    unfold fire in *. destruct (lk (side_of f s)) as [| |e] eqn:B; try (apply inv_same with (l := l); assumption).
    set (s1 := set_side f {| lk := Idle; code := e; ips := ips (side_of f s) |} s) in *.
    assert (P1 : posted s1 = posted s /\ cur s1 = cur s) by (destruct f; split; reflexivity). destruct P1 as [P1 C1].
    assert (S4 : SideI (cur s) (seen F4 (view o)) (s4 s1) /\ SideI (cur s) (seen F6 (view o)) (s6 s1)).
    { pose proof (I_4 _ _ _ I) as K4. pose proof (I_6 _ _ _ I) as K6. subst s1. unfold SideI in K4, K6. destruct f; cbn [side_of set_side s4 s6] in *; rewrite B in *; split; try assumption; unfold SideI; cbn [lk code ips]; tauto. }
    destruct S4 as [S4 S6]. clearbody s1.
    destruct (busy (code (s4 s1)) || busy (code (s6 s1))) eqn:BB.
    + cbn [fst snd]. rewrite app_nil_r. apply orb_true_iff in BB. rewrite !busy_t in BB. assert (CS : cur s <> None).
      { intros E. destruct (I_none _ _ _ I E) as [N4 N6]. pose proof (I_4 _ _ _ I) as K4. pose proof (I_6 _ _ _ I) as K6. unfold SideI in K4, K6. destruct f; cbn [side_of] in B; rewrite B in *; tauto. }
      destruct I as [I1 I2 I3 I4 I5 I6 I7]. split; rewrite ?P1, ?C1; auto.
      * intros c E. destruct (I3 c E) as [V _]. auto.
      * intros j. rewrite R0, <- I7. unfold waits. now rewrite P1, C1.
    + apply orb_false_elim in BB. rewrite !busy_f in BB. destruct BB as [N4 N6]. rewrite C1. destruct (cur s) as [[id n]|] eqn:CS.
      * destruct (resolved_ec n (s4 s1) (s6 s1)) as [e1 a1] eqn:RE. cbn [fst snd]. rewrite app_nil_r. destruct (I_cur _ _ _ I _ CS) as [V _].
        assert (G : Good o (id, e1, a1)).
        { right. exists o, [], n, (code (s4 s1)), (ips (s4 s1)), (code (s6 s1)), (ips (s6 s1)). rewrite app_nil_r. split; [reflexivity|]. split.
          - unfold SideI in S4, S6. assert (T4 : seen F4 (view o) = Some (code (s4 s1), ips (s4 s1))) by (destruct (lk (s4 s1)); [apply S4; discriminate|tauto|tauto]).
            assert (T6 : seen F6 (view o) = Some (code (s6 s1), ips (s6 s1))) by (destruct (lk (s6 s1)); [apply S6; discriminate|tauto|tauto]).
            destruct (view o) as [[c r4] r6]. cbn in *. congruence.
          - unfold resolved_ec in RE. destruct (is_ok (code (s4 s1))) eqn:O4; [apply is_ok_t in O4|]; [|destruct (is_ok (code (s6 s1))) eqn:O6; [apply is_ok_t in O6|]]; cbn [negb andb] in RE; injection RE as <- <-.
            + right. split; [now left|]. split; [reflexivity|apply fill_all].
            + right. split; [now right|]. split; [reflexivity|apply fill_all].
            + left. split; [intros E; apply is_ok_t in E; congruence|]. split; [intros E; apply is_ok_t in E; congruence|reflexivity]. }
        destruct I as [I1 I2 I3 I4 I5 I6 I7]. split; cbn [post posted cur s4 s6]; rewrite ?P1; auto.
        -- clear - S4 N4. unfold SideI in *. destruct (lk (s4 s1)); [|tauto|tauto]. split; [tauto|]. intros X. now destruct X.
        -- clear - S6 N6. unfold SideI in *. destruct (lk (s6 s1)); [|tauto|tauto]. split; [tauto|]. intros X. now destruct X.
        -- discriminate.
        -- intros x X. apply in_app_or in X. destruct X as [X|[<- | []]]; auto.
        -- intros j. rewrite R0, <- I7. unfold waits. cbn [post posted cur]. rewrite CS, filter_app, app_length. cbn. destruct (Nat.eqb id j); cbn; lia.
      * cbn [fst snd]. rewrite app_nil_r. destruct I as [I1 I2 I3 I4 I5 I6 I7]. split; rewrite ?P1, ?C1, ?CS; auto; [discriminate|].
        intros j. rewrite R0, <- I7. unfold waits. now rewrite P1, C1, CS.
  - assert (R0 : forall id, requested id (l ++ [Deliver]) = requested id l) by (intros; rewrite RQ; lia).
    unfold deliver in *. destruct (posted s) as [|[[id e] a] q] eqn:EP; [apply inv_same with (l := l); assumption|]. cbn [fst snd].
    destruct I as [I1 I2 I3 I4 I5 I6 I7]. rewrite EP in I5. split; cbn [posted cur s4 s6]; rewrite ?view_app; cbn [fold_left note]; auto.
    + intros x X. apply good_app, I5. now right.
    + intros j e' a' X. apply good_app. apply in_app_or in X. destruct X as [X|[X|[]]]; [exact (I6 _ _ _ X)|]. injection X as <- <- <-. apply I5. now left.
    + intros j. rewrite R0, <- I7, completed_app. unfold waits. cbn [posted cur]. rewrite EP. unfold completed. cbn. destruct (Nat.eqb id j); cbn; lia.
  - assert (R0 : forall id, requested id (l ++ [Stop w4 w6]) = requested id l) by (intros; rewrite RQ; lia).
    unfold stop in *. destruct (stopped s); [apply inv_same with (l := l); assumption|].
    set (s0 := {| s4 := s4 s; s6 := s6 s; cur := cur s; posted := posted s; stopped := true; dead := dead s |}) in *.
    assert (I0 : Inv l o s0) by (apply inv_stopped; exact I). clearbody s0.
    destruct P; [|apply inv_same with (l := l); assumption].
    assert (J4 : let X := match lk (s4 s0), w4 with Busy, false => ended F4 Stopped [] s0 | _, _ => (s0, []) end in Inv (l ++ [Stop w4 w6]) (o ++ snd X) (fst X)).
    { destruct (lk (s4 s0)) eqn:B; try (apply inv_same with (l := l); assumption). destruct w4; [apply inv_same with (l := l); assumption|]. apply inv_ended with (l := l); auto. discriminate. }
    destruct (match lk (s4 s0), w4 with Busy, false => ended F4 Stopped [] s0 | _, _ => (s0, []) end) as [s1 o4]. cbn [fst snd] in J4.
    assert (J6 : let X := match lk (s6 s1), w6 with Busy, false => ended F6 Stopped [] s1 | _, _ => (s1, []) end in Inv (l ++ [Stop w4 w6]) ((o ++ o4) ++ snd X) (fst X)).
    { destruct (lk (s6 s1)) eqn:B; try (apply inv_same with (l := l ++ [Stop w4 w6]); [assumption|reflexivity]). destruct w6; [eapply inv_same; [eassumption|reflexivity]|]. eapply inv_ended; [eassumption|reflexivity|exact B|]. discriminate. }
    destruct (match lk (s6 s1), w6 with Busy, false => ended F6 Stopped [] s1 | _, _ => (s1, []) end) as [s2 o6]. cbn [fst snd] in *. now rewrite <- app_assoc in J6.
Qed.
Lemma dead_stays P s v : dead s = true -> step P s v = (s, []).
Proof. intros D. unfold step. now rewrite D. Qed.
Lemma inv_run P l s o : run P init l = (s, o) -> dead s = false -> Inv l o s.
Proof.
  revert s o. induction l as [|v l IH] using rev_ind; intros s o R D.
  - injection R as <- <-. split; [split; [discriminate|intros X; destruct (X eq_refl)]|split; [discriminate|intros X; destruct (X eq_refl)]|discriminate|intros _; split; discriminate|intros x []|intros id e a []|intros id; reflexivity].
  - rewrite run_snoc in R. destruct (run P init l) as [s1 o1]. assert (D1 : dead s1 = false).
    { destruct (dead s1) eqn:E; [|reflexivity]. rewrite (dead_stays P s1 v E) in R. injection R as <- <-. congruence. }
    pose proof (inv_step P l o1 s1 v (IH _ _ eq_refl D1) D1) as J. destruct (step P s1 v) as [s2 o2]. injection R as <- <-. cbn [fst snd] in J. auto.
Qed.
(** Dead exactly after a write outside. *)
Lemma ended_crash f e a s : ~ In Crash (snd (ended f e a s)).
Proof. intros [X|[]]. discriminate. Qed.
Lemma start_crash P f h al s : ~ In Crash (snd (start P f h al s)).
Proof. unfold start. destruct P, (stopped s), f, h, al; (apply ended_crash || (intros [])). Qed.
Lemma step_crash P s v : dead s = false -> (In Crash (snd (step P s v)) <-> dead (fst (step P s v)) = true) /\ (dead (fst (step P s v)) = true -> P = Unix /\ exists f a, v = Answer f (Some a) /\ cap < List.length a).
Proof.
  intros D. unfold step. rewrite D. destruct v as [id h n al4 al6|f r|f| |w4 w6].
  - unfold resolve. destruct (busy (code (s4 s)) || busy (code (s6 s))); [cbn; rewrite D; repeat split; try tauto; discriminate|].
    set (s0 := {| s4 := _; s6 := _; cur := Some (id, n); posted := posted s; stopped := stopped s; dead := dead s |}).
    pose proof (start_dead P F4 h al4 s0) as X4. pose proof (start_crash P F4 h al4 s0) as Y4. destruct (start P F4 h al4 s0) as [s1 o4]. pose proof (start_dead P F6 h al6 s1) as X6. pose proof (start_crash P F6 h al6 s1) as Y6. destruct (start P F6 h al6 s1) as [s2 o6]. cbn [fst snd] in *.
    assert (Z : dead s2 = false) by (rewrite X6, X4; exact D). rewrite Z. split; [split; [|discriminate]|discriminate]. intros [X|X]; [discriminate|]. apply in_app_or in X. tauto.
  - unfold answer. destruct (lk (side_of f s)); try (cbn; rewrite D; repeat split; try tauto; discriminate).
    assert (NC : forall e a, let X := ended f e a s in (In Crash (snd X) <-> dead (fst X) = true) /\ (dead (fst X) = true -> P = Unix /\ exists f' a', Answer f r = Answer f' (Some a') /\ cap < List.length a')).
    { intros e a X. assert (DX : dead (fst X) = false) by (subst X; rewrite ended_dead; exact D). rewrite DX. split; [split; [intros Y; destruct (ended_crash _ _ _ _ Y)|discriminate]|discriminate]. }
    destruct P, r as [a|]; try (apply NC). destruct (Nat.ltb_spec cap (List.length a)) as [L|L]; [|apply NC]. cbn. split; [tauto|]. intros _. split; [reflexivity|]. eauto.
  - unfold fire. destruct (lk (side_of f s)); try (cbn; rewrite D; repeat split; try tauto; discriminate).
    set (s1 := set_side f _ s). assert (D1 : dead s1 = false) by (destruct f; exact D). clearbody s1.
    destruct (busy (code (s4 s1)) || busy (code (s6 s1))); [cbn; rewrite D1; repeat split; try tauto; discriminate|]. destruct (cur s1) as [[id n]|]; [|cbn; rewrite D1; repeat split; try tauto; discriminate].
    destruct (resolved_ec n (s4 s1) (s6 s1)). cbn. rewrite D1. repeat split; try tauto; discriminate.
  - unfold deliver. destruct (posted s) as [|[[id e] a] q]; cbn; rewrite D; repeat split; try tauto; try discriminate. intros [X|[]]. discriminate.
  - unfold stop. destruct (stopped s); [cbn; rewrite D; repeat split; try tauto; discriminate|]. set (s0 := {| s4 := _; s6 := _; cur := _; posted := _; stopped := true; dead := _ |}). assert (D0 : dead s0 = false) by exact D. clearbody s0.
    destruct P; [|cbn; rewrite D0; repeat split; try tauto; discriminate].
    assert (X4 : let X := match lk (s4 s0), w4 with Busy, false => ended F4 Stopped [] s0 | _, _ => (s0, []) end in dead (fst X) = false /\ ~ In Crash (snd X)).
    { destruct (lk (s4 s0)), w4; (split; [exact D0|]); first [apply ended_crash | intros []]. }
    destruct (match lk (s4 s0), w4 with Busy, false => ended F4 Stopped [] s0 | _, _ => (s0, []) end) as [s1 o4]. cbn [fst snd] in X4. destruct X4 as [D1 N1].
    assert (X6 : let X := match lk (s6 s1), w6 with Busy, false => ended F6 Stopped [] s1 | _, _ => (s1, []) end in dead (fst X) = false /\ ~ In Crash (snd X)).
    { destruct (lk (s6 s1)), w6; (split; [exact D1|]); first [apply ended_crash | intros []]. }
    destruct (match lk (s6 s1), w6 with Busy, false => ended F6 Stopped [] s1 | _, _ => (s1, []) end) as [s2 o6]. cbn [fst snd] in *. destruct X6 as [D2 N2]. rewrite D2. split; [split; [|discriminate]|discriminate]. intros X. apply in_app_or in X. tauto.
Qed.
Lemma crash_dead P l s o : run P init l = (s, o) -> (In Crash o <-> dead s = true) /\ (dead s = true -> P = Unix /\ exists f a, In (Answer f (Some a)) l /\ cap < List.length a).
Proof.
  revert s o. induction l as [|v l IH] using rev_ind; intros s o R.
  - injection R as <- <-. cbn. repeat split; try tauto; discriminate.
  - rewrite run_snoc in R. destruct (run P init l) as [s1 o1]. destruct (IH _ _ eq_refl) as [IH1 IH2]. destruct (dead s1) eqn:D1.
    + rewrite (dead_stays P s1 v D1) in R. injection R as <- <-. rewrite app_nil_r, D1. split; [exact IH1|]. intros _. destruct (IH2 eq_refl) as (X & f & a & Y & Z). split; [exact X|]. exists f, a. split; [apply in_or_app; now left|exact Z].
    + destruct (step_crash P s1 v D1) as [S1 S2]. destruct (step P s1 v) as [s2 o2]. injection R as <- <-. cbn [fst snd] in *. rewrite in_app_iff, S1. split.
      * split; [intros [X|X]; [apply IH1 in X; discriminate|exact X]|now right].
      * intros X. destruct (S2 X) as (Y & f & a & -> & Z). split; [exact Y|]. exists f, a. split; [apply in_or_app; right; now left|exact Z].
Qed.
