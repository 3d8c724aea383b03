(** Virtual CoAP requests: the invariant holds in every history, and what follows. *)
From Coq Require Import List Bool Arith Lia Ascii String.
From Verif Require Import VcoModel VcoSpec VcoProofs VcoHist VcoApi VcoCore VcoInv.
Import ListNotations.
Local Open Scope list_scope.

Lemma freeing l n s s' o o' : CoreI l s o -> Does (Free n) s s' o' -> CoreI (l ++ [Free n]) s' (o ++ o').
Proof.
  intros I (a & Ea & El & Hc & Hap & H). pose proof I as [I1 I2 I3 I4 I5].
  assert (NO : forall k, existsb (names k) o' = false) by (intros k; destruct H as [(_ & _ & ->) | (j & c & _ & _ & _ & [(_ & _ & ->) | (_ & _ & ->)])]; reflexivity).
  assert (NE : forall m k, ~ In (Executed m k) o') by (intros m k X; destruct H as [(_ & _ & ->) | (j & c & _ & _ & _ & [(_ & _ & ->) | (_ & _ & ->)])]; try destruct X as [X|[]]; try discriminate; destruct X).
  assert (SM : forall k, Same k l (l ++ [Free n]) o (o ++ o')) by (intros k; apply same_snoc; auto).
  assert (EX : execs (l ++ [Free n]) = execs l) by (rewrite execs_snoc; apply app_nil_r).
  assert (CL : closedb (l ++ [Free n]) = closedb l) by (rewrite closedb_snoc; apply orb_false_r).
  assert (AP : forall m x', nth_error (apis s') m = Some x' -> exists x, nth_error (apis s) m = Some x /\ core x' = core x /\ fut x' = fut x /\ ready x' = ready x /\ (m <> n -> live x' = live x) /\ (m = n -> live x' = false)).
  { intros m x' E. rewrite Hap, nth_upd in E. destruct (Nat.eqb_spec m n) as [-> | N]; [|exists x'; repeat split; auto; congruence]. rewrite Ea in E. injection E as <-. exists a. repeat split; auto; congruence. }
  assert (AP2 : forall m x, nth_error (apis s) m = Some x -> exists x', nth_error (apis s') m = Some x' /\ core x' = core x /\ fut x' = fut x /\ ready x' = ready x /\ (m <> n -> live x' = live x) /\ (m = n -> live x' = false)).
  { intros m x E. rewrite Hap, nth_upd. destruct (Nat.eqb_spec m n) as [-> | N]; [|exists x; repeat split; auto; congruence]. rewrite Ea. cbn [option_map]. eexists. split; [reflexivity|]. assert (x = a) by congruence. subst x. repeat split; auto; congruence. }
  assert (CS : forall k c', nth_error (cores s') k = Some c' -> exists c, nth_error (cores s) k = Some c /\ who c' = who c /\ CoreP (l ++ [Free n]) (o ++ o') (conn s) (apis s') k c').
  { assert (OTHER : forall k c, nth_error (cores s) k = Some c -> who c <> n -> CoreP (l ++ [Free n]) (o ++ o') (conn s) (apis s') k c).
    { intros k c E W. eapply core_keep; [apply I1; exact E|apply SM|]. intros x Ex. destruct (AP2 _ _ Ex) as (x' & E' & K1 & K2 & K3 & K4 & _). exists x'. split; [exact E'|]. repeat split; auto. }
    destruct H as [(Cn & HC & ->) | (j & c & Cj & Ej & Gj & H)].
    - intros k c' E. rewrite HC in E. exists c'. split; [exact E|]. split; [reflexivity|]. apply OTHER; [exact E|]. intros X.
      destruct (P_api _ _ _ _ _ _ (I1 _ _ E)) as (b & f & Q1 & Q2 & _). rewrite X in Q1. congruence.
    - destruct (I2 _ _ Ea) as (L1 & _). destruct (L1 _ Cj) as (c2 & C2 & W2). assert (c2 = c) by congruence. subst c2.
      intros k c' E. destruct (Nat.eq_dec k j) as [-> | N].
      + exists c. split; [exact Ej|]. destruct (I1 _ _ Ej) as [(b & f & Q1 & Q2 & Q3 & Q4 & Q5 & Q6) P2 P3 P4 P5 P6 P7 P8 P9 P10 P11]. destruct (SM j) as [S1 S2 S3 S4 S5 S6 S7].
        assert (WH : forall w, w = who c -> exists b' f', nth_error (apis s') w = Some b' /\ core b' = Some j /\ fut b' = Some f' /\ true = negb (live b') /\ ready b' = okb j o /\ (ready b' = true -> rready c = true)).
        { intros w ->. destruct (AP2 _ _ Q1) as (b' & E' & K1 & K2 & K3 & _ & K5). exists b', f. rewrite K1, K2, K3, (K5 W2). repeat split; auto. }
        destruct H as [(Sf & HC & ->) | (Sf & HC & ->)]; rewrite HC, nth_upd, Nat.eqb_refl, Ej in E; injection E as <-; (split; [reflexivity|]);
          (constructor; rewrite ?S1, ?S2, ?S3, ?S4, ?S5, ?S6, ?S7; cbn [set_gone set_cfreed who resolved rready cfreed sfreed closed gone rpay rsize rfmt rcode]; auto); try (rewrite ?Gj, ?Sf; auto; fail); try (intros X; rewrite orb_true_r; reflexivity).
      + destruct H as [(Sf & HC & ->) | (Sf & HC & ->)]; rewrite HC, nth_upd, (proj2 (Nat.eqb_neq k j)) in E by auto; exists c'; (split; [exact E|]; split; [reflexivity|]; apply OTHER; [exact E|]);
          intros X; destruct (P_api _ _ _ _ _ _ (I1 _ _ E)) as (b & f & Q1 & Q2 & _); rewrite X in Q1; congruence. }
  assert (CB : forall k c, nth_error (cores s) k = Some c -> exists c', nth_error (cores s') k = Some c' /\ who c' = who c).
  { intros k c E. assert (L : k < List.length (cores s')) by (apply nth_lt in E; destruct H as [(_ & -> & _) | (j & c2 & _ & _ & _ & [(_ & -> & _) | (_ & -> & _)])]; rewrite ?len_upd; exact E).
    apply nth_error_Some in L. destruct (nth_error (cores s') k) as [c'|] eqn:E'; [|congruence]. destruct (CS _ _ E') as (c2 & E2 & W & _). exists c'. split; [reflexivity|]. congruence. }
  assert (LEN : List.length (cores s') = List.length (cores s)) by (destruct H as [(_ & -> & _) | (j & c2 & _ & _ & _ & [(_ & -> & _) | (_ & -> & _)])]; rewrite ?len_upd; reflexivity).
  constructor.
  - intros k c E. rewrite Hc. destruct (CS _ _ E) as (_ & _ & _ & CP). exact CP.
  - intros m x' E. rewrite EX. destruct (AP _ _ E) as (x & Ex & K1 & K2 & K3 & _). rewrite K1, K2, K3. destruct (I2 _ _ Ex) as (J1 & J2 & J3 & J4 & J5). split; [|split; [exact J2|split; [|split; [exact J4|exact J5]]]].
    + intros k X. destruct (J1 _ X) as (c & Y1 & Y2). destruct (CB _ _ Y1) as (c' & Z1 & Z2). exists c'. split; [exact Z1|congruence].
    + intros f X. destruct (J3 _ X) as (al & fd & Y). exists al, fd. apply in_or_app. now left.
  - intros k Hle. rewrite LEN in Hle. eapply none_same; [apply SM|auto].
  - intros m k. rewrite in_app_iff, I4. split.
    + intros [(c & X1 & X2)|X]; [|destruct (NE _ _ X)]. destruct (CB _ _ X1) as (c' & Z1 & Z2). exists c'. split; [exact Z1|congruence].
    + intros (c' & X1 & X2). left. destruct (CS _ _ X1) as (c & E & W & _). exists c. split; [exact E|congruence].
  - intros k f e X. destruct (SM k) as [S1 S2 S3 S4 _ _ _]. rewrite S2, S3, CL. apply in_app_or in X. destruct X as [X|X].
    + destruct (I5 _ _ _ X) as (c & x & Y1 & Y2 & Y3 & Y4). destruct (CB _ _ Y1) as (c' & Z1 & Z2). destruct (AP2 _ _ Y2) as (x' & E' & K1 & K2 & _). exists c', x'. rewrite Z2, K2. auto.
    + exfalso. assert (Y : existsb (names k) o' = true) by (apply existsb_exists; exists (Resolved k f e); split; [exact X|apply Nat.eqb_refl]). now rewrite NO in Y.
Qed.
Lemma shutting l s s' o o' : CoreI l s o -> Does ConnFree s s' o' -> CoreI (l ++ [ConnFree]) s' (o ++ o').
Proof.
  intros [I1 I2 I3 I4 I5] (H1 & Hc & Hap & HC & HO & HL).
  assert (HA : forall k, handedb k o' = false).
  { intros k. destruct (handedb k o') eqn:E; [|reflexivity]. apply handedb_in in E. destruct E as (p & d & f & X). apply HO in X. destruct X as (? & ? & ? & ? & X & _). discriminate. }
  assert (OK : forall k, okb k o' = false).
  { intros k. destruct (okb k o') eqn:E; [|reflexivity]. apply okb_in in E. destruct E as (f & X). apply HO in X. destruct X as (? & ? & ? & ? & X & _). discriminate. }
  assert (SM : forall k, Same k l (l ++ [ConnFree]) o (o ++ o')).
  { intros k. assert (E : existsb (names k) [] = false) by reflexivity. destruct (same_snoc k l ConnFree o [] eq_refl E) as [S1 S2 _ _ S5 S6 S7]. constructor; auto; [now rewrite handedb_app, HA, orb_false_r | now rewrite okb_app, OK, orb_false_r]. }
  assert (EX : execs (l ++ [ConnFree]) = execs l) by (rewrite execs_snoc; apply app_nil_r).
  assert (CL : closedb (l ++ [ConnFree]) = true) by (rewrite closedb_snoc; apply orb_true_r).
  assert (NT : forall k, nth_error (cores s') k = option_map shut (nth_error (cores s) k)) by (intros k; rewrite HC; apply nth_error_map).
  assert (WS : forall c, who (shut c) = who c) by (intros c; unfold shut; destruct (gone c); reflexivity).
  constructor.
  - intros k c' E. rewrite NT in E. destruct (nth_error (cores s) k) as [c|] eqn:Ec; [|discriminate]. injection E as <-. rewrite Hc, Hap.
    destruct (I1 _ _ Ec) as [(b & f & Q1 & Q2 & Q3 & Q4 & Q5 & Q6) P2 P3 P4 P5 P6 P7 P8 P9 P10 P11]. destruct (SM k) as [S1 S2 S3 S4 S5 S6 S7]. unfold shut. destruct (gone c) eqn:Eg.
    + constructor; rewrite ?S1, ?S2, ?S3, ?S4, ?S5, ?S6, ?S7; auto; [exists b, f; repeat split; auto | congruence | intros X; destruct (P4 X); split; congruence | intros _; rewrite Eg; apply orb_true_r].
    + constructor; rewrite ?S1, ?S2, ?S3, ?S4, ?S5, ?S6, ?S7; cbn [set_resolved set_closed who resolved rready cfreed sfreed closed gone rpay rsize rfmt rcode]; auto; [exists b, f; repeat split; auto | congruence].
  - intros n a E. rewrite Hap in E. rewrite EX. destruct (I2 _ _ E) as (J1 & J2 & J3 & J4 & J5). split; [|split; [exact J2|split; [|split; [exact J4|exact J5]]]].
    + intros k X. destruct (J1 _ X) as (c & Y1 & Y2). exists (shut c). rewrite NT, Y1, WS. auto.
    + intros f X. destruct (J3 _ X) as (al & fd & Y). exists al, fd. apply in_or_app. now left.
  - intros k Hle. rewrite HC, map_length in Hle. eapply none_same; [apply SM|auto].
  - intros n k. rewrite in_app_iff, I4, NT. split.
    + intros [(c & X1 & X2)|X]; [exists (shut c); rewrite X1, WS; auto|]. apply HO in X. destruct X as (? & ? & ? & ? & X & _). discriminate.
    + intros (c' & X1 & X2). destruct (nth_error (cores s) k) as [c|] eqn:Ec; [|discriminate]. injection X1 as <-. left. exists c. rewrite WS in X2. auto.
  - intros k f e X. destruct (SM k) as [S1 S2 S3 S4 _ _ _]. rewrite S2, S3, CL, Hap. apply in_app_or in X. destruct X as [X|X].
    + destruct (I5 _ _ _ X) as (c & x & Y1 & Y2 & Y3 & Y4). exists (shut c), x. rewrite NT, Y1, WS. split; [reflexivity|]. split; [exact Y2|]. split; [exact Y3|]. destruct Y4 as [Y4|[Y4 _]]; auto.
    + apply HO in X. destruct X as (j & c & a & f' & X & X1 & X2 & X3 & X4 & X5 & X6). injection X as <- <- ->. exists (shut c), a. rewrite NT, X1, WS. repeat split; auto.
Qed.
Lemma core_step l v s o s' o' : ApiI l s o -> CoreI l s o -> Single (l ++ [v]) -> Does v s s' o' -> CoreI (l ++ [v]) s' (o ++ o').
Proof.
  intros A I SG H.
  assert (UPD : forall n (f : api -> api), (forall a, like a (f a)) -> apis s' = upd n f (apis s) -> (forall m a, nth_error (apis s) m = Some a -> exists a', nth_error (apis s') m = Some a' /\ like a a') /\
     (forall m a', nth_error (apis s') m = Some a' -> (exists a, nth_error (apis s) m = Some a /\ like a a') \/ (core a' = None /\ fut a' = None /\ ready a' = false /\ ~ In m (execs l)))).
  { intros n f F E. rewrite E. split.
    - intros m a X. rewrite nth_upd. destruct (Nat.eqb m n); [rewrite X; cbn [option_map]; eexists; split; [reflexivity|apply F]|]. exists a. split; [exact X|apply like_refl].
    - intros m a' X. left. rewrite nth_upd in X. destruct (Nat.eqb m n); [|exists a'; split; [exact X|apply like_refl]]. destruct (nth_error (apis s) m) as [a|]; [|discriminate]. injection X as <-. exists a. auto. }
  assert (ID : apis s' = apis s -> (forall m a, nth_error (apis s) m = Some a -> exists a', nth_error (apis s') m = Some a' /\ like a a') /\
     (forall m a', nth_error (apis s') m = Some a' -> (exists a, nth_error (apis s) m = Some a /\ like a a') \/ (core a' = None /\ fut a' = None /\ ready a' = false /\ ~ In m (execs l)))).
  { intros E. rewrite E. split; intros m a X; [exists a|left; exists a]; (split; [exact X|apply like_refl]). }
  assert (GT : forall n (v0 : op), v = v0 -> (v0 = GetCode n \/ v0 = GetFormat n \/ v0 = GetPayload n) -> CoreI (l ++ [v]) s' (o ++ o')).
  { intros n v0 -> V. assert (G : s' = s /\ (forall k, existsb (names k) o' = false) /\ (forall m k, ~ In (Executed m k) o')).
    { destruct V as [-> | [-> | ->]]; destruct H as (a & _ & _ & -> & [(_ & ->) | (k & c & _ & _ & _ & _ & _ & ->)]); repeat split; auto; try (intros m j [X|[]]; try discriminate);
        try (destruct (rready c), (rpay c); discriminate); intros j; destruct (rready c), (rpay c); reflexivity. }
    destruct G as (-> & G1 & G2). destruct (ID eq_refl) as [D1 D2]. apply (quiet l v0 s s); auto; destruct V as [-> | [-> | ->]]; auto. }
  destruct v as [p a|n d al|n f|n f al found|n|n|n|n|k x|k d a|k f|k|k x m a|k|].
  - destruct H as (H1 & H2 & H3 & [(-> & H4 & ->) | (g & -> & G & H4 & ->)]).
    + destruct (ID H4) as [D1 D2]. apply (quiet l _ s s'); auto. intros n k [X|[]]; discriminate.
    + apply (quiet l _ s s'); auto.
      * intros n k [X|[]]; discriminate.
      * intros m a X. exists a. split; [rewrite H4, nth_error_app1; [exact X|eapply nth_lt; eauto]|apply like_refl].
      * intros m a' X. rewrite H4, nth_snoc in X. destruct (Nat.eqb_spec m (List.length (apis s))) as [-> | N]; [|left; exists a'; split; [exact X|apply like_refl]]. injection X as <-. right. cbn [newapi core fut ready]. repeat split; auto.
        apply (A_none _ _ _ A _ (Nat.le_refl _)).
  - destruct H as (a & Ea & El & H2 & H3 & [(-> & H4 & ->) | (-> & H4 & ->)]); (match type of H4 with _ = upd _ ?g _ => destruct (UPD n g ltac:(intros y; repeat split) H4) as [D1 D2] end; apply (quiet l _ s s'); auto; intros m k [X|[]]; discriminate).
  - destruct H as (a & Ea & El & H2 & H3 & H4 & ->). destruct (UPD n (set_fmt f) ltac:(intros y; repeat split) H4) as [D1 D2]. apply (quiet l _ s s'); auto. intros m k [X|[]]; discriminate.
  - apply (executing l n f al found s); auto. unfold Single in SG. rewrite execs_snoc in SG. apply NoDup_remove_2 in SG. now rewrite app_nil_r in SG.
  - apply (freeing l n s); auto.
  - apply (GT n (GetCode n)); auto.
  - apply (GT n (GetFormat n)); auto.
  - apply (GT n (GetPayload n)); auto.
  - destruct H as (c & Ec & Eg & Es & Hc & H1 & H2 & ->). eapply (serve l _ s s' o _ k c); eauto; try (intros j N; apply Nat.eqb_neq; congruence); try (intros m j [X|[]]; discriminate).
    intros [Q1 P2 P3 P4 P5 P6 P7 P8 P9 P10 P11]. constructor; rewrite ?handedb_app, ?okb_app, ?rfreedb_snoc, ?answeredb_snoc, ?code_snoc, ?rpayload_snoc, ?rformat_snoc; cbn [handedb okb existsb set_resp who resolved rready cfreed sfreed closed gone rpay rsize rfmt rcode]; rewrite ?Nat.eqb_refl, ?orb_false_r; auto.
  - destruct H as (c & Ec & Eg & Es & Hc & H). destruct a; destruct H as (H1 & H2 & ->).
    + eapply (serve l _ s s' o _ k c); eauto; try (intros j N; apply Nat.eqb_neq; congruence); try (intros m j [X|[]]; discriminate).
      intros [Q1 P2 P3 P4 P5 P6 P7 P8 P9 P10 P11]. constructor; rewrite ?handedb_app, ?okb_app, ?rfreedb_snoc, ?answeredb_snoc, ?code_snoc, ?rpayload_snoc, ?rformat_snoc; cbn [handedb okb existsb set_resp who resolved rready cfreed sfreed closed gone rpay rsize rfmt rcode]; rewrite ?Nat.eqb_refl, ?orb_false_r; auto.
      intros p X. injection X as <-. reflexivity.
    + eapply (serve l _ s s' o _ k c); eauto; try (intros j N; apply Nat.eqb_neq; congruence); try (intros m j [X|[]]; discriminate).
      intros [Q1 P2 P3 P4 P5 P6 P7 P8 P9 P10 P11]. constructor; rewrite ?handedb_app, ?okb_app, ?rfreedb_snoc, ?answeredb_snoc, ?code_snoc, ?rpayload_snoc, ?rformat_snoc; cbn [handedb okb existsb set_resp who resolved rready cfreed sfreed closed gone rpay rsize rfmt rcode]; rewrite ?Nat.eqb_refl, ?orb_false_r; auto.
      discriminate.
  - destruct H as (c & Ec & Eg & Es & Hc & H1 & H2 & ->). eapply (serve l _ s s' o _ k c); eauto; try (intros j N; apply Nat.eqb_neq; congruence); try (intros m j [X|[]]; discriminate).
    intros [Q1 P2 P3 P4 P5 P6 P7 P8 P9 P10 P11]. constructor; rewrite ?handedb_app, ?okb_app, ?rfreedb_snoc, ?answeredb_snoc, ?code_snoc, ?rpayload_snoc, ?rformat_snoc; cbn [handedb okb existsb set_resp who resolved rready cfreed sfreed closed gone rpay rsize rfmt rcode]; rewrite ?Nat.eqb_refl, ?orb_false_r; auto.
  - destruct H as (c & Ec & Eg & Es & Hc & H). destruct (closed c) eqn:Ecl.
    + destruct H as [-> ->]. eapply (serve l _ s s o _ k c (fun x => x)); eauto; try (symmetry; apply upd_id; reflexivity); try (intros j N; apply Nat.eqb_neq; congruence); try (intros m j [X|[]]; discriminate).
      intros [Q1 P2 P3 P4 P5 P6 P7 P8 P9 P10 P11]. constructor; rewrite ?handedb_app, ?okb_app, ?rfreedb_snoc, ?answeredb_snoc, ?code_snoc, ?rpayload_snoc, ?rformat_snoc; cbn [handedb okb existsb]; rewrite ?Nat.eqb_refl, ?orb_false_r; auto. intros _. now apply P4.
    + eapply answering; [exact I|exact Ec|now left| | | |exact H].
      * intros b X. now rewrite code_snoc.
      * intros b X. now rewrite rpayload_snoc.
      * auto.
  - destruct H as (c & Ec & Eg & Es & Hc & H). eapply answering; [exact I|exact Ec|right; eauto| | | |exact H].
    + intros b X. now rewrite code_snoc, Nat.eqb_refl.
    + intros b X. rewrite rpayload_snoc, Nat.eqb_refl. unfold error_payload. destruct m; auto.
    + intros Z q. unfold error_payload, error_size. destruct m; [destruct a; [intros X; injection X as <-; reflexivity|discriminate]|apply Z].
  - destruct H as (c & Ec & Eg & Es & Hc & H1 & H2).
    assert (TODO : forall g, cores s' = upd k g (cores s) -> who (g c) = who c -> (forall j, existsb (names j) o' = false) -> (forall m j, ~ In (Executed m j) o') ->
       (CoreP l o (conn s) (apis s) k c -> CoreP (l ++ [RFree k]) (o ++ o') (conn s) (apis s) k (g c)) -> CoreI (l ++ [RFree k]) s' (o ++ o')).
    { intros g G1 G2 G3 G4 G5. eapply (serve l _ s s' o o' k c g); eauto; try (intros j N; apply Nat.eqb_neq; congruence). }
    destruct H2 as [(Cf & H2 & ->) | (Cf & H2 & ->)]; eapply TODO; eauto.
    + intros m j [X|[]]; discriminate.
    + intros [Q1 P2 P3 P4 P5 P6 P7 P8 P9 P10 P11]. constructor; rewrite ?handedb_app, ?okb_app, ?rfreedb_snoc, ?answeredb_snoc, ?code_snoc, ?rpayload_snoc, ?rformat_snoc; cbn [handedb okb existsb set_gone set_sfreed who resolved rready cfreed sfreed closed gone rpay rsize rfmt rcode]; rewrite ?Nat.eqb_refl, ?orb_false_r, ?orb_true_r; auto.
      now rewrite Cf.
    + intros [Q1 P2 P3 P4 P5 P6 P7 P8 P9 P10 P11]. constructor; rewrite ?handedb_app, ?okb_app, ?rfreedb_snoc, ?answeredb_snoc, ?code_snoc, ?rpayload_snoc, ?rformat_snoc; cbn [handedb okb existsb set_gone set_sfreed who resolved rready cfreed sfreed closed gone rpay rsize rfmt rcode]; rewrite ?Nat.eqb_refl, ?orb_false_r, ?orb_true_r; auto.
      now rewrite Eg, Cf.
  - apply (shutting l s); auto.
Qed.
Lemma CoreI_init : CoreI [] init [].
Proof.
  constructor; cbn.
  - intros [|k] c E; discriminate.
  - intros [|n] a E; discriminate.
  - intros k _. repeat split; reflexivity.
  - intros n k. split; [intros []|]. intros (c & E & _). destruct k; discriminate.
  - intros k f e [].
Qed.
Lemma single_prefix l v : Single (l ++ [v]) -> Single l.
Proof. unfold Single. rewrite execs_snoc. intros H. apply NoDup_rev in H. rewrite rev_app_distr in H. destruct v; cbn in H; try (apply NoDup_rev in H; now rewrite rev_involutive in H). inversion H as [|x y H1 H2]. apply NoDup_rev in H2. now rewrite rev_involutive in H2. Qed.
Lemma core_inv l s o : run init l = (s, o) -> dead s = false -> Single l -> CoreI l s o.
Proof.
  revert l s o. apply (fine_ind (fun l s o => Single l -> CoreI l s o)); [intros _; exact CoreI_init|].
  intros l v s o s' o' R D I _ _ H SG. apply (core_step l v s); auto; [now apply api_inv|]. apply I. now apply single_prefix in SG.
Qed.
