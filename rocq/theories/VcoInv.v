(** Virtual CoAP requests: the invariant of the requests of the server. *)
From Coq Require Import List Bool Arith Lia Ascii String.
From Verif Require Import VcoModel VcoSpec VcoProofs VcoHist VcoApi VcoCore.
Import ListNotations.
Local Open Scope list_scope.

Lemma answering l v s s' o o' k c cd p z : CoreI l s o -> nth_error (cores s) k = Some c ->
  (v = RReady k \/ exists x m a, v = RError k x m a) ->
  (forall b, rcode c = code_of k b l -> cd = code_of k b (l ++ [v])) -> (forall b, rpay c = rpayload_of k b l -> p = rpayload_of k b (l ++ [v])) -> ((forall q, rpay c = Some q -> rsize c = List.length q) -> forall q, p = Some q -> z = List.length q) ->
  answer k (set_resp cd p z (rfmt c) true) c s s' o' -> CoreI (l ++ [v]) s' (o ++ o').
Proof.
  intros [I1 I2 I3 I4 I5] Ec Hv Hcd Hp Hz (A1 & A2 & A3).
  assert (AB : forall j, j <> k -> about j v = false) by (intros j N; destruct Hv as [-> | (x & m & a & ->)]; apply Nat.eqb_neq; auto).
  assert (EX : execs (l ++ [v]) = execs l) by (rewrite execs_snoc; destruct Hv as [-> | (x & m & a & ->)]; now rewrite app_nil_r).
  assert (CL : closedb (l ++ [v]) = closedb l) by (rewrite closedb_snoc; destruct Hv as [-> | (x & m & a & ->)]; now rewrite orb_false_r).
  assert (RF : rfreedb k (l ++ [v]) = rfreedb k l) by (rewrite rfreedb_snoc; destruct Hv as [-> | (x & m & a & ->)]; now rewrite orb_false_r).
  assert (FM : rformat_of k (l ++ [v]) = rformat_of k l) by (rewrite rformat_snoc; destruct Hv as [-> | (x & m & a & ->)]; reflexivity).
  assert (AK : answeredb k (l ++ [v]) = true) by (rewrite answeredb_snoc; destruct Hv as [-> | (x & m & a & ->)]; rewrite Nat.eqb_refl; apply orb_true_r).
  assert (AN : forall j b, answeredb j l || b = true -> answeredb j (l ++ [v]) || b = true) by (intros j b X; rewrite answeredb_snoc; destruct (answeredb j l), b; try discriminate; rewrite ?orb_true_r; reflexivity).
  assert (NO : forall j, j <> k -> existsb (names j) o' = false).
  { intros j N. destruct A3 as [(_ & _ & ->) | (a & f & _ & _ & _ & _ & _ & ->)]; [reflexivity|]. cbn [existsb names]. rewrite (proj2 (Nat.eqb_neq k j)) by auto. reflexivity. }
  assert (HO : forall j, handedb j o' = false) by (intros j; destruct A3 as [(_ & _ & ->) | (a & f & _ & _ & _ & _ & _ & ->)]; reflexivity).
  assert (HA : forall j, handedb j (o ++ o') = handedb j o) by (intros j; rewrite handedb_app, HO; apply orb_false_r).
  assert (SM : forall j, j <> k -> Same j l (l ++ [v]) o (o ++ o')) by (intros j N; apply same_snoc; auto).
  assert (AP : forall n a', nth_error (apis s') n = Some a' -> exists a, nth_error (apis s) n = Some a /\ live a' = live a /\ core a' = core a /\ fut a' = fut a /\ (core a <> Some k -> ready a' = ready a)).
  { intros n a' E. destruct A3 as [(_ & A3 & _) | (a & f & Er & Ea & El & Ef & A3 & _)]; rewrite A3 in E; [exists a'; auto|]. rewrite nth_upd in E. destruct (Nat.eqb_spec n (who c)) as [-> | N]; [|exists a'; auto].
    rewrite Ea in E. injection E as <-. exists a. repeat split; auto. intros X. destruct (P_api _ _ _ _ _ _ (I1 _ _ Ec)) as (b & f' & Q1 & Q2 & _). congruence. }
  assert (AP2 : forall n a, nth_error (apis s) n = Some a -> exists a', nth_error (apis s') n = Some a' /\ live a' = live a /\ core a' = core a /\ fut a' = fut a /\ (core a <> Some k -> ready a' = ready a)).
  { intros n a E. assert (L : n < List.length (apis s')) by (apply nth_lt in E; destruct A3 as [(_ & -> & _) | (b & f & _ & _ & _ & _ & -> & _)]; rewrite ?len_upd; exact E).
    apply nth_error_Some in L. destruct (nth_error (apis s') n) as [a'|] eqn:E'; [|congruence]. destruct (AP _ _ E') as (b & Eb & K). assert (b = a) by congruence. subst b. exists a'. auto. }
  constructor.
  - intros j x E. rewrite A2, nth_upd in E. rewrite A1. destruct (Nat.eqb_spec j k) as [-> | N].
    + rewrite Ec in E. injection E as <-. destruct (I1 _ _ Ec) as [(a & f & Q1 & Q2 & Q3 & Q4 & Q5 & Q6) P2 P3 P4 P5 P6 P7 P8 P9 P10 P11].
      constructor; rewrite ?HA; cbn [set_resolved set_resp who resolved rready cfreed sfreed closed gone rpay rsize rfmt rcode]; auto.
      * destruct (AP2 _ _ Q1) as (a' & E' & K1 & K2 & K3 & _). exists a', f. rewrite K1, K2, K3. repeat split; auto.
        destruct A3 as [(Er & A3 & ->) | (b & f' & Er & Eb & El & Ef & A3 & ->)]; rewrite A3 in E'.
        -- assert (a' = a) by congruence. subst a'. rewrite okb_app, Q5. cbn. now rewrite orb_false_r.
        -- rewrite nth_upd, Nat.eqb_refl, Q1 in E'. injection E' as <-. rewrite okb_app. unfold okb at 2. cbn [existsb]. rewrite Nat.eqb_refl. cbn. now rewrite orb_true_r.
      * now rewrite RF.
      * intros X. split; [reflexivity|]. now apply P4.
      * now rewrite FM.
    + assert (CP := I1 _ _ E). eapply core_keep; [exact CP|apply SM; exact N|]. intros a Q. destruct (AP2 _ _ Q) as (a' & Q' & K1 & K2 & K3 & K4). exists a'. split; [exact Q'|]. repeat split; auto.
      apply K4. destruct (P_api _ _ _ _ _ _ CP) as (b & f & B1 & B2 & _). assert (b = a) by congruence. subst b. congruence.
  - intros n a' E. rewrite EX. destruct (AP _ _ E) as (a & Ea & K1 & K2 & K3 & K4). destruct (I2 _ _ Ea) as (J1 & J2 & J3 & J4 & J5). rewrite K2, K3. split; [|split; [exact J2|split; [|split; [exact J4|]]]].
    + intros j X. destruct (J1 _ X) as (x & Y1 & Y2). rewrite A2, nth_upd. destruct (Nat.eqb_spec j k) as [-> | N]; [|exists x; auto]. rewrite Y1. cbn [option_map]. eexists. split; [reflexivity|]. exact Y2.
    + intros f X. destruct (J3 _ X) as (al & fd & Y). exists al, fd. apply in_or_app. now left.
    + intros X. rewrite K4 by congruence. auto.
  - intros j Hle. rewrite A2, len_upd in Hle. eapply none_same; [apply SM|apply I3; exact Hle]. apply nth_lt in Ec. lia.
  - intros n j. rewrite in_app_iff, I4. split.
    + intros [(x & X1 & X2)|X].
      * rewrite A2, nth_upd. destruct (Nat.eqb_spec j k) as [-> | N]; [|exists x; auto]. rewrite X1. cbn [option_map]. eexists. split; [reflexivity|]. exact X2.
      * exfalso. destruct A3 as [(_ & _ & ->) | (a & f & _ & _ & _ & _ & _ & ->)]; [destruct X as [X|[]]|destruct X as [X|[X|[]]]]; discriminate.
    + intros (y & X1 & X2). left. rewrite A2, nth_upd in X1. destruct (Nat.eqb_spec j k) as [-> | N]; [|exists y; auto]. rewrite Ec in X1. injection X1 as <-. exists c. auto.
  - intros j f e X. rewrite HA, CL. apply in_app_or in X. destruct X as [X|X].
    + destruct (I5 _ _ _ X) as (x & a & J1 & J2 & J3 & J4). destruct (AP2 _ _ J2) as (a' & E' & _ & _ & K3 & _).
      assert (Z : exists y, nth_error (cores s') j = Some y /\ who y = who x).
      { rewrite A2, nth_upd. destruct (Nat.eqb_spec j k) as [-> | N]; [|exists x; auto]. rewrite J1. cbn [option_map]. eexists. split; reflexivity. }
      destruct Z as (y & Z1 & Z2). exists y, a'. rewrite Z2, K3. split; [exact Z1|]. split; [exact E'|]. split; [exact J3|]. destruct J4 as [[J4 J6] | J4]; [left; split; [exact J4|now apply AN]|now right].
    + destruct A3 as [(_ & _ & ->) | (a & f' & Er & Ea & El & Ef & A3 & ->)]; [destruct X as [X|[]]; discriminate|]. destruct X as [X|[X|[]]]; [|discriminate]. injection X as <- <- <-.
      destruct (AP2 _ _ Ea) as (a' & E' & _ & _ & K3 & _). eexists. exists a'. split; [rewrite A2, nth_upd, Nat.eqb_refl, Ec; reflexivity|]. split; [exact E'|]. split; [congruence|]. left. split; [reflexivity|]. now rewrite AK.
Qed.

Lemma executing l n f al found s s' o o' : ApiI l s o -> CoreI l s o -> ~ In n (execs l) -> Does (Execute n f al found) s s' o' -> CoreI (l ++ [Execute n f al found]) s' (o ++ o').
Proof.
  intros A [I1 I2 I3 I4 I5] NE (a & Ea & El & H1 & H2 & H3).
  set (v := Execute n f al found) in *.
  destruct (I2 _ _ Ea) as (J1 & J2 & J3 & J4 & J5). assert (Fn : fut a = None) by now apply J2. assert (Cn : core a = None) by auto. assert (Rn : ready a = false) by auto.
  assert (EX : execs (l ++ [v]) = execs l ++ [n]) by apply execs_snoc.
  assert (CL : closedb (l ++ [v]) = closedb l) by (rewrite closedb_snoc; apply orb_false_r).
  assert (AB : forall k, about k v = false) by reflexivity.
  assert (WN : forall k c, nth_error (cores s) k = Some c -> who c <> n).
  { intros k c E X. destruct (P_api _ _ _ _ _ _ (I1 _ _ E)) as (b & f' & Q1 & Q2 & _). rewrite X in Q1. congruence. }
  assert (NTO : exists co ra, forall m x', nth_error (apis s') m = Some x' -> (m <> n /\ nth_error (apis s) m = Some x') \/ (m = n /\ core x' = co /\ fut x' = Some f /\ ready x' = ra /\ live x' = true)).
  { destruct H3 as [(-> & H3 & H4 & ->) | (q & -> & Q & [(-> & H3 & H4 & ->) | (-> & H3 & H4 & ->)])]; rewrite H4.
    - exists None, false. intros m x' E. rewrite nth_upd in E. destruct (Nat.eqb_spec m n) as [-> | N]; [|auto]. rewrite Ea in E. injection E as <-. right. cbn. auto.
    - exists (Some (List.length (cores s))), false. intros m x' E. rewrite nth_upd in E. destruct (Nat.eqb_spec m n) as [-> | N]; [|auto]. rewrite Ea in E. injection E as <-. right. cbn. auto.
    - exists (Some (List.length (cores s))), true. intros m x' E. rewrite nth_upd in E. destruct (Nat.eqb_spec m n) as [-> | N]; [|auto]. rewrite Ea in E. injection E as <-. right. cbn. auto. }
  assert (KEEP : forall m x, m <> n -> nth_error (apis s) m = Some x -> nth_error (apis s') m = Some x).
  { intros m x N E. destruct H3 as [(-> & H3 & H4 & ->) | (q & -> & Q & [(-> & H3 & H4 & ->) | (-> & H3 & H4 & ->)])]; rewrite H4, nth_upd, (proj2 (Nat.eqb_neq m n)); auto. }
  assert (ITS : exists x, nth_error (apis s') n = Some x /\ fut x = Some f /\ live x = true).
  { destruct H3 as [(-> & H3 & H4 & ->) | (q & -> & Q & [(-> & H3 & H4 & ->) | (-> & H3 & H4 & ->)])]; rewrite H4, nth_upd, Nat.eqb_refl, Ea; cbn [option_map]; eexists; (split; [reflexivity|]); auto. }
  assert (SM : forall k, k < List.length (cores s) -> Same k l (l ++ [v]) o (o ++ o')).
  { intros k L. apply same_snoc; [reflexivity|]. destruct H3 as [(-> & H3 & H4 & ->) | (q & -> & Q & [(-> & H3 & H4 & ->) | (-> & H3 & H4 & ->)])]; cbn [existsb names]; rewrite ?(proj2 (Nat.eqb_neq _ k)) by lia; reflexivity. }
  assert (SM2 : forall k, List.length (cores s) < k -> Same k l (l ++ [v]) o (o ++ o')).
  { intros k L. apply same_snoc; [reflexivity|]. destruct H3 as [(-> & H3 & H4 & ->) | (q & -> & Q & [(-> & H3 & H4 & ->) | (-> & H3 & H4 & ->)])]; cbn [existsb names]; rewrite ?(proj2 (Nat.eqb_neq _ k)) by lia; reflexivity. }
  assert (OLD : forall k c, k < List.length (cores s) -> nth_error (cores s) k = Some c -> CoreP (l ++ [v]) (o ++ o') (conn s') (apis s') k c).
  { intros k c L E. rewrite H2. eapply core_keep; [apply I1; exact E|apply SM; exact L|]. intros b Eb. exists b. split; [|apply like_refl]. apply KEEP; [|exact Eb]. eapply WN; eauto. }
  destruct NTO as (co & ra & NTO).
  assert (EXN : forall m, m <> n -> (In m (execs (l ++ [v])) <-> In m (execs l))) by (intros m N; rewrite EX, in_app_iff; cbn [In]; split; [intros [X|[X|[]]]; [exact X|congruence]|auto]).
  assert (NEWEX : ~ ~ In n (execs (l ++ [v]))) by (intros X; apply X; rewrite EX; apply in_or_app; right; left; reflexivity).
  assert (INL : In v (l ++ [v])) by (apply in_or_app; right; left; reflexivity).
  destruct H3 as [(-> & H3 & H4 & ->) | (q & -> & Q & H3)].
  - (* no memory *)
    assert (SMA : forall k, Same k l (l ++ [v]) o (o ++ [Failed f OutOfMemory])) by (intros k; apply same_snoc; reflexivity).
    constructor.
    + intros k c E. rewrite H3 in E. apply OLD; [eapply nth_lt; eauto|exact E].
    + intros m x' E. rewrite H3. destruct (NTO _ _ E) as [(N & E') | (-> & K1 & K2 & K3 & _)].
      * destruct (I2 _ _ E') as (L1 & L2 & L3 & L4 & L5). rewrite EXN by exact N. split; [exact L1|]. split; [exact L2|]. split; [|split; [exact L4|exact L5]].
        intros f0 X. destruct (L3 _ X) as (al & fd & Y). exists al, fd. apply in_or_app. now left.
      * rewrite H4, nth_upd, Nat.eqb_refl, Ea in E. injection E as <-. cbn [set_exec core fut ready]. split; [discriminate|]. split; [split; [discriminate|tauto]|]. split; [intros f0 X; injection X as <-; exists false, found; exact INL|]. split; auto.
    + intros k Hle. rewrite H3 in Hle. eapply none_same; [apply SMA|auto].
    + intros m k. rewrite in_app_iff, I4, H3. split; [intros [X|[X|[]]]; [exact X|discriminate]|auto].
    + intros k f0 e X. destruct (SMA k) as [S1 S2 S3 S4 _ _ _]. rewrite S2, S3, CL, H3. apply in_app_or in X. destruct X as [X|[X|[]]]; [|discriminate].
      destruct (I5 _ _ _ X) as (c & b & Y1 & Y2 & Y3 & Y4). exists c, b. split; [exact Y1|]. split; [|auto]. apply KEEP; [eapply WN; eauto|exact Y2].
  - set (K := List.length (cores s)) in *. destruct (I3 K (Nat.le_refl _)) as (N1 & N2 & N3 & N4 & N5 & N6 & N7).
    assert (COM : exists c0, cores s' = cores s ++ [c0] /\ who c0 = n /\ CoreP (l ++ [v]) (o ++ o') (conn s') (apis s') K c0 /\
       (forall f0 e, In (Resolved K f0 e) o' -> e = Ok /\ f0 = f /\ handedb K (o ++ o') = false) /\ (forall m k, In (Executed m k) o' <-> m = n /\ k = K) /\ (forall k f0 e, k <> K -> ~ In (Resolved k f0 e) o') /\
       (forall x', nth_error (apis s') n = Some x' -> core x' = Some K)).
    { assert (EcF : closedb l = false) by (pose proof (A_conn _ _ _ A) as X; rewrite H1 in X; destruct (closedb l); [discriminate|reflexivity]).
      destruct H3 as [(-> & H3 & H4 & ->) | (-> & H3 & H4 & ->)].
      - exists (newcore n true). split; [exact H3|]. split; [reflexivity|].
        assert (HK : handedb K (o ++ [Executed n K; Handed K (segs a) q (fmt a)]) = true) by (rewrite handedb_app; unfold handedb at 2; cbn [existsb]; rewrite Nat.eqb_refl; cbn; apply orb_true_r).
        assert (OK : okb K (o ++ [Executed n K; Handed K (segs a) q (fmt a)]) = false) by (rewrite okb_app, N4; reflexivity).
        split; [|split; [|split; [|split]]].
        + constructor; rewrite ?HK, ?OK; cbn [newcore who resolved rready cfreed sfreed closed gone rpay rsize rfmt rcode negb]; auto.
          * rewrite H4, nth_upd, Nat.eqb_refl, Ea. cbn [option_map]. eexists. exists f. split; [reflexivity|]. cbn [set_exec core fut live ready]. rewrite El, Rn. repeat split; auto; try discriminate.
          * rewrite rfreedb_snoc, N1. reflexivity.
          * discriminate.
          * rewrite H2, H1. discriminate.
          * rewrite answeredb_snoc, N2. discriminate.
          * rewrite code_snoc, N5. reflexivity.
          * rewrite rpayload_snoc, N6. reflexivity.
          * rewrite rformat_snoc, N7. reflexivity.
          * discriminate.
        + intros f0 e [X|[X|[]]]; discriminate.
        + intros m k. cbn [In]. split; [intros [X|[X|[]]]; [injection X as <- <-; auto|discriminate]|intros [-> ->]; auto].
        + intros k f0 e N [X|[X|[]]]; discriminate.
        + intros x' E. rewrite H4, nth_upd, Nat.eqb_refl, Ea in E. injection E as <-. reflexivity.
      - eexists. split; [exact H3|]. split; [reflexivity|].
        assert (HK : handedb K (o ++ [Executed n K; Resolved K f Ok]) = false) by (rewrite handedb_app, N3; reflexivity).
        assert (OK : okb K (o ++ [Executed n K; Resolved K f Ok]) = true) by (rewrite okb_app; unfold okb at 2; cbn [existsb]; rewrite Nat.eqb_refl; cbn; apply orb_true_r).
        split; [|split; [|split; [|split]]].
        + constructor; rewrite ?HK, ?OK; cbn [set_resolved set_resp newcore who resolved rready cfreed sfreed closed gone rpay rsize rfmt rcode negb]; auto.
          * rewrite H4, nth_upd, Nat.eqb_refl, Ea. cbn [option_map]. eexists. exists f. split; [reflexivity|]. cbn [set_ready set_exec core fut live ready]. rewrite El. repeat split; auto.
          * now rewrite orb_true_r.
          * discriminate.
          * rewrite H2, H1. discriminate.
          * rewrite code_snoc, N5. reflexivity.
          * rewrite rpayload_snoc, N6. reflexivity.
          * rewrite rformat_snoc, N7. reflexivity.
          * intros p X. injection X as <-. reflexivity.
        + intros f0 e [X|[X|[]]]; [discriminate|]. injection X as <- <-. auto.
        + intros m k. cbn [In]. split; [intros [X|[X|[]]]; [injection X as <- <-; auto|discriminate]|intros [-> ->]; auto].
        + intros k f0 e N [X|[X|[]]]; [discriminate|]. injection X as <- _ _. congruence.
        + intros x' E. rewrite H4, nth_upd, Nat.eqb_refl, Ea in E. injection E as <-. reflexivity. }
    destruct COM as (c0 & HC & W0 & CP0 & RK & EK & RN & CN).
    assert (LEN : List.length (cores s') = S K) by (rewrite HC, app_length; cbn; lia).
    assert (OUT : forall k c, nth_error (cores s) k = Some c -> nth_error (cores s') k = Some c) by (intros k c E; rewrite HC, nth_error_app1; [exact E|eapply nth_lt; eauto]).
    assert (NEW : nth_error (cores s') K = Some c0) by (rewrite HC, nth_snoc, Nat.eqb_refl; reflexivity).
    constructor.
    + intros k c E. rewrite HC, nth_snoc in E. fold K in E. destruct (Nat.eqb_spec k K) as [-> | N]; [injection E as <-; exact CP0|]. apply OLD; [eapply nth_lt; eauto|exact E].
    + intros m x' E. destruct (NTO _ _ E) as [(N & E') | (-> & K1 & K2 & K3 & _)].
      * destruct (I2 _ _ E') as (L1 & L2 & L3 & L4 & L5). rewrite EXN by exact N. split; [intros k X; destruct (L1 _ X) as (c & Y1 & Y2); exists c; auto|]. split; [exact L2|]. split; [|split; [exact L4|exact L5]].
        intros f0 X. destruct (L3 _ X) as (al & fd & Y). exists al, fd. apply in_or_app. now left.
      * rewrite (CN _ E), K2. split; [intros k X; injection X as <-; exists c0; auto|]. split; [split; [discriminate|tauto]|]. split; [intros f0 X; injection X as <-; exists true, found; exact INL|]. split; discriminate.
    + intros k Hle. rewrite LEN in Hle. eapply none_same; [apply SM2; lia|]. apply I3. fold K. lia.
    + intros m k. rewrite in_app_iff, I4, EK. split.
      * intros [(c & X1 & X2) | [-> ->]]; [exists c; auto|exists c0; auto].
      * intros (c & X1 & X2). rewrite HC, nth_snoc in X1. fold K in X1. destruct (Nat.eqb_spec k K) as [-> | N]; [|left; exists c; auto]. injection X1 as <-. right. split; [congruence|reflexivity].
    + intros k f0 e X. apply in_app_or in X. destruct X as [X|X].
      * destruct (I5 _ _ _ X) as (c & b & Y1 & Y2 & Y3 & Y4). pose proof (nth_lt _ _ _ Y1) as Lt. destruct (SM k Lt) as [S1 S2 S3 S4 _ _ _]. rewrite S2, S3, CL. exists c, b. split; [auto|]. split; [|auto]. apply KEEP; [eapply WN; eauto|exact Y2].
      * destruct (Nat.eq_dec k K) as [-> | N]; [|destruct (RN _ _ _ N X)]. destruct (RK _ _ X) as (-> & -> & HF). destruct ITS as (x & X1 & X2 & _). exists c0, x. rewrite W0. split; [exact NEW|]. split; [exact X1|]. split; [exact X2|].
        left. split; [reflexivity|]. rewrite HF. apply orb_true_r.
Qed.
