(** Virtual CoAP requests: the requests of the server against the history. *)
From Coq Require Import List Bool Arith Lia Ascii String.
From Verif Require Import VcoModel VcoSpec VcoProofs VcoHist VcoApi.
Import ListNotations.
Local Open Scope list_scope.

Definition rfreedb (k : nat) (l : list op) : bool := existsb (fun v => match v with RFree j => Nat.eqb j k | _ => false end) l.
Definition answeredb (k : nat) (l : list op) : bool := existsb (fun v => match v with RReady j => Nat.eqb j k | RError j _ _ _ => Nat.eqb j k | _ => false end) l.
Definition handedb (k : nat) (o : list out) : bool := existsb (fun x => match x with Handed j _ _ _ => Nat.eqb j k | _ => false end) o.
Definition okb (k : nat) (o : list out) : bool := existsb (fun x => match x with Resolved j _ Ok => Nat.eqb j k | _ => false end) o.
Definition base_code (b : bool) : nat := if b then 0 else not_found.
Definition base_pay (b : bool) : option (list nat) := if b then None else Some not_found_text.
Lemma rfreedb_in k l : rfreedb k l = true <-> In (RFree k) l.
Proof. unfold rfreedb. rewrite existsb_exists. split; [intros (v & H & E); destruct v; try discriminate; apply Nat.eqb_eq in E; now subst | intros H; exists (RFree k); split; [exact H|apply Nat.eqb_refl]]. Qed.
Lemma answeredb_in k l : answeredb k l = true <-> Answered k l.
Proof.
  unfold answeredb, Answered. rewrite existsb_exists. split.
  - intros (v & H & E). destruct v as [| | | | | | | | | | |j|j x m a| |]; try discriminate; apply Nat.eqb_eq in E; subst; [now left|]. right. eauto.
  - intros [H | (c & m & a & H)]; eexists; (split; [exact H|apply Nat.eqb_refl]).
Qed.
Lemma handedb_in k o : handedb k o = true <-> Handed_to k o.
Proof.
  unfold handedb, Handed_to. rewrite existsb_exists. split.
  - intros (x & H & E). destruct x; try discriminate. apply Nat.eqb_eq in E. subst. eauto.
  - intros (p & d & f & H). eexists. split; [exact H|apply Nat.eqb_refl].
Qed.
Lemma okb_in k o : okb k o = true <-> exists f, In (Resolved k f Ok) o.
Proof.
  unfold okb. rewrite existsb_exists. split.
  - intros (x & H & E). destruct x as [| | |j f []| | | | | | |]; try discriminate. apply Nat.eqb_eq in E. subst. eauto.
  - intros (f & H). eexists. split; [exact H|apply Nat.eqb_refl].
Qed.
Lemma rfreedb_snoc k l v : rfreedb k (l ++ [v]) = rfreedb k l || match v with RFree j => Nat.eqb j k | _ => false end.
Proof. unfold rfreedb. rewrite existsb_app. cbn [existsb]. now rewrite orb_false_r. Qed.
Lemma answeredb_snoc k l v : answeredb k (l ++ [v]) = answeredb k l || match v with RReady j => Nat.eqb j k | RError j _ _ _ => Nat.eqb j k | _ => false end.
Proof. unfold answeredb. rewrite existsb_app. cbn [existsb]. now rewrite orb_false_r. Qed.
Lemma handedb_app k o o' : handedb k (o ++ o') = handedb k o || handedb k o'.
Proof. apply existsb_app. Qed.
Lemma okb_app k o o' : okb k (o ++ o') = okb k o || okb k o'.
Proof. apply existsb_app. Qed.
Lemma code_snoc k b l v : code_of k b (l ++ [v]) = match v with RCode j c => if Nat.eqb j k then c else code_of k b l | RError j c _ _ => if Nat.eqb j k then c else code_of k b l | _ => code_of k b l end.
Proof. unfold code_of. rewrite fold_left_app. reflexivity. Qed.
Lemma rformat_snoc k l v : rformat_of k (l ++ [v]) = match v with RFormat j c => if Nat.eqb j k then c else rformat_of k l | _ => rformat_of k l end.
Proof. unfold rformat_of. rewrite fold_left_app. reflexivity. Qed.
Lemma rpayload_snoc k b l v : rpayload_of k b (l ++ [v]) =
  match v with RPayload j d a => if Nat.eqb j k then (if a then Some d else None) else rpayload_of k b l
  | RError j _ (Some m) a => if Nat.eqb j k then (if a then Some m else None) else rpayload_of k b l | _ => rpayload_of k b l end.
Proof. unfold rpayload_of. rewrite fold_left_app. reflexivity. Qed.

Record CoreP (l : list op) (o : list out) (cn : bool) (aps : list api) (k : nat) (c : creq) : Prop := {
  P_api : exists a f, nth_error aps (who c) = Some a /\ core a = Some k /\ fut a = Some f /\ cfreed c = negb (live a) /\ ready a = okb k o /\ (ready a = true -> rready c = true);
  P_sf : sfreed c = rfreedb k l || negb (handedb k o);
  P_gone : gone c = cfreed c && sfreed c;
  P_closed : closed c = true -> resolved c = true /\ cn = false;
  P_conn : cn = false -> closed c || gone c = true;
  P_ans : answeredb k l || negb (handedb k o) = true -> resolved c = true;
  P_ok : okb k o = true -> resolved c = true;
  P_code : rcode c = code_of k (base_code (handedb k o)) l;
  P_pay : rpay c = rpayload_of k (base_pay (handedb k o)) l;
  P_fmt : rfmt c = rformat_of k l;
  P_size : forall p, rpay c = Some p -> rsize c = List.length p
}.
Record CoreI (l : list op) (s : st) (o : list out) : Prop := {
  C_core : forall k c, nth_error (cores s) k = Some c -> CoreP l o (conn s) (apis s) k c;
  C_api : forall n a, nth_error (apis s) n = Some a -> (forall k, core a = Some k -> exists c, nth_error (cores s) k = Some c /\ who c = n) /\ (fut a = None <-> ~ In n (execs l)) /\ (forall f, fut a = Some f -> exists al fd, In (Execute n f al fd) l) /\ (fut a = None -> core a = None) /\ (core a = None -> ready a = false);
  C_none : forall k, List.length (cores s) <= k -> rfreedb k l = false /\ answeredb k l = false /\ handedb k o = false /\ okb k o = false /\ (forall b, code_of k b l = b) /\ (forall b, rpayload_of k b l = b) /\ rformat_of k l = 0;
  C_exec : forall n k, In (Executed n k) o <-> exists c, nth_error (cores s) k = Some c /\ who c = n;
  C_res : forall k f e, In (Resolved k f e) o -> exists c a, nth_error (cores s) k = Some c /\ nth_error (apis s) (who c) = Some a /\ fut a = Some f /\ (e = Ok /\ answeredb k l || negb (handedb k o) = true \/ e = Stopped /\ closedb l = true)
}.
Definition about (k : nat) (v : op) : bool := match v with RCode j _ | RPayload j _ _ | RFormat j _ | RReady j | RError j _ _ _ | RFree j => Nat.eqb j k | _ => false end.
Definition names (k : nat) (x : out) : bool := match x with Handed j _ _ _ | Resolved j _ _ => Nat.eqb j k | _ => false end.
Record Same (k : nat) (l l' : list op) (o o' : list out) : Prop := {
  S_rf : rfreedb k l' = rfreedb k l; S_an : answeredb k l' = answeredb k l; S_ha : handedb k o' = handedb k o; S_ok : okb k o' = okb k o;
  S_code : forall b, code_of k b l' = code_of k b l; S_pay : forall b, rpayload_of k b l' = rpayload_of k b l; S_fmt : rformat_of k l' = rformat_of k l }.
Lemma names_out k o : existsb (names k) o = false -> handedb k o = false /\ okb k o = false.
Proof.
  induction o as [|x o IH]; cbn [existsb handedb okb]; [split; reflexivity|]. intros H. apply orb_false_iff in H. destruct H as [H1 H2]. destruct (IH H2) as [I1 I2]. unfold handedb, okb in *. rewrite I1, I2, !orb_false_r.
  destruct x as [| | |j f []| | | | | | |]; cbn [names] in H1; auto.
Qed.
Lemma same_snoc k l v o o' : about k v = false -> existsb (names k) o' = false -> Same k l (l ++ [v]) o (o ++ o').
Proof.
  intros A N. destruct (names_out _ _ N) as [N1 N2]. constructor.
  - rewrite rfreedb_snoc. destruct v; cbn [about] in A; rewrite ?A, ?orb_false_r; reflexivity.
  - rewrite answeredb_snoc. destruct v; cbn [about] in A; rewrite ?A, ?orb_false_r; reflexivity.
  - now rewrite handedb_app, N1, orb_false_r.
  - now rewrite okb_app, N2, orb_false_r.
  - intros b. rewrite code_snoc. destruct v; cbn [about] in A; rewrite ?A; reflexivity.
  - intros b. rewrite rpayload_snoc. destruct v as [| | | | | | | | | | | |? ? []| |]; cbn [about] in A; rewrite ?A; reflexivity.
  - rewrite rformat_snoc. destruct v; cbn [about] in A; rewrite ?A; reflexivity.
Qed.
(** The values of a request of the client which matter here. *)
Definition like (a a' : api) : Prop := live a' = live a /\ core a' = core a /\ fut a' = fut a /\ ready a' = ready a.
Lemma like_refl a : like a a. Proof. repeat split. Qed.
Lemma core_keep l l' o o' cn aps aps' k c : CoreP l o cn aps k c -> Same k l l' o o' -> (forall a, nth_error aps (who c) = Some a -> exists a', nth_error aps' (who c) = Some a' /\ like a a') -> CoreP l' o' cn aps' k c.
Proof.
  intros [(a & f & Q1 & Q2 & Q3 & Q4 & Q5 & Q6) P2 P3 P4 P5 P6 P7 P8 P9 P10 P11] [S1 S2 S3 S4 S5 S6 S7] L. constructor; rewrite ?S1, ?S2, ?S3, ?S4, ?S5, ?S6, ?S7; auto.
  destruct (L _ Q1) as (a' & Q1' & K1 & K2 & K3 & K4). exists a', f. rewrite K1, K2, K3, K4. repeat split; auto.
Qed.
Lemma none_same k l l' o o' : Same k l l' o o' ->
  (rfreedb k l = false /\ answeredb k l = false /\ handedb k o = false /\ okb k o = false /\ (forall b, code_of k b l = b) /\ (forall b, rpayload_of k b l = b) /\ rformat_of k l = 0) ->
  rfreedb k l' = false /\ answeredb k l' = false /\ handedb k o' = false /\ okb k o' = false /\ (forall b, code_of k b l' = b) /\ (forall b, rpayload_of k b l' = b) /\ rformat_of k l' = 0.
Proof. intros [S1 S2 S3 S4 S5 S6 S7] (N1 & N2 & N3 & N4 & N5 & N6 & N7). rewrite S1, S2, S3, S4, S7. repeat split; auto; intros b; [rewrite S5|rewrite S6]; auto. Qed.
(** A step which leaves the requests of the server, and executes nothing. *)
Lemma quiet l v s s' o o' : CoreI l s o -> conn s' = conn s -> cores s' = cores s ->
  (forall k, about k v = false) -> (forall k, existsb (names k) o' = false) -> (forall n k, ~ In (Executed n k) o') ->
  (match v with Execute _ _ _ _ | ConnFree => False | _ => True end) ->
  (forall n a, nth_error (apis s) n = Some a -> exists a', nth_error (apis s') n = Some a' /\ like a a') ->
  (forall n a', nth_error (apis s') n = Some a' -> (exists a, nth_error (apis s) n = Some a /\ like a a') \/ (core a' = None /\ fut a' = None /\ ready a' = false /\ ~ In n (execs l))) ->
  CoreI (l ++ [v]) s' (o ++ o').
Proof.
  intros [I1 I2 I3 I4 I5] Hc Hk Ha Ho He Hv L1 L2.
  assert (SM : forall k, Same k l (l ++ [v]) o (o ++ o')) by (intros k; apply same_snoc; auto).
  assert (EX : execs (l ++ [v]) = execs l) by (rewrite execs_snoc; destruct v; try contradiction; now rewrite app_nil_r).
  assert (CL : closedb (l ++ [v]) = closedb l) by (rewrite closedb_snoc; destruct v; try contradiction; now rewrite orb_false_r).
  constructor.
  - intros k c E. rewrite Hk in E. rewrite Hc. eapply core_keep; [apply I1; exact E|apply SM|]. auto.
  - intros n a' E. rewrite EX, Hk. destruct (L2 _ _ E) as [(a & Ea & K1 & K2 & K3 & K4) | (K1 & K2 & K3 & K4)].
    + rewrite K2, K3, K4. destruct (I2 _ _ Ea) as (J1 & J2 & J3 & J4 & J5). split; [exact J1|]. split; [exact J2|]. split; [|split; [exact J4|exact J5]].
      intros f X. destruct (J3 _ X) as (al & fd & Y). exists al, fd. apply in_or_app. now left.
    + rewrite K1, K2, K3. split; [discriminate|]. split; [tauto|]. split; [discriminate|]. split; auto.
  - intros k Hle. rewrite Hk in Hle. eapply none_same; [apply SM|]. auto.
  - intros n k. rewrite in_app_iff, I4, Hk. split; [intros [X|X]; [exact X|destruct (He _ _ X)]|auto].
  - intros k f e X. destruct (SM k) as [S1 S2 S3 S4 _ _ _]. rewrite S2, S3, CL, Hk. apply in_app_or in X. destruct X as [X|X].
    + destruct (I5 _ _ _ X) as (c & a & J1 & J2 & J3 & J4). destruct (L1 _ _ J2) as (a' & J2' & _ & _ & K3 & _). exists c, a'. rewrite K3. auto.
    + exfalso. assert (Y : existsb (names k) o' = true) by (apply existsb_exists; exists (Resolved k f e); split; [exact X|apply Nat.eqb_refl]). now rewrite Ho in Y.
Qed.
(** A call of the device side, which does not answer. *)
Lemma like_self (aps : list api) n : forall a, nth_error aps n = Some a -> exists a', nth_error aps n = Some a' /\ like a a'.
Proof. intros a E. exists a. split; [exact E|apply like_refl]. Qed.
Lemma serve l v s s' o o' k c g : CoreI l s o -> conn s' = conn s -> apis s' = apis s -> nth_error (cores s) k = Some c -> cores s' = upd k g (cores s) ->
  (forall j, j <> k -> about j v = false) -> (forall j, existsb (names j) o' = false) -> (forall n j, ~ In (Executed n j) o') ->
  (match v with Execute _ _ _ _ | ConnFree => False | _ => True end) -> who (g c) = who c ->
  (CoreP l o (conn s) (apis s) k c -> CoreP (l ++ [v]) (o ++ o') (conn s) (apis s) k (g c)) -> CoreI (l ++ [v]) s' (o ++ o').
Proof.
  intros [I1 I2 I3 I4 I5] Hc Hap Ec Hk Ha Ho He Hv Hw Hg.
  assert (SM : forall j, j <> k -> Same j l (l ++ [v]) o (o ++ o')) by (intros j N; apply same_snoc; auto).
  assert (EX : execs (l ++ [v]) = execs l) by (rewrite execs_snoc; destruct v; try contradiction; now rewrite app_nil_r).
  assert (CL : closedb (l ++ [v]) = closedb l) by (rewrite closedb_snoc; destruct v; try contradiction; now rewrite orb_false_r).
  assert (AN : forall j b, answeredb j l || b = true -> answeredb j (l ++ [v]) || b = true) by (intros j b X; rewrite answeredb_snoc; destruct (answeredb j l), b; try discriminate; rewrite ?orb_true_r; reflexivity).
  assert (HA : forall j, handedb j (o ++ o') = handedb j o) by (intros j; rewrite handedb_app, (proj1 (names_out _ _ (Ho j))); now rewrite orb_false_r).
  assert (NT : forall j x, nth_error (cores s) j = Some x -> exists y, nth_error (cores s') j = Some y /\ who y = who x).
  { intros j x E. rewrite Hk, nth_upd. destruct (Nat.eqb_spec j k) as [-> | N]; [|exists x; auto]. rewrite E. cbn [option_map]. exists (g x). split; [reflexivity|]. assert (x = c) by congruence. now subst. }
  assert (NB : forall j y, nth_error (cores s') j = Some y -> exists x, nth_error (cores s) j = Some x /\ who y = who x).
  { intros j y E. rewrite Hk, nth_upd in E. destruct (Nat.eqb_spec j k) as [-> | N]; [|exists y; auto]. rewrite Ec in E. injection E as <-. exists c. auto. }
  constructor.
  - intros j x E. rewrite Hk, nth_upd in E. rewrite Hc, Hap. destruct (Nat.eqb_spec j k) as [-> | N].
    + rewrite Ec in E. injection E as <-. auto.
    + eapply core_keep; [apply I1; exact E|apply SM; exact N|apply like_self].
  - intros n a E. rewrite Hap in E. rewrite EX. destruct (I2 _ _ E) as (J1 & J2 & J3 & J4 & J5). split; [|split; [exact J2|split; [|split; [exact J4|exact J5]]]].
    + intros j X. destruct (J1 _ X) as (x & Y1 & Y2). destruct (NT _ _ Y1) as (y & Z1 & Z2). exists y. split; [exact Z1|congruence].
    + intros f X. destruct (J3 _ X) as (al & fd & Y). exists al, fd. apply in_or_app. now left.
  - intros j Hle. rewrite Hk, len_upd in Hle. eapply none_same; [apply SM|apply I3; exact Hle]. apply nth_lt in Ec. lia.
  - intros n j. rewrite in_app_iff, I4. split.
    + intros [(x & X1 & X2)|X]; [|destruct (He _ _ X)]. destruct (NT _ _ X1) as (y & Z1 & Z2). exists y. split; [exact Z1|congruence].
    + intros (y & X1 & X2). left. destruct (NB _ _ X1) as (x & Z1 & Z2). exists x. split; [exact Z1|congruence].
  - intros j f e X. rewrite HA, CL. apply in_app_or in X. destruct X as [X|X].
    + destruct (I5 _ _ _ X) as (x & a & J1 & J2 & J3 & J4). destruct (NT _ _ J1) as (y & Z1 & Z2). exists y, a. rewrite Z2, Hap. split; [exact Z1|]. split; [exact J2|]. split; [exact J3|]. destruct J4 as [[J4 J5] | J4]; [left; split; [exact J4|now apply AN]|now right].
    + exfalso. assert (Y : existsb (names j) o' = true) by (apply existsb_exists; exists (Resolved j f e); split; [exact X|apply Nat.eqb_refl]). now rewrite Ho in Y.
Qed.
