(** The invariant of the stream manager: references are counted and the trace tells who holds them. *)
From Coq Require Import List Bool Arith NArith Lia.
From Verif Require Import MgrModel MgrSpec.
Import ListNotations.

Definition tk (k : nat) (g : list out) : bool := existsb (fun x => match x with Taken j => j =? k | _ => false end) g.
Definition vo (k : nat) (g : list out) : bool := existsb (fun x => match x with VOpened j => j =? k | _ => false end) g.
Definition fr (k : nat) (g : list out) : bool := existsb (fun x => match x with Freed j => j =? k | _ => false end) g.
Definition b2n (b : bool) : nat := if b then 1 else 0.
Definition is_virtual (c : option conn) : bool := match c with Some (Virtual _) => true | _ => false end.
Definition is_client (c : option conn) : bool := match c with Some (Client _) => true | _ => false end.
Definition is_none (c : option conn) : bool := match c with None => true | _ => false end.

Section Inv.
Variable B : Prop.

Record good (d : nat) (w : bool) (s : stream) (t e v dk vk : bool) : Prop := {
  g_refs : k_refs s = b2n (k_listed s) + b2n (k_app s) + b2n (k_client s) + b2n (k_flying s) + b2n (k_posted s) + d;
  g_pos : 1 <= k_refs s;
  g_run : k_stopped s = false -> k_listed s = true;
  g_set : k_listed s = true -> k_app s = true \/ (k_stopped s = false /\ k_accepted s = false) \/ w = true;
  g_app : k_app s = true -> k_listed s = true /\ k_accepted s = true;
  g_virt : k_virt s = true -> k_flying s = false /\ k_posted s = false;
  g_cl : k_virt s = false -> k_client s = false;
  g_conn : is_none (k_conn s) = k_stopped s;
  g_client : is_client (k_conn s) = true -> k_virt s = false /\ N.odd (k_id s) = false;
  g_virtual : is_virtual (k_conn s) = true -> k_virt s = true;
  g_fly : k_flying s = true -> k_sending s = true;
  g_B : B -> k_sending s = true -> k_flying s = true;
  g_own : k_app s = t && negb dk;
  g_held : k_client s = v && negb vk;
  g_tk : t = true -> k_accepted s = true;
  g_vo : v = true -> k_accepted s = true /\ k_virt s = true;
  g_en : k_stopped s = e;
  g_dk : dk = true -> t = true;
  g_vk : vk = true -> v = true }.

Definition at_ (j d : nat) (w : bool) (g : list out) (D V : nat -> bool) (m : mgr) : Prop :=
  match get j m with
  | Some s => j < next m /\ fr j g = false /\ good d w s (tk j g) (ended j g) (vo j g) (D j) (V j)
  | None => d = 0 /\ tk j g && negb (D j) = false /\ vo j g && negb (V j) = false /\ (j < next m -> fr j g = true /\ ended j g = true)
            /\ (next m <= j -> tk j g = false /\ vo j g = false /\ ended j g = false /\ fr j g = false /\ D j = false /\ V j = false)
  end.

Record Inv (k d : nat) (w : bool) (g : list out) (D V : nat -> bool) (m : mgr) : Prop := {
  i_nd : NoDup (map fst (heap m));
  i_cur : current m = length (heap m);
  i_B : B -> rst_busy m = rst_fly m;
  i_all : forall j, at_ j (if j =? k then d else 0) (if j =? k then w else false) g D V m;
  i_uniq : forall j s j' s' c, get j m = Some s -> get j' m = Some s' -> k_conn s = Some (Client c) -> k_conn s' = Some (Client c) -> k_id s = k_id s' -> j = j';
  i_open : NoDup (map fst (opened g));
  i_open2 : forall j c id, In (j, (c, id)) (opened g) -> j < next m /\ (ended j g = true \/ exists s, get j m = Some s /\ k_conn s = Some (Client c) /\ k_id s = id);
  i_open3 : forall j c id s, In (j, (c, id)) (opened g) -> get j m = Some s -> k_virt s = false;
  i_open4 : forall j s c, get j m = Some s -> k_conn s = Some (Client c) -> In (j, (c, k_id s)) (opened g);
  i_open6 : forall j s, get j m = Some s -> k_virt s = false -> In j (map fst (opened g));
  i_even : forall j c id, In (j, (c, id)) (opened g) -> N.odd id = false;
  i_cnt : count is_new g = count is_freed g + current m }.

Lemma get_in : forall k m s, get k m = Some s -> In (k, s) (heap m).
Proof.
  unfold get; intros k m s H. destruct (find _ _) as [[k' s']|] eqn:E; inversion H; subst.
  apply find_some in E. destruct E as [E1 E2]. apply Nat.eqb_eq in E2. cbn in E2. subst. exact E1.
Qed.
Lemma find_key : forall (h : list (nat * stream)) k s, NoDup (map fst h) -> In (k, s) h -> find (fun x => fst x =? k) h = Some (k, s).
Proof.
  induction h as [|[k' s'] h IH]; intros k s N H; [easy|]. cbn [find fst]. inversion N; subst.
  destruct H as [H|H].
  - inversion H; subst. rewrite Nat.eqb_refl. reflexivity.
  - destruct (Nat.eqb_spec k' k) as [->|]; [|auto]. exfalso. apply H2. apply (in_map fst) in H. exact H.
Qed.
Lemma in_get : forall k m s, NoDup (map fst (heap m)) -> In (k, s) (heap m) -> get k m = Some s.
Proof. unfold get; intros k m s N H. rewrite (find_key _ _ _ N H). reflexivity. Qed.
Lemma get_none : forall k m, get k m = None <-> ~ In k (map fst (heap m)).
Proof.
  unfold get; intros k m; split; intros H.
  - intros I. apply in_map_iff in I. destruct I as ((k' & s) & E & I). cbn in E. subst k'.
    destruct (find _ _) as [x|] eqn:F; [discriminate|]. pose proof (find_none _ _ F _ I) as X. cbn in X. rewrite Nat.eqb_refl in X. discriminate.
  - destruct (find _ _) as [[k' s]|] eqn:F; [|reflexivity]. apply find_some in F. destruct F as [F1 F2]. apply Nat.eqb_eq in F2. cbn in F2. subst k'.
    exfalso. apply H. apply (in_map fst) in F1. exact F1.
Qed.
Lemma keys_put : forall k s m, map fst (heap (put k s m)) = map fst (heap m).
Proof.
  intros. unfold put, with_heap. cbn [heap]. rewrite map_map. apply map_ext_in. intros [k' s'] _. cbn [fst]. destruct (Nat.eqb_spec k' k); subst; reflexivity.
Qed.
Lemma get_put_same : forall k s s0 m, get k m = Some s0 -> get k (put k s m) = Some s.
Proof.
  intros k s s0 m H. unfold get, put, with_heap in *. cbn [heap].
  induction (heap m) as [|[k' s'] h IH]; [easy|]. cbn [find fst map] in *.
  destruct (k' =? k) eqn:E; cbn [find fst]; [rewrite Nat.eqb_refl|rewrite E; apply IH; exact H]. reflexivity.
Qed.
Lemma get_put_other : forall k s j m, j <> k -> get j (put k s m) = get j m.
Proof.
  intros k s j m N. unfold get, put, with_heap. cbn [heap].
  induction (heap m) as [|[k' s'] h IH]; [easy|]. cbn [find fst map] in *.
  destruct (Nat.eqb_spec k' k) as [->|E]; cbn [find fst].
  - destruct (Nat.eqb_spec k j) as [->|]; [easy|exact IH].
  - destruct (k' =? j); [reflexivity|exact IH].
Qed.

Definition about (k : nat) (l : list out) : Prop :=
  Forall (fun x => match x with Taken j | Ended j | VOpened j => j = k | Opened _ _ _ | VNew _ | Freed _ => False | _ => True end) l.
Lemma existsb_app_nil : forall A (f : A -> bool) l l', existsb f l' = false -> existsb f (l ++ l') = existsb f l.
Proof. intros. rewrite existsb_app, H, orb_false_r. reflexivity. Qed.
Lemma about_no : forall k l j, about k l -> j <> k -> tk j l = false /\ ended j l = false /\ vo j l = false.
Proof.
  intros k l j A N. induction A as [|x l X A IH]; [easy|]. unfold tk, ended, vo in *. cbn [existsb]. destruct IH as (-> & -> & ->).
  destruct x; cbn; auto; subst; destruct (Nat.eqb_spec k j); subst; try easy; auto.
Qed.
Lemma about_fr : forall k l j, about k l -> fr j l = false /\ opened l = [] /\ count is_new l = 0 /\ count is_freed l = 0.
Proof.
  intros k l j A. induction A as [|x l X A IH]; [easy|]. unfold fr, opened, count in *. cbn [existsb flat_map filter]. destruct IH as (-> & -> & H1 & H2).
  destruct x; cbn; auto; easy.
Qed.
Lemma count_app : forall A (f : A -> bool) l l', count f (l ++ l') = count f l + count f l'.
Proof. intros. unfold count. rewrite filter_app, app_length. reflexivity. Qed.
Lemma opened_app : forall l l', opened (l ++ l') = opened l ++ opened l'.
Proof. intros. unfold opened. apply flat_map_app. Qed.
Lemma tk_app : forall k l l', tk k (l ++ l') = tk k l || tk k l'. Proof. intros. apply existsb_app. Qed.
Lemma vo_app : forall k l l', vo k (l ++ l') = vo k l || vo k l'. Proof. intros. apply existsb_app. Qed.
Lemma fr_app : forall k l l', fr k (l ++ l') = fr k l || fr k l'. Proof. intros. apply existsb_app. Qed.
Lemma ended_app : forall k l l', ended k (l ++ l') = ended k l || ended k l'. Proof. intros. apply existsb_app. Qed.

Lemma put_inv : forall k d w g D V m s s' d' w' l D' V',
  Inv k d w g D V m -> get k m = Some s -> about k l -> (forall j, j <> k -> D' j = D j /\ V' j = V j) ->
  good d' w' s' (tk k (g ++ l)) (ended k (g ++ l)) (vo k (g ++ l)) (D' k) (V' k) ->
  k_virt s' = k_virt s -> (k_conn s' = k_conn s /\ k_id s' = k_id s) \/ (k_conn s' = None /\ ended k (g ++ l) = true) ->
  Inv k d' w' (g ++ l) D' V' (put k s' m).
Proof.
  intros k d w g D V m s s' d' w' l D' V' I G A DV GD VI CI.
  destruct (about_fr k l k A) as (F1 & F2 & F3 & F4).
  assert (OP : opened (g ++ l) = opened g) by (rewrite opened_app, F2, app_nil_r; reflexivity).
  constructor.
  - rewrite keys_put. apply (i_nd _ _ _ _ _ _ _ I).
  - unfold put, with_heap. cbn [current heap]. rewrite map_length. apply (i_cur _ _ _ _ _ _ _ I).
  - unfold put, with_heap. cbn [rst_busy rst_fly]. apply (i_B _ _ _ _ _ _ _ I).
  - intros j. pose proof (i_all _ _ _ _ _ _ _ I j) as X. unfold at_ in *. destruct (Nat.eq_dec j k) as [E|N]; [subst j; rewrite Nat.eqb_refl in *|rewrite (proj2 (Nat.eqb_neq j k) N) in *].
    + rewrite G in X. rewrite (get_put_same _ _ _ _ G). destruct X as (X1 & X2 & X3). split; [exact X1|]. split; [rewrite fr_app, X2, F1; reflexivity|exact GD].
    + rewrite (get_put_other _ _ _ _ N). destruct (about_no k l j A N) as (T1 & T2 & T3). destruct (about_fr k l j A) as (T4 & _).
      destruct (DV j N) as (-> & ->). rewrite tk_app, ended_app, vo_app, fr_app, T1, T2, T3, T4, !orb_false_r. exact X.
  - intros j a j' a' c H1 H2 C1 C2 E.
    destruct (Nat.eq_dec j k) as [->|N]; destruct (Nat.eq_dec j' k) as [->|N']; [reflexivity|..];
      rewrite ?(get_put_same _ _ _ _ G) in *; rewrite ?get_put_other in * by assumption.
    + inversion H1; subst a. destruct CI as [(CI1 & CI2)|(CI1 & _)]; [|congruence].
      eapply (i_uniq _ _ _ _ _ _ _ I k s j' a' c); congruence.
    + inversion H2; subst a'. destruct CI as [(CI1 & CI2)|(CI1 & _)]; [|congruence].
      eapply (i_uniq _ _ _ _ _ _ _ I j a k s c); congruence.
    + eapply (i_uniq _ _ _ _ _ _ _ I j a j' a' c); assumption.
  - rewrite OP. apply (i_open _ _ _ _ _ _ _ I).
  - intros j c id H. rewrite OP in H. destruct (i_open2 _ _ _ _ _ _ _ I j c id H) as (L & [X|(a & X1 & X2 & X3)]); (split; [exact L|]).
    + left. rewrite ended_app, X. reflexivity.
    + destruct (Nat.eq_dec j k) as [->|N].
      * destruct CI as [(CI1 & CI2)|(_ & CI1)]; [|left; exact CI1]. right. exists s'. rewrite (get_put_same _ _ _ _ G). repeat split; congruence.
      * right. exists a. rewrite get_put_other by exact N. auto.
  - intros j c id a H H1. rewrite OP in H. destruct (Nat.eq_dec j k) as [->|N].
    + rewrite (get_put_same _ _ _ _ G) in H1. inversion H1; subst a. rewrite VI. apply (i_open3 _ _ _ _ _ _ _ I k c id s H G).
    + rewrite get_put_other in H1 by exact N. apply (i_open3 _ _ _ _ _ _ _ I j c id a H H1).
  - intros j a c H1 H2. rewrite OP. destruct (Nat.eq_dec j k) as [->|N].
    + rewrite (get_put_same _ _ _ _ G) in H1. inversion H1; subst a. destruct CI as [(CI1 & CI2)|(CI1 & _)]; [|congruence].
      rewrite CI2. apply (i_open4 _ _ _ _ _ _ _ I k s c G). congruence.
    + rewrite get_put_other in H1 by exact N. apply (i_open4 _ _ _ _ _ _ _ I j a c H1 H2).
  - intros j a H1 H2. rewrite OP. destruct (Nat.eq_dec j k) as [->|N].
    + rewrite (get_put_same _ _ _ _ G) in H1. inversion H1; subst a. apply (i_open6 _ _ _ _ _ _ _ I k s G). congruence.
    + rewrite get_put_other in H1 by exact N. apply (i_open6 _ _ _ _ _ _ _ I j a H1 H2).
  - rewrite OP. apply (i_even _ _ _ _ _ _ _ I).
  - rewrite !count_app, F3, F4, !Nat.add_0_r. unfold put, with_heap. cbn [current]. apply (i_cnt _ _ _ _ _ _ _ I).
Qed.
(** Outputs which tell nothing, and changes of the RST buffer. *)
Lemma rst_inv : forall k d w g D V m b f l, Inv k d w g D V m -> (B -> b = f) -> Forall (fun x => match x with RstSent _ _ | Offered _ _ | Unhandled | NoStream | Listening _ _ | Refused _ | PacketSent _ => True | _ => False end) l ->
  Inv k d w (g ++ l) D V (with_rst b f m).
Proof.
  intros k d w g D V m b f l I Bb A.
  assert (Z : forall j, tk j l = false /\ ended j l = false /\ vo j l = false /\ fr j l = false).
  { intros j. clear -A. induction A as [|x l X A IH]; [easy|]. unfold tk, ended, vo, fr in *. cbn [existsb]. destruct IH as (-> & -> & -> & ->). destruct x; easy. }
  assert (Z2 : opened l = [] /\ count is_new l = 0 /\ count is_freed l = 0).
  { clear -A. induction A as [|x l X A IH]; [easy|]. unfold opened, count in *. cbn [flat_map filter]. destruct IH as (-> & H1 & H2). destruct x; easy. }
  destruct Z2 as (Z2 & Z3 & Z4).
  destruct I. constructor; auto.
  - intros j. destruct (Z j) as (T1 & T2 & T3 & T4). specialize (i_all0 j). unfold at_ in *. change (get j (with_rst b f m)) with (get j m).
    rewrite tk_app, ended_app, vo_app, fr_app, T1, T2, T3, T4, !orb_false_r. exact i_all0.
  - rewrite opened_app, Z2, app_nil_r. assumption.
  - intros j c id H. rewrite opened_app, Z2, app_nil_r in H. destruct (i_open5 j c id H) as (X & [Y|Y]); (split; [exact X|]); [left; rewrite ended_app, Y; reflexivity|right; exact Y].
  - intros j c id s H. rewrite opened_app, Z2, app_nil_r in H. eauto.
  - intros. rewrite opened_app, Z2, app_nil_r. eauto.
  - intros. rewrite opened_app, Z2, app_nil_r. eauto.
  - rewrite opened_app, Z2, app_nil_r. assumption.
  - rewrite !count_app, Z3, Z4. cbn [current with_rst]. lia.
Qed.
Lemma same_rst : forall m, with_rst (rst_busy m) (rst_fly m) m = m. Proof. intros []; reflexivity. Qed.
Lemma quiet_inv : forall k d w g D V m l, Inv k d w g D V m -> Forall (fun x => match x with RstSent _ _ | Offered _ _ | Unhandled | NoStream | Listening _ _ | Refused _ | PacketSent _ => True | _ => False end) l -> Inv k d w (g ++ l) D V m.
Proof. intros. rewrite <- (same_rst m). apply rst_inv; auto. apply (i_B _ _ _ _ _ _ _ H). Qed.
Lemma nil_inv : forall k d w g D V m, Inv k d w g D V m -> Inv k d w (g ++ []) D V m.
Proof. intros. rewrite app_nil_r. assumption. Qed.
Lemma good_of : forall k d w g D V m s, Inv k d w g D V m -> get k m = Some s -> k < next m /\ fr k g = false /\ good d w s (tk k g) (ended k g) (vo k g) (D k) (V k).
Proof. intros k d w g D V m s I G. pose proof (i_all _ _ _ _ _ _ _ I k) as X. unfold at_ in X. rewrite G, Nat.eqb_refl in X. exact X. Qed.
Lemma held_get : forall k d w g D V m, Inv k (S d) w g D V m -> exists s, get k m = Some s.
Proof. intros k d w g D V m I. pose proof (i_all _ _ _ _ _ _ _ I k) as X. unfold at_ in X. rewrite Nat.eqb_refl in X. destruct (get k m) as [s|]; [eauto|]. destruct X. discriminate. Qed.
Lemma rekey : forall k j g D V m, Inv k 0 false g D V m -> Inv j 0 false g D V m.
Proof. intros k j g D V m []; constructor; auto. intros i. specialize (i_all0 i). destruct (i =? k); destruct (i =? j); exact i_all0. Qed.

Ltac fields := cbn [k_id k_conn k_refs k_virt k_accepted k_stopped k_listed k_sending k_flying k_posted k_app k_client set_refs set_accepted set_stopped set_listed set_send set_posted set_app set_client b2n is_none is_client is_virtual] in *.
Ltac gd := rewrite ?app_nil_r in *; constructor; fields; try solve [auto | lia | congruence | intuition (try congruence; try lia)].

Lemma inc_inv : forall k d w g D V m s, Inv k d w g D V m -> get k m = Some s ->
  inc k m = Some (put k (set_refs (S (k_refs s)) s) m) /\ Inv k (S d) w g D V (put k (set_refs (S (k_refs s)) s) m).
Proof.
  intros k d w g D V m s I G. destruct (good_of _ _ _ _ _ _ _ _ I G) as (_ & _ & X). unfold inc. rewrite G. split; [reflexivity|].
  rewrite <- (app_nil_r g). eapply put_inv; [exact I|exact G|constructor|auto| |reflexivity|left; auto]. destruct X. gd.
Qed.
Lemma remove_key : forall (h : list (nat * stream)) k s, NoDup (map fst h) -> find (fun x => fst x =? k) h = Some (k, s) -> S (length (filter (fun x => negb (fst x =? k)) h)) = length h.
Proof.
  induction h as [|[k' s'] h IH]; intros k s N F; [discriminate|]. cbn [find fst filter length map] in *. inversion N; subst.
  destruct (Nat.eqb_spec k' k) as [->|E]; cbn [negb length].
  - f_equal. clear -H1. induction h as [|[k' s'] h IH]; [reflexivity|]. cbn [filter fst length map] in *. destruct (Nat.eqb_spec k' k) as [->|E]; [exfalso; apply H1; left; reflexivity|].
    cbn [negb length]. rewrite IH; [reflexivity|]. intros X. apply H1. right. exact X.
  - rewrite (IH k s); auto.
Qed.
Definition drop (k : nat) (m : mgr) : mgr := with_current (current m - 1) (with_heap (filter (fun x => negb (fst x =? k)) (heap m)) m).
Lemma get_drop : forall k j m, NoDup (map fst (heap m)) -> get j (drop k m) = if j =? k then None else get j m.
Proof.
  intros k j m N. unfold get, drop, with_current, with_heap. cbn [heap]. induction (heap m) as [|[k' s'] h IH]; [destruct (j =? k); reflexivity|].
  cbn [filter fst find map] in *. inversion N; subst. specialize (IH H2). destruct (Nat.eqb_spec k' k) as [->|E]; cbn [negb].
  - rewrite IH. destruct (Nat.eqb_spec j k) as [->|E]; [reflexivity|]. destruct (Nat.eqb_spec k j); [congruence|reflexivity].
  - cbn [find fst]. destruct (Nat.eqb_spec k' j) as [->|E']; [|exact IH]. destruct (Nat.eqb_spec j k); [congruence|reflexivity].
Qed.
Lemma dec_inv : forall k d w g D V m, Inv k (S d) w g D V m -> exists m' l, dec k m = Some (m', l) /\ Inv k d w (g ++ l) D V m'.
Proof.
  intros k d w g D V m I. destruct (held_get _ _ _ _ _ _ _ I) as (s & G). destruct (good_of _ _ _ _ _ _ _ _ I G) as (L & F & X). unfold dec. rewrite G.
  destruct (k_refs s) as [|[|n]] eqn:R; [destruct X; lia| |].
  - exists (drop k m), [Freed k]. split; [reflexivity|]. destruct X.
    assert (d = 0) by lia. subst d. assert (Ls : k_listed s = false) by (destruct (k_listed s); cbn in *; [lia|reflexivity]).
    assert (As : k_app s = false) by (destruct (k_app s); cbn in *; [lia|reflexivity]). assert (Cs : k_client s = false) by (destruct (k_client s); cbn in *; [lia|reflexivity]).
    assert (Ss : k_stopped s = true) by (destruct (k_stopped s); [reflexivity|rewrite g_run0 in Ls by reflexivity; discriminate]).
    assert (E0 : ended k g = true) by congruence.
    pose proof I as I0. destruct I.
    assert (GD : forall j, get j (drop k m) = if j =? k then None else get j m) by (intros; apply get_drop; assumption).
    assert (T : forall j, tk j [Freed k] = false /\ vo j [Freed k] = false /\ ended j [Freed k] = false /\ fr j [Freed k] = (k =? j)) by (intros; repeat split; cbn; apply orb_false_r).
    constructor.
    + unfold drop, with_current, with_heap; cbn [heap]. clear -i_nd0. induction (heap m) as [|[k' s'] h IH]; [constructor|]. cbn [filter map fst] in *. inversion i_nd0; subst.
      destruct (negb (k' =? k)); [|auto]. cbn [map fst]. constructor; [|auto]. intros Y. apply H1. apply in_map_iff in Y. destruct Y as (y & Y1 & Y2). apply filter_In in Y2. rewrite <- Y1. apply in_map. apply Y2.
    + unfold drop, with_current, with_heap; cbn [heap current]. rewrite i_cur0. pose proof (get_in _ _ _ G) as Y. pose proof (remove_key _ _ _ i_nd0 (find_key _ _ _ i_nd0 Y)). lia.
    + exact i_B0.
    + intros j. specialize (i_all0 j). unfold at_ in *. rewrite GD. destruct (T j) as (T1 & T2 & T3 & T4). rewrite tk_app, vo_app, ended_app, fr_app, T1, T2, T3, T4, !orb_false_r.
      destruct (Nat.eq_dec j k) as [E|E]; [subst j; rewrite !Nat.eqb_refl|rewrite (proj2 (Nat.eqb_neq j k) E), (proj2 (Nat.eqb_neq k j)) in * by congruence; rewrite orb_false_r; exact i_all0].
      split; [reflexivity|]. split; [congruence|]. split; [congruence|]. split; [intros; split; [apply orb_true_r|exact E0]|]. unfold drop, with_current, with_heap; cbn [next]. lia.
    + intros j a j' a' c H1 H2. rewrite GD in H1, H2. destruct (j =? k); [discriminate|]. destruct (j' =? k); [discriminate|]. eauto.
    + rewrite opened_app. cbn. rewrite app_nil_r. assumption.
    + intros j c id H. rewrite opened_app in H. cbn in H. rewrite app_nil_r in H. destruct (i_open5 j c id H) as (Y & Z). split; [exact Y|]. rewrite ended_app, GD.
      destruct (Nat.eqb_spec j k) as [->|E]; [left; rewrite E0; reflexivity|]. destruct Z as [Z|Z]; [left; rewrite Z; reflexivity|right; exact Z].
    + intros j c id a H. rewrite opened_app in H. cbn in H. rewrite app_nil_r in H. rewrite GD. destruct (j =? k); [discriminate|]. eauto.
    + intros j a c H. rewrite opened_app. cbn. rewrite app_nil_r. rewrite GD in H. destruct (j =? k); [discriminate|]. eauto.
    + intros j a H H1. rewrite opened_app. cbn. rewrite app_nil_r. rewrite GD in H. destruct (j =? k); [discriminate|]. eauto.
    + rewrite opened_app. cbn. rewrite app_nil_r. assumption.
    + rewrite !count_app, i_cnt0. cbn. unfold drop, with_current, with_heap; cbn [current]. pose proof (get_in _ _ _ G) as Y. pose proof (remove_key _ _ _ i_nd0 (find_key _ _ _ i_nd0 Y)). lia.
  - exists (put k (set_refs (S n) s) m), []. split; [reflexivity|]. eapply put_inv; [exact I|exact G|constructor|auto| |reflexivity|left; auto]. destruct X. gd.
Qed.
Lemma send_rst_inv : forall k d w g D V m c id r, Inv k d w g D V m -> (B -> r <> Failed) -> forall m' l, send_rst c id r m = (m', l) -> Inv k d w (g ++ l) D V m' /\ heap m' = heap m.
Proof.
  intros k d w g D V m c id r I N m' l H. unfold send_rst in H. destruct (rst_busy m); [inversion H; subst; split; [apply nil_inv; exact I|reflexivity]|].
  destruct r; inversion H; subst; (split; [|reflexivity]).
  - apply nil_inv; exact I.
  - apply rst_inv; [exact I|reflexivity|repeat constructor].
  - apply rst_inv; [exact I| |constructor]. intros b. destruct (N b); reflexivity.
Qed.
Lemma get_heap : forall k m m', heap m' = heap m -> get k m' = get k m. Proof. unfold get. intros k m m' ->. reflexivity. Qed.
Lemma stop_inv : forall k d w g D V m s r w', Inv k d w g D V m -> get k m = Some s -> (B -> r <> Some Failed) -> k_app s = true \/ k_stopped s = true \/ w' = true -> (w = true -> w' = true) ->
  exists m' l s', stop k r m = Some (m', l) /\ Inv k d w' (g ++ l) D V m' /\ get k m' = Some s' /\ k_stopped s' = true /\ k_app s' = k_app s /\ k_accepted s' = k_accepted s /\ k_listed s' = k_listed s /\ k_refs s' = k_refs s /\ k_client s' = k_client s /\ (k_stopped s = true -> l = []).
Proof.
  intros k d w g D V m s r w' I G Nr A W. destruct (good_of _ _ _ _ _ _ _ _ I G) as (L & F & X). unfold stop. rewrite G. destruct (k_stopped s) eqn:S0.
  - exists m, [], s. split; [reflexivity|]. split; [|repeat split; auto].
    replace m with (put k s m) at 1; [eapply put_inv; [exact I|exact G|constructor|auto| |reflexivity|left; auto]; destruct X; gd|].
    assert (Y : forall h, (forall x, In x h -> fst x = k -> x = (k, s)) -> map (fun x : nat * stream => if fst x =? k then (k, s) else x) h = h).
    { induction h as [|x h IH]; intros Hx; [reflexivity|]. cbn [map]. rewrite IH by (intros; apply Hx; [right|]; assumption). f_equal. destruct (Nat.eqb_spec (fst x) k); [symmetry; apply Hx; [left; reflexivity|assumption]|reflexivity]. }
    unfold put, with_heap. rewrite Y; [destruct m; reflexivity|]. intros [k' s'] Hx Ex. cbn in Ex. subst k'. pose proof (in_get _ _ _ (i_nd _ _ _ _ _ _ _ I) Hx) as Z. congruence.
  - set (q := match k_virt s with true => _ | false => _ end). assert (Q : Inv k d w (g ++ snd q) D V (fst q) /\ heap (fst q) = heap m /\ Forall (fun x => match x with RstSent _ _ => True | _ => False end) (snd q)).
    { subst q. assert (Z : Inv k d w (g ++ []) D V m) by (apply nil_inv; exact I). destruct (k_virt s); [cbn; auto|]. destruct r as [r|]; [|cbn; auto]. destruct (k_conn s) as [[c|c]|]; [|cbn; auto|cbn; auto].
      destruct (send_rst c (k_id s) r m) as [m' l] eqn:E. cbn [fst snd]. assert (Br : B -> r <> Failed) by (intros b ->; apply (Nr b); reflexivity).
      destruct (send_rst_inv _ _ _ _ _ _ _ _ _ _ I Br _ _ E). split; [assumption|]. split; [assumption|].
      unfold send_rst in E. destruct (rst_busy m); [inversion E; constructor|]. destruct r; inversion E; repeat constructor. }
    destruct q as [m1 l1]. cbn [fst snd] in Q. destruct Q as (Q1 & Q2 & Q3). assert (G1 : get k m1 = Some s) by (rewrite (get_heap _ _ _ Q2); exact G).
    destruct (good_of _ _ _ _ _ _ _ _ Q1 G1) as (_ & _ & X1).
    exists (put k (set_stopped s) m1), (l1 ++ [Ended k]), (set_stopped s). split; [reflexivity|]. split; [|rewrite (get_put_same _ _ _ _ G1); repeat split; discriminate].
    rewrite app_assoc.
    assert (E1 : ended k ((g ++ l1) ++ [Ended k]) = true) by (rewrite ended_app; cbn; rewrite Nat.eqb_refl; apply orb_true_r).
    eapply put_inv; [exact Q1|exact G1|repeat constructor|auto| |reflexivity|right; auto].
    rewrite E1, tk_app, vo_app. cbn [tk vo existsb]. rewrite !orb_false_r. destruct X1. gd.
Qed.
Lemma remove_inv : forall k d w g D V m s, Inv k (S d) w g D V m -> get k m = Some s -> k_listed s = true -> k_stopped s = true -> k_app s = false ->
  exists m' l, remove k m = Some (m', l) /\ Inv k (S d) false (g ++ l) D V m'.
Proof.
  intros k d w g D V m s I G Ls Ss As. destruct (good_of _ _ _ _ _ _ _ _ I G) as (L & F & X). unfold remove. rewrite G, Ls.
  apply dec_inv. rewrite <- (app_nil_r g). eapply put_inv; [exact I|exact G|constructor|auto| |reflexivity|left; auto]. destruct X. rewrite Ls, Ss, As in *. gd. rewrite As; cbn [b2n]; lia.
Qed.
Lemma bind_some : forall x f m l m' l', x = Some (m, l) -> f m = Some (m', l') -> bind x f = Some (m', l ++ l').
Proof. intros x f m l m' l' -> H. cbn. rewrite H. reflexivity. Qed.

Lemma tear_inv : forall k d g D V m s r, Inv k (S d) true g D V m -> get k m = Some s -> (B -> r <> Some Failed) -> k_listed s = true -> k_app s = false ->
  exists m' l, bind (stop k r m) (fun m => bind (remove k m) (dec k)) = Some (m', l) /\ Inv k d false (g ++ l) D V m'.
Proof.
  intros k d g D V m s r I G Nr Ls As.
  destruct (stop_inv _ _ _ _ _ _ _ _ r true I G Nr (or_intror (or_intror eq_refl)) (fun _ => eq_refl)) as (m1 & l1 & s1 & E1 & I1 & G1 & S1 & A1 & C1 & L1 & _).
  destruct (remove_inv _ _ _ _ _ _ _ _ I1 G1) as (m2 & l2 & E2 & I2); [congruence|congruence|congruence|].
  destruct (dec_inv _ _ _ _ _ _ _ I2) as (m3 & l3 & E3 & I3).
  exists m3, (l1 ++ (l2 ++ l3)). split; [exact (bind_some _ _ _ _ _ _ E1 (bind_some _ _ _ _ _ _ E2 E3))|]. rewrite !app_assoc. exact I3.
Qed.
Definition upd (k : nat) (f : nat -> bool) : nat -> bool := fun j => if j =? k then true else f j.
Lemma destroy_owned : forall k d g D V m s r, Inv k d false g D V m -> get k m = Some s -> (B -> r <> Some Failed) -> k_app s = true ->
  exists m' l, destroy k r m = Some (m', l) /\ Inv k d false (g ++ l) (upd k D) V m'.
Proof.
  intros k d g D V m s r I G Nr As. destruct (good_of _ _ _ _ _ _ _ _ I G) as (L & F & X). unfold destroy. rewrite G.
  apply tear_inv with (s := set_app false s).
  - rewrite <- (app_nil_r g). eapply put_inv; [exact I|exact G|constructor| | |reflexivity|left; auto].
    + intros j N. unfold upd. rewrite (proj2 (Nat.eqb_neq j k) N). auto.
    + unfold upd. rewrite Nat.eqb_refl. destruct X. rewrite app_nil_r. rewrite As in *. symmetry in g_own0. apply andb_prop in g_own0. destruct g_own0 as [T _]. rewrite T in *. gd; try (symmetry; apply andb_false_r).
  - apply (get_put_same _ _ _ _ G).
  - exact Nr.
  - destruct X. apply g_app0. exact As.
  - reflexivity.
Qed.
Lemma destroy_refused : forall k d g D V m s r, Inv k (S d) true g D V m -> get k m = Some s -> (B -> r <> Some Failed) -> k_app s = false -> k_listed s = true ->
  exists m' l, destroy k r m = Some (m', l) /\ Inv k d false (g ++ l) D V m'.
Proof.
  intros k d g D V m s r I G Nr As Ls. destruct (good_of _ _ _ _ _ _ _ _ I G) as (L & F & X). unfold destroy. rewrite G.
  apply tear_inv with (s := set_app false s); [|apply (get_put_same _ _ _ _ G)|exact Nr|exact Ls|reflexivity].
  rewrite <- (app_nil_r g). eapply put_inv; [exact I|exact G|constructor|auto| |reflexivity|left; auto]. destruct X. gd; rewrite As in *; exact g_refs0.
Qed.
(** A stream which is not yet accepted is offered. *)
Lemma ready_inv : forall k d g D V m s port take r, Inv k d false g D V m -> get k m = Some s -> (B -> r <> Some Failed) -> k_accepted s = false -> k_stopped s = false ->
  exists m' l, ready k port take r m = Some (m', l) /\ Inv k d false (g ++ l) D V m'.
Proof.
  intros k d g D V m s port take r I G Nr As Ss. destruct (good_of _ _ _ _ _ _ _ _ I G) as (L & F & X). unfold ready. rewrite G.
  set (s1 := set_accepted (set_refs (S (k_refs s)) s)).
  assert (Ls : k_listed s = true) by (destruct X; auto). assert (Ap : k_app s = false) by (destruct X; destruct (k_app s); [destruct g_app0; congruence|reflexivity]).
  assert (T : tk k g = false) by (destruct X; destruct (tk k g); [rewrite g_tk0 in As by reflexivity; discriminate|reflexivity]).
  assert (Dk : D k = false) by (destruct X; destruct (D k); [rewrite g_dk0 in T by reflexivity; discriminate|reflexivity]).
  assert (V0 : vo k g = false) by (destruct X; destruct (vo k g); [destruct g_vo0; congruence|reflexivity]).
  assert (I1 : Inv k (S d) true g D V (put k s1 m)).
  { rewrite <- (app_nil_r g). eapply put_inv; [exact I|exact G|constructor|auto| |reflexivity|left; auto]. subst s1. destruct X. rewrite app_nil_r. rewrite ?T, ?V0, ?Ls, ?Ap, ?Ss, ?Dk, ?As in *. gd; fields; rewrite ?Ls, ?Ap in *; fields; lia. }
  assert (G1 : get k (put k s1 m) = Some s1) by apply (get_put_same _ _ _ _ G).
  destruct (find _ (listeners m)) as [[l0 p0]|].
  - destruct take.
    + eexists. eexists. split; [reflexivity|]. eapply put_inv; [exact I|exact G| |auto| |reflexivity|left; auto].
      * repeat constructor.
      * rewrite tk_app, ended_app, vo_app. cbn [tk ended vo existsb]. rewrite Nat.eqb_refl, !orb_false_r. cbn [orb]. rewrite orb_true_r. subst s1. destruct X. rewrite ?T, ?V0, ?Dk, ?Ss, ?As, ?Ls, ?Ap in *.
        gd; fields; rewrite ?Ls, ?Ap in *; fields; lia.
    + assert (I2 : Inv k (S d) true (g ++ [Offered l0 k]) D V (put k s1 m)) by (apply quiet_inv; [exact I1|repeat constructor]).
      destruct (destroy_refused _ _ _ _ _ _ _ r I2 G1 Nr) as (m2 & l2 & E2 & I3); [exact Ap|exact Ls|]. exists m2, ([Offered l0 k] ++ l2). split; [apply (bind_some _ _ _ _ _ _ eq_refl E2)|]. rewrite app_assoc. exact I3.
  - apply (destroy_refused _ _ _ _ _ _ _ r I1 G1 Nr); [exact Ap|exact Ls].
Qed.
Lemma post_inv : forall k d g D V m s, Inv k d false g D V m -> get k m = Some s -> k_virt s = false -> exists s', get k (post k s m) = Some s' /\ Inv k d false g D V (post k s m).
Proof.
  intros k d g D V m s I G Vs. destruct (good_of _ _ _ _ _ _ _ _ I G) as (L & F & X). unfold post. destruct (k_posted s) eqn:P; [eauto|].
  eexists. split; [apply (get_put_same _ _ _ _ G)|]. rewrite <- (app_nil_r g). eapply put_inv; [exact I|exact G|constructor|auto| |reflexivity|left; auto]. destruct X. rewrite P in *. gd.
Qed.
Lemma send_inv : forall k d g D V m s empty ok, Inv k d false g D V m -> get k m = Some s -> k_stopped s = false -> k_virt s = false -> (B -> ok = true) ->
  exists m' l, send_packet k empty ok m = Some (m', l) /\ Inv k d false (g ++ l) D V m'.
Proof.
  intros k d g D V m s empty ok I G Ss Vs Bo. destruct (good_of _ _ _ _ _ _ _ _ I G) as (L & F & X). unfold send_packet. rewrite G.
  destruct (k_conn s) as [c|] eqn:C; [|destruct X; rewrite C in *; cbn in *; congruence].
  destruct (k_sending s) eqn:Se; [eexists; eexists; split; [reflexivity|apply nil_inv; exact I]|].
  destruct empty; [eexists; eexists; split; [reflexivity|apply nil_inv; exact I]|].
  assert (Fl : k_flying s = false) by (destruct X; destruct (k_flying s); [rewrite g_fly0 in Se by reflexivity; discriminate|reflexivity]).
  destruct ok.
  - eexists; eexists; split; [reflexivity|]. eapply put_inv; [exact I|exact G|repeat constructor|auto| |reflexivity|left; auto].
    rewrite tk_app, ended_app, vo_app. cbn [tk ended vo existsb]. rewrite !orb_false_r. destruct X. rewrite ?Fl, ?Se in *. gd.
  - eexists; eexists; split; [reflexivity|]. apply nil_inv.
    assert (I1 : Inv k d false g D V (put k (set_send true false s) m)).
    { rewrite <- (app_nil_r g). eapply put_inv; [exact I|exact G|constructor|auto| |reflexivity|left; auto]. destruct X. rewrite ?Fl, ?Se in *. gd. }
    destruct (post_inv _ _ _ _ _ _ (set_send true false s) I1 (get_put_same _ _ _ _ G) Vs) as (s' & _ & Y). exact Y.
Qed.

Lemma events_inv : forall evs k d g D V m s, Inv k d false g D V m -> get k m = Some s -> k_virt s = false -> (B -> existsb bad_ev evs = false) -> 1 <= d \/ existsb offers evs = false ->
  exists m' l, events k evs m = Some (m', l) /\ Inv k d false (g ++ l) D V m'.
Proof.
  induction evs as [|e evs IH]; intros k d g D V m s I G Vs Be Ho; cbn [events]; rewrite G.
  - exists m, []. split; [destruct (k_stopped s); reflexivity|apply nil_inv; exact I].
  - destruct (k_stopped s) eqn:Ss; [exists m, []; split; [reflexivity|apply nil_inv; exact I]|]. cbn [existsb] in Be, Ho.
    assert (Be' : B -> existsb bad_ev evs = false) by (intros b; specialize (Be b); apply orb_false_iff in Be; apply Be).
    assert (Ho' : 1 <= d \/ existsb offers evs = false) by (destruct Ho as [Ho|Ho]; [left; exact Ho|right; apply orb_false_iff in Ho; apply Ho]).
    destruct e as [p t r|e o| |].
    + destruct (k_accepted s) eqn:As; [apply (IH _ _ _ _ _ _ _ I G Vs Be' Ho')|].
      destruct d as [|d]; [destruct Ho as [Ho|Ho]; [lia|discriminate]|].
      assert (Nr : B -> r <> Some Failed) by (intros b ->; specialize (Be b); discriminate).
      destruct (ready_inv _ _ _ _ _ _ _ p t r I G Nr As Ss) as (m1 & l1 & E1 & I1). destruct (held_get _ _ _ _ _ _ _ I1) as (s1 & G1).
      assert (V1 : k_virt s1 = false).
      { pose proof (i_open6 _ _ _ _ _ _ _ I k s G Vs) as Y. apply in_map_iff in Y. destruct Y as ((k' & c & id) & Y1 & Y2). cbn in Y1. subst k'.
        apply (i_open3 _ _ _ _ _ _ _ I1 k c id s1); [|exact G1]. rewrite opened_app. apply in_or_app. left. exact Y2. }
      destruct (IH _ _ _ _ _ _ _ I1 G1 V1 Be') as (m2 & l2 & E2 & I2); [left; lia|]. exists m2, (l1 ++ l2). split; [exact (bind_some _ _ _ _ _ _ E1 E2)|]. rewrite app_assoc. exact I2.
    + apply (send_inv _ _ _ _ _ _ _ e o I G Ss Vs). intros b. specialize (Be b). destruct o; [reflexivity|discriminate].
    + apply (IH _ _ _ _ _ _ _ I G Vs Be' Ho').
    + exists m, []. split; [reflexivity|apply nil_inv; exact I].
Qed.
Lemma deliver_inv : forall evs k g D V m s, Inv k 0 false g D V m -> get k m = Some s -> k_virt s = false -> (B -> existsb bad_ev evs = false) ->
  exists m' l, deliver k evs m = Some (m', l) /\ Inv k 0 false (g ++ l) D V m'.
Proof.
  intros evs k g D V m s I G Vs Be. unfold deliver. destruct (inc_inv _ _ _ _ _ _ _ _ I G) as (E0 & I0). rewrite E0. cbn [lift].
  assert (G0 := get_put_same _ (set_refs (S (k_refs s)) s) _ _ G).
  destruct (events_inv evs _ _ _ _ _ _ _ I0 G0 Vs Be (or_introl (le_n 1))) as (m1 & l1 & E1 & I1). destruct (dec_inv _ _ _ _ _ _ _ I1) as (m2 & l2 & E2 & I2).
  exists m2, ([] ++ (l1 ++ l2)). split; [exact (bind_some _ _ _ _ _ _ eq_refl (bind_some _ _ _ _ _ _ E1 E2))|]. cbn [app]. rewrite app_assoc. exact I2.
Qed.
Lemma nodup_snoc : forall (l : list nat) x, NoDup l -> ~ In x l -> NoDup (l ++ [x]).
Proof.
  induction l as [|y l IH]; intros x N H; [repeat constructor; auto|]. cbn [app]. inversion N; subst. constructor; [|apply IH; [assumption|intros Y; apply H; right; exact Y]].
  intros Y. apply in_app_or in Y. destruct Y as [Y|[Y|[]]]; [auto|]. subst y. apply H. left. reflexivity.
Qed.
(** A new stream. *)
Lemma push_inv : forall g D V m s x, Inv (next m) 0 false g D V m ->
  good 0 false s false false false false false ->
  (k_virt s = true /\ x = VNew (next m) \/ exists c, k_virt s = false /\ k_conn s = Some (Client c) /\ x = Opened (next m) c (k_id s) /\ forall j a, get j m = Some a -> k_conn a = Some (Client c) -> k_id a <> k_id s) ->
  Inv (next m) 0 false (g ++ [x]) D V (push s m) /\ get (next m) (push s m) = Some s.
Proof.
  intros g D V m s x I GD X.
  assert (N0 : get (next m) m = None).
  { pose proof (i_all _ _ _ _ _ _ _ I (next m)) as A. unfold at_ in A. destruct (get (next m) m); [lia|reflexivity]. }
  pose proof (i_all _ _ _ _ _ _ _ I (next m)) as A. unfold at_ in A. rewrite N0 in A. destruct A as (_ & _ & _ & _ & A). destruct (A (le_n _)) as (A1 & A2 & A3 & A4 & A5 & A6). clear A.
  assert (GP : forall j, get j (push s m) = if j =? next m then Some s else get j m).
  { intros j. unfold get, push. cbn [heap]. rewrite <- (Nat.eqb_sym (next m)). destruct (Nat.eqb_spec (next m) j) as [E|E].
    - subst j. assert (F : find (fun x0 : nat * stream => fst x0 =? next m) (heap m) = None) by (unfold get in N0; destruct (find _ _); [discriminate|reflexivity]).
      clear -F. induction (heap m) as [|y h IH]; [cbn; rewrite Nat.eqb_refl; reflexivity|]. cbn [find app] in *. destruct (fst y =? next m); [discriminate|auto].
    - induction (heap m) as [|y h IH]; [cbn [find app fst]; rewrite (proj2 (Nat.eqb_neq _ _) E); reflexivity|]. cbn [find app]. destruct (fst y =? j); [reflexivity|exact IH]. }
  assert (Z : forall j, tk j [x] = false /\ ended j [x] = false /\ vo j [x] = false /\ fr j [x] = false) by (intros j; destruct X as [(_ & ->)|(c & _ & _ & -> & _)]; repeat split).
  assert (Nx : get (next m) (push s m) = Some s) by (rewrite GP, Nat.eqb_refl; reflexivity).
  split; [|exact Nx].
  assert (OL : forall j c id, In (j, (c, id)) (opened g) -> j < next m) by (intros j c id H; apply (i_open2 _ _ _ _ _ _ _ I j c id H)).
  assert (OX : opened [x] = [] /\ k_virt s = true \/ exists c, opened [x] = [(next m, (c, k_id s))] /\ k_virt s = false /\ k_conn s = Some (Client c)).
  { destruct X as [(X1 & ->)|(c & X1 & X2 & -> & _)]; [left; auto|right; exists c; auto]. }
  constructor.
  - unfold push; cbn [heap]. rewrite map_app. cbn [map fst]. apply nodup_snoc; [apply (i_nd _ _ _ _ _ _ _ I)|apply get_none; exact N0].
  - unfold push; cbn [heap current]. rewrite app_length. cbn [length]. rewrite (i_cur _ _ _ _ _ _ _ I). lia.
  - exact (i_B _ _ _ _ _ _ _ I).
  - intros j. pose proof (i_all _ _ _ _ _ _ _ I j) as Y. unfold at_ in *. rewrite GP. destruct (Z j) as (T1 & T2 & T3 & T4). rewrite tk_app, ended_app, vo_app, fr_app, T1, T2, T3, T4, !orb_false_r.
    change (next (push s m)) with (S (next m)). destruct (Nat.eq_dec j (next m)) as [E|E]; [subst j; rewrite !Nat.eqb_refl in *|rewrite (proj2 (Nat.eqb_neq _ _) E) in *].
    + rewrite A1, A2, A3, A4, A5, A6. split; [lia|]. split; [reflexivity|]. exact GD.
    + destruct (get j m); [destruct Y as (Y1 & Y2); split; [lia|exact Y2]|]. destruct Y as (Y1 & Y2 & Y3 & Y4 & Y5). split; [exact Y1|]. split; [exact Y2|]. split; [exact Y3|]. split; [intros; apply Y4; lia|intros; apply Y5; lia].
  - intros j a j' a' c H1 H2 C1 C2 E. rewrite GP in H1, H2. destruct (Nat.eqb_spec j (next m)) as [->|E1]; destruct (Nat.eqb_spec j' (next m)) as [->|E2]; [reflexivity| | |eapply (i_uniq _ _ _ _ _ _ _ I); eassumption].
    + inversion H1; subst a. destruct X as [(X1 & _)|(c' & X1 & X2 & _ & X3)]; [destruct GD; rewrite C1 in g_client0; destruct (g_client0 eq_refl); congruence|]. exfalso. assert (c' = c) by congruence. subst c'. apply (X3 _ _ H2 C2). congruence.
    + inversion H2; subst a'. destruct X as [(X1 & _)|(c' & X1 & X2 & _ & X3)]; [destruct GD; rewrite C2 in g_client0; destruct (g_client0 eq_refl); congruence|]. exfalso. assert (c' = c) by congruence. subst c'. apply (X3 _ _ H1 C1). congruence.
  - rewrite opened_app. destruct OX as [(-> & _)|(c & -> & _)]; [rewrite app_nil_r; apply (i_open _ _ _ _ _ _ _ I)|]. rewrite map_app. cbn [map fst]. pose proof (i_open _ _ _ _ _ _ _ I) as ND.
    assert (NI : ~ In (next m) (map fst (opened g))). { intros Y. apply in_map_iff in Y. destruct Y as ((j & c' & id) & Y1 & Y2). cbn in Y1. subst j. specialize (OL _ _ _ Y2). lia. }
    apply nodup_snoc; assumption.
  - intros j c id H. change (next (push s m)) with (S (next m)). rewrite opened_app in H. apply in_app_or in H. destruct H as [H|H].
    + destruct (i_open2 _ _ _ _ _ _ _ I j c id H) as (Y1 & Y2). split; [lia|]. rewrite ended_app, GP. destruct (Nat.eqb_spec j (next m)); [lia|]. destruct Y2 as [Y2|Y2]; [left; rewrite Y2; reflexivity|right; exact Y2].
    + destruct OX as [(O1 & _)|(c' & O1 & O2 & O3)]; rewrite O1 in H; [destruct H|]. destruct H as [H|[]]. inversion H; subst. split; [lia|]. right. exists s. rewrite Nx. auto.
  - intros j c id a H H1. rewrite GP in H1. rewrite opened_app in H. apply in_app_or in H. destruct H as [H|H].
    + destruct (Nat.eqb_spec j (next m)); [specialize (OL _ _ _ H); lia|]. apply (i_open3 _ _ _ _ _ _ _ I j c id a H H1).
    + destruct OX as [(O1 & _)|(c' & O1 & O2 & O3)]; rewrite O1 in H; [destruct H|]. destruct H as [H|[]]. inversion H; subst. rewrite Nat.eqb_refl in H1. inversion H1; subst. exact O2.
  - intros j a c H1 H2. rewrite GP in H1. rewrite opened_app. apply in_or_app. destruct (Nat.eqb_spec j (next m)) as [->|E]; [|left; apply (i_open4 _ _ _ _ _ _ _ I j a c H1 H2)].
    inversion H1; subst a. right. destruct OX as [(_ & O1)|(c' & O1 & O2 & O3)]; [destruct GD; rewrite H2 in g_client0; destruct (g_client0 eq_refl); congruence|]. rewrite O1. left. congruence.
  - intros j a H1 H2. rewrite GP in H1. rewrite opened_app, map_app. apply in_or_app. destruct (Nat.eqb_spec j (next m)) as [->|E]; [|left; apply (i_open6 _ _ _ _ _ _ _ I j a H1 H2)].
    inversion H1; subst a. right. destruct OX as [(_ & O1)|(c' & O1 & O2 & O3)]; [congruence|]. rewrite O1. left. reflexivity.
  - intros j c id H. rewrite opened_app in H. apply in_app_or in H. destruct H as [H|H]; [apply (i_even _ _ _ _ _ _ _ I j c id H)|].
    destruct OX as [(O1 & _)|(c' & O1 & O2 & O3)]; rewrite O1 in H; [destruct H|]. destruct H as [H|[]]. inversion H; subst. destruct GD. apply g_client0. rewrite O3. reflexivity.
  - rewrite !count_app, (i_cnt _ _ _ _ _ _ _ I). unfold push; cbn [current]. destruct X as [(_ & ->)|(c & _ & _ & -> & _)]; cbn; lia.
Qed.
End Inv.
