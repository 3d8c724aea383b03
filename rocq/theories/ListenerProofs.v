(** Proofs for the listener property C33. *)
From Coq Require Import List Bool Arith Lia.
From Verif Require Import ListenerModel ListenerSpec.
Import ListNotations.

Lemma outs_app : forall a b, outs (a ++ b) = outs a ++ outs b.
Proof. intros. apply flat_map_app. Qed.
Lemma accepted_app : forall a b, accepted (a ++ b) = accepted a ++ accepted b.
Proof. intros. unfold accepted. rewrite outs_app. apply flat_map_app. Qed.
Lemma got_app : forall a b, got (a ++ b) = got a ++ got b.
Proof. intros. unfold got. rewrite outs_app. apply flat_map_app. Qed.
Lemma released_app : forall a b, released (a ++ b) = released a ++ released b.
Proof. intros. unfold released. rewrite outs_app. apply flat_map_app. Qed.
Lemma failed_app : forall a b r, failed r (a ++ b) = failed (failed r a) b.
Proof. induction a as [|[o l] a IH]; intros b r; [reflexivity|]. destruct o; cbn; apply IH. Qed.
Lemma waiting_app : forall a b w, waiting w (a ++ b) = waiting (waiting w a) b.
Proof. induction a as [|[o l] a IH]; intros b w; [reflexivity|]. destruct o; cbn; [| |destruct l| |]; apply IH. Qed.

Lemma run_app : forall h1 h2 l, run l (h1 ++ h2) =
  let (l1, t1) := run l h1 in let (l2, t2) := run l1 h2 in (l2, t1 ++ t2).
Proof.
  induction h1 as [|o h1 IH]; intros h2 l; cbn [app run].
  - destruct (run l h2). reflexivity.
  - destruct (step l o) as [l1 a]. rewrite IH. destruct (run l1 h1) as [l2 t2]. destruct (run l2 h2). reflexivity.
Qed.
Lemma run_split : forall h l l' p x q, run l h = (l', p ++ x :: q) ->
  exists h1 h2 l1 l2, h = h1 ++ fst x :: h2 /\ run l h1 = (l1, p) /\ step l1 (fst x) = (l2, snd x) /\ run l2 h2 = (l', q).
Proof.
  induction h as [|o h IH]; intros l l' p x q R; cbn in R.
  - injection R as _ R. destruct p; discriminate.
  - destruct (step l o) as [l1 a] eqn:S. destruct (run l1 h) as [l2 t] eqn:RR. injection R as <- E. destruct p as [|y p].
    + cbn in E. injection E as <- <-. exists [], h, l, l1. auto.
    + cbn in E. injection E as <- E. subst t. destruct (IH _ _ _ _ _ RR) as (h1 & h2 & a1 & a2 & A & B & C & D).
      exists (o :: h1), h2, a1, a2. subst h. cbn. rewrite S, B. auto.
Qed.

Record inv (l : lst) (t : trace) : Prop := {
  i_init : l_init l = true;
  i_ok : failed None t = None -> l_ec l = ok /\ l_cb l = true /\ released t = [] /\
         l_fut l = option_map fst (waiting None t) /\
         l_place l = option_map snd (waiting None t) /\
         (waiting None t <> None -> l_events l = []);
  i_bad : forall ec, failed None t = Some ec -> l_ec l = ec /\ ec <> ok /\ l_cb l = false /\ l_events l = [] /\
          l_fut l = None /\ waiting None t = None;
  i_all : got t ++ released t ++ l_events l = accepted t;
}.

Lemma inv_init : inv (listener_init fresh_listener) [].
Proof. constructor; cbn; auto. - intros _. repeat split; auto. - discriminate. Qed.

Lemma queued_is : forall l t, inv l t -> queued t = l_events l.
Proof.
  intros l t I. unfold queued. rewrite <- (i_all l t I), app_assoc, <- app_length, skipn_app, skipn_all, Nat.sub_diag.
  reflexivity.
Qed.

Ltac views := rewrite ?accepted_app, ?got_app, ?released_app, ?failed_app, ?waiting_app.

Lemma got_one : forall o l, got [(o, l)] = flat_map (fun o => match o with Write _ e => [e] | _ => [] end) l.
Proof. intros. unfold got, outs. cbn. rewrite app_nil_r. reflexivity. Qed.
Lemma released_one : forall o l, released [(o, l)] = flat_map (fun o => match o with Released e _ => [e] | _ => [] end) l.
Proof. intros. unfold released, outs. cbn. rewrite app_nil_r. reflexivity. Qed.
Lemma accepted_one : forall o l, accepted [(o, l)] = flat_map (fun o => match o with Accepted e => [e] | _ => [] end) l.
Proof. intros. unfold accepted, outs. cbn. rewrite app_nil_r. reflexivity. Qed.

Lemma map_released : forall q c, flat_map (fun o => match o with Released e _ => [e] | _ => [] end) (map (fun e => Released e c) q) = q.
Proof. induction q as [|e q IH]; intros c; cbn; [reflexivity|]. rewrite IH. reflexivity. Qed.
Lemma map_got : forall q c, flat_map (fun o => match o with Write _ e => [e] | _ => [] end) (map (fun e => Released e c) q) = [].
Proof. induction q as [|e q IH]; intros c; cbn; auto. Qed.
Lemma map_accepted : forall q c, flat_map (fun o => match o with Accepted e => [e] | _ => [] end) (map (fun e => Released e c) q) = [].
Proof. induction q as [|e q IH]; intros c; cbn; auto. Qed.
Lemma map_resolves : forall q c, existsb resolves (map (fun e => Released e c) q) = false.
Proof. induction q as [|e q IH]; intros c; cbn; auto. Qed.

Lemma error_inv : forall l t o ec, inv l t -> failed None t = None -> ec <> ok ->
  (o = SetError ec \/ o = Stop /\ ec = stopped) ->
  exists l', resolve_error_state (set_ec l ec) = (l',
      map (fun e => Released e (if Nat.eqb ec aborted then stopped else ec)) (queued t) ++
      match waiting None t with Some (f, _) => [Resolved f ec] | None => [] end ++ [Done]) /\
    inv l' (t ++ [(o, map (fun e => Released e (if Nat.eqb ec aborted then stopped else ec)) (queued t) ++
      match waiting None t with Some (f, _) => [Resolved f ec] | None => [] end ++ [Done])]).
Proof.
  intros l t o ec I F N O. destruct (i_ok _ _ I F) as (E & C & R & A1 & A2 & A3).
  rewrite (queued_is _ _ I). eexists. split.
  - unfold resolve_error_state. cbn. rewrite C, A1. destruct (waiting None t) as [[f p]|]; reflexivity.
  - assert (FF : failed None (t ++ [(o, map (fun e => Released e (if Nat.eqb ec aborted then stopped else ec)) (l_events l) ++
        match waiting None t with Some (f, _) => [Resolved f ec] | None => [] end ++ [Done])]) = Some ec).
    { views. rewrite F. destruct O as [-> | [-> ->]]; reflexivity. }
    constructor.
    + cbn. apply (i_init _ _ I).
    + rewrite FF. discriminate.
    + intros ec' E'. rewrite FF in E'. injection E' as <-. cbn. repeat split; auto.
      views. destruct (waiting None t) as [[f p]|] eqn:W.
      * destruct O as [-> | [-> ->]]; cbn [waiting]; rewrite existsb_app; cbn [existsb resolves app]; rewrite orb_true_r; reflexivity.
      * destruct O as [-> | [-> ->]]; cbn [waiting]; destruct (existsb _ _); reflexivity.
    + cbn [l_events resolve_error_state no_cb set_fut set_events]. rewrite app_nil_r. views.
      rewrite got_one, released_one, accepted_one, !flat_map_app, map_released, map_got, map_accepted.
      pose proof (i_all _ _ I) as AL. rewrite R in *. cbn in AL.
      destruct (waiting None t) as [[f p]|]; cbn; rewrite !app_nil_r; exact AL.
Qed.

Lemma step_inv : forall l t o, inv l t -> proper o ->
  exists l', step l o = (l', answer t o) /\ inv l' (t ++ [(o, answer t o)]).
Proof.
  intros l t o I P. pose proof (i_init _ _ I) as IN. pose proof (i_all _ _ I) as AL.
  pose proof (queued_is _ _ I) as Q.
  destruct (failed None t) as [ec|] eqn:F.
  - destruct (i_bad _ _ I ec F) as (E & N & C & A & B & D).
    assert (NE : Nat.eqb ec ok = false) by (apply Nat.eqb_neq; exact N).
    destruct o as [|e|f p|ec'|]; cbn [proper] in P; [contradiction| | | |]; cbn [step answer]; rewrite ?F.
    + eexists. split; [unfold add_event; rewrite IN, E, NE; cbn; reflexivity|].
      constructor; auto; views; rewrite ?F; cbn [failed waiting]; try discriminate.
      * intros ec' E'. injection E' as <-. rewrite D. cbn. repeat split; auto.
      * rewrite got_one, released_one, accepted_one. cbn. rewrite !app_nil_r. exact AL.
    + eexists. split; [unfold new_future; rewrite IN, E, NE; cbn; reflexivity|].
      constructor; auto; views; rewrite ?F; cbn [failed waiting]; try discriminate.
      * intros ec' E'. injection E' as <-. rewrite D. cbn. repeat split; auto.
      * rewrite got_one, released_one, accepted_one. cbn. rewrite !app_nil_r. exact AL.
    + eexists. split; [unfold set_error_code, resolve_error_state; rewrite IN; cbn; rewrite C, B; reflexivity|].
      constructor; cbn [l_init l_ec l_cb l_events l_fut l_place no_cb set_fut set_events set_ec]; auto; views; rewrite ?F; cbn [failed waiting]; try discriminate.
      * intros ec2 E'. injection E' as <-. rewrite D. cbn. repeat split; auto.
      * rewrite got_one, released_one, accepted_one. cbn. rewrite A in AL. rewrite !app_nil_r in *. exact AL.
    + eexists. split; [unfold stop; rewrite IN, E, NE; reflexivity|].
      constructor; auto; views; rewrite ?F; cbn [failed waiting]; try discriminate.
      * intros ec' E'. injection E' as <-. rewrite D. cbn. repeat split; auto.
      * rewrite got_one, released_one, accepted_one. cbn. rewrite !app_nil_r. exact AL.
  - destruct (i_ok _ _ I F) as (E & C & R & A1 & A2 & A3).
    destruct o as [|e|f p|ec'|]; cbn [proper] in P; [contradiction| | | |]; cbn [step answer]; rewrite ?F.
    + unfold add_event. rewrite IN, E. cbn [negb Nat.eqb ok]. unfold try_resolve. cbn [l_fut set_events l_events].
      rewrite A1. destruct (waiting None t) as [[f p]|] eqn:W; cbn [option_map fst].
      * specialize (A3 ltac:(discriminate)). rewrite A3. cbn [app l_cb set_events]. rewrite C. unfold deliver.
        cbn [l_place set_events]. rewrite A2. cbn [option_map snd]. eexists. split; [reflexivity|].
        constructor; cbn [l_init l_ec l_cb l_events l_fut l_place set_fut set_events set_place]; auto; views; rewrite ?F, ?W; cbn [failed waiting existsb resolves orb]; try discriminate.
        -- intros _. repeat split; auto. rewrite R, released_one. reflexivity.
        -- rewrite got_one, released_one, accepted_one, R, A3 in *. cbn in *. rewrite !app_nil_r in *. rewrite AL. reflexivity.
      * eexists. split; [reflexivity|].
        constructor; cbn [l_init l_ec l_cb l_events l_fut l_place set_fut set_events set_place]; auto; views; rewrite ?F, ?W; cbn [failed waiting existsb resolves orb]; try discriminate.
        -- intros _. repeat split; auto; try contradiction. rewrite R, released_one. reflexivity.
        -- rewrite got_one, released_one, accepted_one. cbn. rewrite <- AL. rewrite !app_nil_r, !app_assoc. reflexivity.
    + unfold new_future, init_future. rewrite IN, E. cbn [negb Nat.eqb ok]. rewrite A1.
      destruct (waiting None t) as [[f0 p0]|] eqn:W; cbn [option_map fst].
      * eexists. split; [reflexivity|].
        constructor; auto; views; rewrite ?F, ?W; cbn [failed waiting existsb resolves orb]; try discriminate.
        -- intros _. repeat split; auto. rewrite R, released_one. reflexivity.
        -- rewrite got_one, released_one, accepted_one. cbn. rewrite !app_nil_r. exact AL.
      * cbn [Nat.eqb ok negb]. unfold try_resolve. cbn [l_fut set_fut set_place l_events]. rewrite Q.
        destruct (l_events l) as [|e q] eqn:EV.
        -- eexists. split; [reflexivity|].
           constructor; cbn [l_init l_ec l_cb l_events l_fut l_place set_fut set_events set_place]; auto; views; rewrite ?F, ?W; cbn [failed waiting existsb resolves orb]; try discriminate.
           ++ intros _. repeat split; auto. rewrite R, released_one. reflexivity.
           ++ rewrite got_one, released_one, accepted_one. cbn. rewrite !app_nil_r. rewrite EV. cbn in AL. exact AL.
        -- cbn [l_cb set_fut set_place set_events]. rewrite C. unfold deliver. cbn [l_place set_fut set_place set_events].
           eexists. split; [reflexivity|].
           constructor; cbn [l_init l_ec l_cb l_events l_fut l_place set_fut set_events set_place]; auto; views; rewrite ?F, ?W; cbn [failed waiting existsb resolves orb]; try discriminate.
           ++ intros _. repeat split; auto; try contradiction. rewrite R, released_one. reflexivity.
           ++ rewrite got_one, released_one, accepted_one. cbn. rewrite R in *. rewrite !app_nil_r. rewrite <- AL, <- app_assoc. reflexivity.
    + unfold set_error_code. rewrite IN. cbn [negb].
      destruct (error_inv l t (SetError ec') ec' I F P (or_introl eq_refl)) as (l' & E1 & E2). eauto.
    + unfold stop, set_error_code. rewrite IN, E. cbn [negb Nat.eqb ok].
      destruct (error_inv l t Stop stopped I F ltac:(discriminate) (or_intror (conj eq_refl eq_refl))) as (l' & E1 & E2).
      change (Nat.eqb stopped aborted) with false in *. eauto.
Qed.

Lemma run_inv : forall h l t0, inv l t0 -> Forall proper h ->
  exists l' t, run l h = (l', t) /\ inv l' (t0 ++ t) /\
    forall p o a q, t = p ++ (o, a) :: q -> a = answer (t0 ++ p) o.
Proof.
  induction h as [|o h IH]; intros l t0 I P.
  - exists l, []. rewrite app_nil_r. split; [reflexivity|]. split; [exact I|]. intros p o a q E. destruct p; discriminate.
  - inversion P as [|? ? P1 P2]; subst. destruct (step_inv l t0 o I P1) as (l1 & S & I1).
    destruct (IH l1 _ I1 P2) as (l2 & t & R & I2 & A). exists l2, ((o, answer t0 o) :: t).
    cbn. rewrite S, R. split; [reflexivity|]. rewrite <- app_assoc in I2. split; [exact I2|].
    intros p o' a q E. destruct p as [|x p]; cbn in E.
    + injection E as E1 E2 E3. subst. rewrite app_nil_r. reflexivity.
    + injection E as E1 E2. subst x t. rewrite (A p o' a q eq_refl). rewrite <- app_assoc. reflexivity.
Qed.
