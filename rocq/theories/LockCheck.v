(** A checker of skeletons and its soundness: what it accepts is proper in every execution. *)
From Coq Require Import List Bool Arith String Lia.
From Verif Require Import LockModel LockSpec.
Import ListNotations.

Fixpoint heq (a b : list lock) : bool := match a, b with [], [] => true | x :: a, y :: b => lock_eqb x y && heq a b | _, _ => false end.
Lemma lock_eqb_eq : forall a b, lock_eqb a b = true <-> a = b. Proof. destruct a, b; cbn; split; congruence. Qed.
Lemma heq_eq : forall a b, heq a b = true <-> a = b.
Proof.
  induction a as [|x a IH]; destruct b as [|y b]; cbn; try (split; congruence). rewrite andb_true_iff, lock_eqb_eq, IH. split; [intros [-> ->]; reflexivity|intros E; inversion E; auto].
Qed.
(** The locks which are held at each kind of exit; None: there is no such exit. *)
Record res := { rn : option (list lock); rr : option (list lock); rb : option (list lock); rc : option (list lock) }.
Definition join (a b : option (list lock)) : option (option (list lock)) :=
  match a, b with None, x => Some x | x, None => Some x | Some h, Some h' => if heq h h' then Some (Some h) else None end.
Definition norm (h : list lock) : res := {| rn := Some h; rr := None; rb := None; rc := None |}.
Definition joins (a b : res) (n : option (list lock)) : option res :=
  match join (rr a) (rr b), join (rb a) (rb b), join (rc a) (rc b) with
  | Some x, Some y, Some z => Some {| rn := n; rr := x; rb := y; rc := z |}
  | _, _, _ => None
  end.
Definition is (h : list lock) (x : option (list lock)) : bool := match x with None => true | Some h' => heq h h' end.
(** strict: the rule for the use of the core is checked too. *)
Definition allowed (strict : bool) (h : list lock) (a : act) : bool :=
  match a with
  | ALock l => forallb (fun l' => rank l' <? rank l) h
  | AUnlock l => existsb (lock_eqb l) h
  | AWait l => heq h [l]
  | AJoin | AUser => heq h []
  | ATouch => negb strict || existsb (lock_eqb Core) h
  end.
Definition one (strict : bool) (h : list lock) (a : act) : option res := if allowed strict h a then Some (norm (held1 h a)) else None.

Section Check.
Variable p : program.
Variable strict : bool.
Definition balanced (h : list lock) (x : option res) : bool := match x with Some r => is h (rn r) && is h (rr r) | None => false end.
Definition body_ok (rec : list lock -> cmd -> option res) (h : list lock) (f : string) : bool := match body p f with Some c => balanced h (rec h c) | None => false end.
Fixpoint check (n : nat) : list lock -> cmd -> option res :=
  let call h f := match n with 0 => false | S n => body_ok (check n) h f end in
  fix go (h : list lock) (c : cmd) {struct c} : option res :=
    match c with
    | Skip => Some (norm h)
    | Lock l => one strict h (ALock l)
    | Unlock l => one strict h (AUnlock l)
    | Wait l => one strict h (AWait l)
    | Join => one strict h AJoin
    | User => one strict h AUser
    | Touch => one strict h ATouch
    | Ext => if heq h [Core] then Some (norm h) else None
    | Listener => if forallb (call h) (listeners p) then Some (norm h) else None
    | Call f => if call h f then Some (norm h) else None
    | Ret => Some {| rn := None; rr := Some h; rb := None; rc := None |}
    | Brk => Some {| rn := None; rr := None; rb := Some h; rc := None |}
    | Cont => Some {| rn := None; rr := None; rb := None; rc := Some h |}
    | If a b => match go h a, go h b with Some x, Some y => match join (rn x) (rn y) with Some z => joins x y z | None => None end | _, _ => None end
    | Seq a b => match go h a with
                 | Some x => match rn x with
                             | None => Some x
                             | Some h' => match go h' b with Some y => joins x y (rn y) | None => None end
                             end
                 | None => None
                 end
    | Loop a => match go h a with Some x => if is h (rn x) && is h (rc x) && is h (rb x) then Some {| rn := Some h; rr := rr x; rb := None; rc := None |} else None | None => None end
    | Block a => match go h a with Some x => match join (rn x) (rb x) with Some z => Some {| rn := z; rr := rr x; rb := None; rc := rc x |} | None => None end | None => None end
    end.
Definition call_ok (n : nat) (h : list lock) (f : string) : bool := match n with 0 => false | S n => body_ok (check n) h f end.

Lemma check_if : forall n h a b, check n h (If a b) = match check n h a, check n h b with Some x, Some y => match join (rn x) (rn y) with Some z => joins x y z | None => None end | _, _ => None end.
Proof. destruct n; reflexivity. Qed.
Lemma check_seq : forall n h a b, check n h (Seq a b) = match check n h a with Some x => match rn x with None => Some x | Some h' => match check n h' b with Some y => joins x y (rn y) | None => None end end | None => None end.
Proof. destruct n; reflexivity. Qed.
Lemma check_loop : forall n h a, check n h (Loop a) = match check n h a with Some x => if is h (rn x) && is h (rc x) && is h (rb x) then Some {| rn := Some h; rr := rr x; rb := None; rc := None |} else None | None => None end.
Proof. destruct n; reflexivity. Qed.
Lemma check_block : forall n h a, check n h (Block a) = match check n h a with Some x => match join (rn x) (rb x) with Some z => Some {| rn := z; rr := rr x; rb := None; rc := rc x |} | None => None end | None => None end.
Proof. destruct n; reflexivity. Qed.
(** Safe executions, and where the exits are. *)
Fixpoint ok (h : list lock) (t : list act) : bool := match t with [] => true | a :: t => allowed strict h a && ok (held1 h a) t end.
Lemma ok_app : forall t t' h, ok h (t ++ t') = ok h t && ok (held h t) t'.
Proof. induction t as [|a t IH]; intros t' h; [reflexivity|]. cbn [app ok held fold_left]. rewrite IH, andb_assoc. reflexivity. Qed.
Lemma held_app : forall t t' h, held h (t ++ t') = held (held h t) t'. Proof. intros. unfold held. apply fold_left_app. Qed.
Definition at_ (e : exit) (r : res) (h : list lock) : Prop :=
  match e with Norm => rn r = Some h | Returned => rr r = Some h | Broke => rb r = Some h | Continued => rc r = Some h | CutOff => True end.
Hypothesis core_ok : exists n, forallb (call_ok n [Core]) (callbacks p) = true.
Hypothesis user_ok : exists n, forallb (call_ok n []) (api p) = true.

Lemma join_l : forall a b c h, join a b = Some c -> a = Some h -> c = Some h.
Proof. intros a b c h J ->. unfold join in J. destruct b as [h'|]; [destruct (heq h h')|]; inversion J; reflexivity. Qed.
Lemma join_r : forall a b c h, join a b = Some c -> b = Some h -> c = Some h.
Proof. intros a b c h J ->. unfold join in J. destruct a as [h'|]; [destruct (heq h' h) eqn:E; [apply heq_eq in E; subst|]|]; inversion J; reflexivity. Qed.
Lemma joins_spec : forall a b n c, joins a b n = Some c -> rn c = n /\ join (rr a) (rr b) = Some (rr c) /\ join (rb a) (rb b) = Some (rb c) /\ join (rc a) (rc b) = Some (rc c).
Proof. intros a b n c J. unfold joins in J. destruct (join (rr a) (rr b)), (join (rb a) (rb b)), (join (rc a) (rc b)); inversion J; auto. Qed.
Lemma is_spec : forall h x h', is h x = true -> x = Some h' -> h' = h.
Proof. intros h x h' I ->. apply heq_eq in I. congruence. Qed.
Lemma one_spec : forall h a r, one strict h a = Some r -> ok h [a] = true /\ rn r = Some (held h [a]).
Proof. intros h a r H. unfold one in H. destruct (allowed strict h a) eqn:E; inversion H; subst. cbn [ok]. rewrite E. auto. Qed.

Definition good (c : cmd) (t : list act) (e : exit) : Prop := forall n h r, check n h c = Some r -> ok h t = true /\ at_ e r (held h t).
Definition goods (fs : list string) (t : list act) (e : exit) : Prop :=
  forall h, (exists n, forallb (call_ok n h) fs = true) -> ok h t = true /\ (e = Norm -> held h t = h) /\ (e = Norm \/ e = CutOff).
Lemma call_good : forall f t e, good (Call f) t e -> e = Norm \/ e = CutOff -> forall n h, call_ok n h f = true -> ok h t = true /\ (e = Norm -> held h t = h).
Proof.
  intros f t e G E n h C. destruct (G n h (norm h)) as [G1 G2].
  - destruct n as [|n]; [discriminate|]. cbn [check]. fold (check n). unfold call_ok in C. rewrite C. reflexivity.
  - split; [exact G1|]. intros ->. cbn in G2. congruence.
Qed.
Lemma call_exit : forall f t e, exec p (Call f) t e -> e = Norm \/ e = CutOff.
Proof. intros f t e H. inversion H; auto. Qed.
Theorem sound : (forall c t e, exec p c t e -> good c t e) /\ (forall fs t e, some p fs t e -> goods fs t e).
Proof.
  assert (X : (forall c t e, exec p c t e -> exec p c t e /\ good c t e) /\ (forall fs t e, some p fs t e -> goods fs t e)).
  2: { destruct X as [X Y]. split; [intros c t e H; apply (X c t e H)|exact Y]. }
  apply (exec_both p (fun c t e => exec p c t e /\ good c t e) goods).
  - intros c. split; [constructor|]. intros n h r H. split; [reflexivity|exact I].
  - split; [constructor|]. intros n h r H. destruct n; inversion H; split; reflexivity.
  - intros l. split; [constructor|]. intros n h r H. destruct n; cbn [check] in H; apply one_spec in H; exact H.
  - intros l. split; [constructor|]. intros n h r H. destruct n; cbn [check] in H; apply one_spec in H; exact H.
  - intros l. split; [constructor|]. intros n h r H. destruct n; cbn [check] in H; apply one_spec in H; exact H.
  - split; [constructor|]. intros n h r H. destruct n; cbn [check] in H; apply one_spec in H; exact H.
  - split; [constructor|]. intros n h r H. destruct n; cbn [check] in H; apply one_spec in H; exact H.
  - split; [constructor|]. intros n h r H. destruct n; inversion H; split; reflexivity.
  - split; [constructor|]. intros n h r H. destruct n; inversion H; split; reflexivity.
  - split; [constructor|]. intros n h r H. destruct n; inversion H; split; reflexivity.
  - intros a b t e Ex [_ G]. split; [apply e_if_l; exact Ex|]. intros n h r H.
    assert (Y : exists x y z, check n h a = Some x /\ check n h b = Some y /\ join (rn x) (rn y) = Some z /\ joins x y z = Some r).
    { rewrite check_if in H; destruct (check n h a) as [x|] eqn:E1; [|discriminate]; destruct (check n h b) as [y|] eqn:E2; [|discriminate]; destruct (join (rn x) (rn y)) as [z|] eqn:E3; [|discriminate]; exists x, y, z; auto. }
    destruct Y as (x & y & z & E1 & E2 & E3 & E4). destruct (G _ _ _ E1) as [G1 G2]. split; [exact G1|]. apply joins_spec in E4. destruct E4 as (F1 & F2 & F3 & F4).
    destruct e; cbn [at_] in *; [rewrite F1; eapply join_l; eauto|eapply join_l; eauto|eapply join_l; eauto|eapply join_l; eauto|exact I].
  - intros a b t e Ex [_ G]. split; [apply e_if_r; exact Ex|]. intros n h r H.
    assert (Y : exists x y z, check n h a = Some x /\ check n h b = Some y /\ join (rn x) (rn y) = Some z /\ joins x y z = Some r).
    { rewrite check_if in H; destruct (check n h a) as [x|] eqn:E1; [|discriminate]; destruct (check n h b) as [y|] eqn:E2; [|discriminate]; destruct (join (rn x) (rn y)) as [z|] eqn:E3; [|discriminate]; exists x, y, z; auto. }
    destruct Y as (x & y & z & E1 & E2 & E3 & E4). destruct (G _ _ _ E2) as [G1 G2]. split; [exact G1|]. apply joins_spec in E4. destruct E4 as (F1 & F2 & F3 & F4).
    destruct e; cbn [at_] in *; [rewrite F1; eapply join_r; eauto|eapply join_r; eauto|eapply join_r; eauto|eapply join_r; eauto|exact I].
  - intros a b t e Ex [_ G] N. split; [apply e_seq_end; assumption|]. intros n h r H.
    assert (Y : exists x, check n h a = Some x /\ (rn x = None /\ r = x \/ exists h' y, rn x = Some h' /\ check n h' b = Some y /\ joins x y (rn y) = Some r)).
    { rewrite check_seq in H; destruct (check n h a) as [x|] eqn:E1; [|discriminate]; exists x; (split; [reflexivity|]); (destruct (rn x) as [h'|]; [right|left; inversion H; auto]); destruct (check n h' b) as [y|] eqn:E2; [|discriminate]; exists h', y; auto. }
    destruct Y as (x & E1 & Y). destruct (G _ _ _ E1) as [G1 G2]. split; [exact G1|]. destruct Y as [[_ ->]|(h' & y & Rn & E2 & E4)]; [exact G2|]. apply joins_spec in E4. destruct E4 as (F1 & F2 & F3 & F4).
    destruct e; cbn [at_] in *; [congruence|eapply join_l; eauto|eapply join_l; eauto|eapply join_l; eauto|exact I].
  - intros a b t t' e Ex [_ G] Ex' [_ G']. split; [apply e_seq; assumption|]. intros n h r H.
    assert (Y : exists x, check n h a = Some x /\ (rn x = None /\ r = x \/ exists h' y, rn x = Some h' /\ check n h' b = Some y /\ joins x y (rn y) = Some r)).
    { rewrite check_seq in H; destruct (check n h a) as [x|] eqn:E1; [|discriminate]; exists x; (split; [reflexivity|]); (destruct (rn x) as [h'|]; [right|left; inversion H; auto]); destruct (check n h' b) as [y|] eqn:E2; [|discriminate]; exists h', y; auto. }
    destruct Y as (x & E1 & Y). destruct (G _ _ _ E1) as [G1 G2]. cbn [at_] in G2. destruct Y as [[Rn _]|(h' & y & Rn & E2 & E4)]; [congruence|]. rewrite G2 in Rn. inversion Rn; subst h'. destruct (G' _ _ _ E2) as [G3 G4].
    rewrite ok_app, held_app, G1, G3. split; [reflexivity|]. apply joins_spec in E4. destruct E4 as (F1 & F2 & F3 & F4).
    destruct e; cbn [at_] in *; [congruence|eapply join_r; eauto|eapply join_r; eauto|eapply join_r; eauto|exact I].
  - intros a. split; [constructor|]. intros n h r H. split; [reflexivity|].
    rewrite check_loop in H; (destruct (check n h a) as [x|] eqn:E1; [|discriminate]; destruct (is h (rn x) && is h (rc x) && is h (rb x)); inversion H; reflexivity).
  - intros a t e Ex [_ G] E. split; [apply e_loop_out; assumption|]. intros n h r H.
    assert (Y : exists x, check n h a = Some x /\ rr r = rr x).
    { rewrite check_loop in H; (destruct (check n h a) as [x|] eqn:E1; [|discriminate]; exists x; destruct (is h (rn x) && is h (rc x) && is h (rb x)); inversion H; auto). }
    destruct Y as (x & E1 & E2). destruct (G _ _ _ E1) as [G1 G2]. split; [exact G1|]. destruct E as [-> | ->]; cbn [at_] in *; [congruence|exact I].
  - intros a t Ex [_ G]. split; [apply e_loop_brk; assumption|]. intros n h r H.
    assert (Y : exists x, check n h a = Some x /\ is h (rb x) = true /\ rn r = Some h).
    { rewrite check_loop in H; (destruct (check n h a) as [x|] eqn:E1; [|discriminate]; exists x; destruct (is h (rn x) && is h (rc x) && is h (rb x)) eqn:E2; inversion H; apply andb_prop in E2; destruct E2 as [_ E2]; auto). }
    destruct Y as (x & E1 & E2 & E3). destruct (G _ _ _ E1) as [G1 G2]. split; [exact G1|]. cbn [at_] in *. rewrite (is_spec _ _ _ E2 G2). exact E3.
  - intros a t t' e e' Ex [_ G] E Ex' [_ G']. split; [eapply e_loop; eassumption|]. intros n h r H. pose proof (G' _ _ _ H) as [G3 G4].
    assert (Y : exists x, check n h a = Some x /\ is h (rn x) = true /\ is h (rc x) = true).
    { rewrite check_loop in H; (destruct (check n h a) as [x|] eqn:E1; [|discriminate]; exists x; destruct (is h (rn x) && is h (rc x) && is h (rb x)) eqn:E2; inversion H; apply andb_prop in E2; destruct E2 as [E2 _]; apply andb_prop in E2; destruct E2; auto). }
    destruct Y as (x & E1 & E2 & E3). destruct (G _ _ _ E1) as [G1 G2]. assert (Hh : held h t = h) by (destruct E as [-> | ->]; cbn [at_] in G2; [exact (is_spec _ _ _ E2 G2)|exact (is_spec _ _ _ E3 G2)]).
    rewrite ok_app, held_app, Hh, G1, G3. auto.
  - intros a t e Ex [_ G] N. split; [apply e_block; assumption|]. intros n h r H.
    assert (Y : exists x z, check n h a = Some x /\ join (rn x) (rb x) = Some z /\ r = {| rn := z; rr := rr x; rb := None; rc := rc x |}).
    { rewrite check_block in H; (destruct (check n h a) as [x|] eqn:E1; [|discriminate]; destruct (join (rn x) (rb x)) as [z|] eqn:E2; inversion H; exists x, z; auto). }
    destruct Y as (x & z & E1 & E2 & ->). destruct (G _ _ _ E1) as [G1 G2]. split; [exact G1|]. destruct e; cbn [at_ rn rr rb rc] in *; [eapply join_l; eauto|exact G2|congruence|exact G2|exact I].
  - intros a t Ex [_ G]. split; [apply e_block_brk; assumption|]. intros n h r H.
    assert (Y : exists x z, check n h a = Some x /\ join (rn x) (rb x) = Some z /\ r = {| rn := z; rr := rr x; rb := None; rc := rc x |}).
    { rewrite check_block in H; (destruct (check n h a) as [x|] eqn:E1; [|discriminate]; destruct (join (rn x) (rb x)) as [z|] eqn:E2; inversion H; exists x, z; auto). }
    destruct Y as (x & z & E1 & E2 & ->). destruct (G _ _ _ E1) as [G1 G2]. split; [exact G1|]. cbn [at_ rn] in *. eapply join_r; eauto.
  - intros f c t e B Ex [_ G] E. split; [eapply e_call; eassumption|]. intros n h r H.
    destruct n as [|n]; cbn [check] in H; [discriminate|]. fold (check n) in H. unfold body_ok in H. rewrite B in H. destruct (check n h c) as [x|] eqn:E1; [|discriminate]. destruct (balanced h (Some x)) eqn:E2; inversion H; subst. cbn [balanced] in E2. apply andb_prop in E2. destruct E2 as [E2 E3].
    destruct (G _ _ _ E1) as [G1 G2]. split; [exact G1|]. cbn [at_ norm rn]. destruct E as [-> | ->]; cbn [at_] in G2; [rewrite (is_spec _ _ _ E2 G2)|rewrite (is_spec _ _ _ E3 G2)]; reflexivity.
  - intros f c t B Ex [_ G]. split; [eapply e_call_cut; eassumption|]. intros n h r H.
    destruct n as [|n]; cbn [check] in H; [discriminate|]. fold (check n) in H. unfold body_ok in H. rewrite B in H. destruct (check n h c) as [x|] eqn:E1; [|discriminate]. destruct (G _ _ _ E1) as [G1 _]. split; [exact G1|exact I].
  - intros t e S G. split; [apply e_ext; exact S|]. intros n h r H.
    assert (Y : h = [Core] /\ rn r = Some h) by (destruct n; cbn [check] in H; destruct (heq h [Core]) eqn:E; inversion H; apply heq_eq in E; auto). destruct Y as [-> Rn].
    destruct (G [Core] core_ok) as (G1 & G2 & [-> | ->]); cbn [ok allowed existsb lock_eqb orb at_ held fold_left held1]; fold (held [Core] t); rewrite orb_true_r, G1; (split; [reflexivity|]); [rewrite (G2 eq_refl); exact Rn|exact I].
  - intros f t e L Ex [_ G]. split; [eapply e_listener; eassumption|]. intros n h r H.
    assert (Y : call_ok n h f = true /\ rn r = Some h).
    { destruct n; cbn [check] in H; match type of H with (if ?A then _ else _) = _ => destruct A eqn:E; [|discriminate] end; rewrite forallb_forall in E; split; [apply (E f L)|inversion H; reflexivity|apply (E f L)|inversion H; reflexivity]. }
    destruct Y as [C Rn]. destruct (call_good f t e G (call_exit _ _ _ Ex) n h C) as [G1 G2]. split; [exact G1|]. destruct (call_exit _ _ _ Ex) as [-> | ->]; [cbn [at_]; rewrite (G2 eq_refl); exact Rn|exact I].
  - intros t e S G. split; [apply e_user; exact S|]. intros n h r H.
    assert (Y : h = [] /\ rn r = Some h) by (destruct n; cbn [check] in H; unfold one, allowed in H; destruct (heq h []) eqn:E; inversion H; apply heq_eq in E; auto). destruct Y as [-> Rn].
    destruct (G [] user_ok) as (G1 & G2 & [-> | ->]); cbn [ok allowed heq at_ held fold_left held1]; fold (held [] t); rewrite G1; (split; [reflexivity|]); [rewrite (G2 eq_refl); exact Rn|exact I].
  - intros fs h _. split; [reflexivity|]. split; [reflexivity|left; reflexivity].
  - intros fs f t L Ex [_ G] h (n & A). rewrite forallb_forall in A. destruct (call_good f t CutOff G (or_intror eq_refl) n h (A f L)) as [G1 _]. split; [exact G1|]. split; [discriminate|auto].
  - intros fs f t t' e L Ex [_ G] S G' h A. pose proof (G' h A) as (G1 & G2 & G3). destruct A as (n & A). rewrite forallb_forall in A. destruct (call_good f t Norm G (or_introl eq_refl) n h (A f L)) as [G4 G5].
    rewrite ok_app, held_app, (G5 eq_refl), G4, G1. auto.
Qed.
(** In the words of the specification. *)
Lemma ok_proper : forall t h, ok h t = true -> forall t1 a t2, t = t1 ++ a :: t2 -> allowed strict (held h t1) a = true.
Proof. intros t h H t1 a t2 ->. rewrite ok_app in H. apply andb_prop in H. destruct H as [_ H]. cbn [ok] in H. apply andb_prop in H. apply H. Qed.
End Check.
Lemma allowed_proper : forall strict h a, allowed strict h a = true -> strict = true \/ a <> ATouch -> proper h a.
Proof.
  intros strict h a H S. assert (In_ : forall l, existsb (lock_eqb l) h = true -> In l h).
  { intros l X. apply existsb_exists in X. destruct X as (x & X & E). apply lock_eqb_eq in E. subst. exact X. }
  destruct a; cbn [allowed proper] in *; try (apply heq_eq; exact H); auto.
  - intros l' L. rewrite forallb_forall in H. apply Nat.ltb_lt. auto.
  - destruct S as [-> |S]; [apply In_; exact H|congruence].
Qed.
Theorem check_sound : forall p strict n, forallb (call_ok p strict n [Core]) (callbacks p) = true -> forallb (call_ok p strict n []) (api p) = true ->
  forall m h f t e, call_ok p strict m h f = true -> exec p (Call f) t e ->
  (if strict then all_proper h t else orderly h t) /\ (e = Norm -> held h t = h).
Proof.
  intros p strict n C A m h f t e F Ex. pose proof (proj1 (sound p strict (ex_intro _ n C) (ex_intro _ n A)) _ _ _ Ex) as G.
  destruct (call_good p strict f t e G (call_exit p f t e Ex) m h F) as [G1 G2]. split; [|exact G2].
  pose proof (ok_proper strict t h G1) as X. destruct strict; [intros t1 a t2 E; eapply allowed_proper; eauto|intros t1 a t2 E N; eapply allowed_proper; eauto].
Qed.
