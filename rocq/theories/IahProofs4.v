From Coq Require Import String List Bool Arith Lia.
From Verif Require Import IamPolicyModel IamPolicySpec IamStateModel IamStateSpec IahModel IahSpec IahProofs IahProofs2 IahProofs3.
From Verif Require ListenerModel AuthModel.
Import ListNotations.
Open Scope list_scope. Open Scope nat_scope.

Definition verdict_of (g : stage) : option bool :=
  match g with AnsPosted b | AnsTold b | Posted b | Gone b => Some b | _ => None end.
Definition told_of (g : stage) : nat := match g with AnsTold _ | Gone _ => 1 | _ => 0 end.

Definition Because (E : env) (i : iam) (l : list op) (r : nat) (b : bool) : Prop :=
  (exists ref q y j c, decided_by E i l r ref q b y j c) \/ (b = false /\ exists ref q, unserved E i l r ref q).

Definition full (ref : nat) (q : question) : ask := {| k_ref := ref; k_action := action_of q; k_attrs := rev (adds_of q) |}.

Definition listening (s : st) : bool :=
  match AuthModel.a_listener (dev s) with Some l => Nat.eqb (ListenerModel.l_ec l) ListenerModel.ok | None => false end.
Definition has_init (l : list op) : bool := existsb (fun o => match o with OInit _ => true | _ => false end) l.
Definition is_off (p : phase) : bool := match p with Off => true | _ => false end.

Record Hist (E : env) (i : iam) (l : list op) (s : st) (o : list out) : Prop := {
  H_inv : Inv s;
  H_told : forall r, told r o = match AuthModel.a_reqs (dev s) r with
                                | Some v => if AuthModel.q_done v && negb (AuthModel.q_posted v) then 1 else 0
                                | None => 0 end;
  H_ask : forall r, r < next s -> AuthModel.a_reqs (dev s) r = Some (rec Dropped) \/
            exists ref q, asked_in E i l r ref q /\ asks s r = Some (full ref q);
  H_why : forall r g b, AuthModel.a_reqs (dev s) r = Some (rec g) -> verdict_of g = Some b -> Because E i l r b;
  H_off : is_off (h_phase s) = negb (has_init l);
  H_serv : served l = listening s;
  H_asked : forall r, In (Asked r) o <-> (r < next s /\ AuthModel.a_reqs (dev s) r <> Some (rec Dropped)) }.

Lemma served_snoc : forall l o, served (l ++ [o]) =
  if has_init l then served l && negb (match o with OStop => true | _ => false end)
  else match o with OInit ok => ok | _ => false end.
Proof.
  induction l as [|x l IH]; intros o; cbn.
  - destruct o; cbn; auto. now rewrite andb_true_r.
  - destruct x; cbn; auto. rewrite existsb_app. cbn. rewrite orb_false_r, negb_orb, andb_assoc. reflexivity.
Qed.
Lemma has_init_snoc : forall l o, has_init (l ++ [o]) = has_init l || match o with OInit _ => true | _ => false end.
Proof. intros. unfold has_init. rewrite existsb_app. cbn. now rewrite orb_false_r. Qed.
Lemma told_app : forall r a b, told r (a ++ b) = told r a + told r b.
Proof. intros. unfold told. now rewrite filter_app, app_length. Qed.

Lemma asked_in_app : forall E i l r ref q k, asked_in E i l r ref q -> asked_in E i (l ++ k) r ref q.
Proof. intros E i l r ref q k (p & x & p' & -> & H). exists p, x, (p' ++ k). rewrite <- app_assoc. auto. Qed.
Lemma because_app : forall E i l r b k, Because E i l r b -> Because E i (l ++ k) r b.
Proof.
  intros E i l r b k [(ref & q & y & j & c & p & look & p' & s & o & -> & H)|(Hb & ref & q & m & rest & -> & H)].
  - left. exists ref, q, y, j, c, p, look, (p' ++ k), s, o. rewrite <- app_assoc. auto.
  - right. split; [exact Hb|]. exists ref, q, m, (rest ++ k). rewrite <- app_assoc. auto.
Qed.

Lemma done_told : forall g, (if AuthModel.q_done (rec g) && negb (AuthModel.q_posted (rec g)) then 1 else 0) = told_of g.
Proof. destruct g; reflexivity. Qed.

(** Nothing but bookkeeping changes. *)
Lemma hist_quiet : forall E i l s o op s', Hist E i l s o -> Inv s' ->
  (forall r, AuthModel.a_reqs (dev s') r = AuthModel.a_reqs (dev s) r) -> asks s' = asks s -> next s' = next s ->
  is_off (h_phase s') = negb (has_init (l ++ [op])) -> served (l ++ [op]) = listening s' ->
  Hist E i (l ++ [op]) s' o.
Proof.
  intros E i l s o op s' H I R A N F S. constructor; auto.
  - intros r. rewrite R. apply (H_told _ _ _ _ _ H).
  - intros r Hr. rewrite N in Hr. rewrite R, A. destruct (H_ask _ _ _ _ _ H r Hr) as [K|(ref & q & K1 & K2)]; [auto|].
    right. exists ref, q. split; [now apply asked_in_app|exact K2].
  - intros r g b Hg Hb. apply because_app. rewrite R in Hg. exact (H_why _ _ _ _ _ H r g b Hg Hb).
  - intros r. rewrite R, N. apply (H_asked _ _ _ _ _ H).
Qed.

(** One request changes its stage. *)
Lemma hist_one : forall E i l s o op s' r g g' a, Hist E i l s o -> Inv s' -> r < next s ->
  AuthModel.a_reqs (dev s) r = Some (rec g) -> g <> Dropped -> g' <> Dropped -> one s s' r g' ->
  asks s' = asks s -> next s' = next s ->
  (forall x, told x a = if Nat.eqb x r then told_of g' - told_of g else 0) -> told_of g <= told_of g' -> (forall x, ~ In (Asked x) a) ->
  (forall b, verdict_of g' = Some b -> verdict_of g = Some b \/ Because E i (l ++ [op]) r b) ->
  is_off (h_phase s') = negb (has_init (l ++ [op])) -> served (l ++ [op]) = listening s' ->
  Hist E i (l ++ [op]) s' (o ++ a).
Proof.
  intros E i l s o op s' r g g' a H I Hlt Hg Hd Hd' O A N T Tl Na W F S. constructor; auto.
  - intros x. rewrite told_app, (H_told _ _ _ _ _ H), T, O. destruct (Nat.eqb_spec x r) as [->|]; [|lia].
    rewrite Hg, !done_told. lia.
  - intros x Hx. rewrite N in Hx. rewrite A. destruct (H_ask _ _ _ _ _ H x Hx) as [K|(ref & q & K1 & K2)].
    + rewrite O. destruct (Nat.eqb_spec x r) as [->|]; [|auto]. rewrite K in Hg. injection Hg as Hg. exfalso. apply Hd. symmetry. now apply rec_inj.
    + right. exists ref, q. split; [now apply asked_in_app|exact K2].
  - intros x gx b Hx Hb. rewrite O in Hx. destruct (Nat.eqb_spec x r) as [->|].
    + injection Hx as Hx. apply rec_inj in Hx. subst gx. destruct (W b Hb) as [K|K]; [|exact K].
      apply because_app. exact (H_why _ _ _ _ _ H r g b Hg K).
    + apply because_app. exact (H_why _ _ _ _ _ H x gx b Hx Hb).
  - intros x. rewrite in_app_iff, N, O. split.
    + intros [K|K]; [|now apply Na in K]. apply (H_asked _ _ _ _ _ H) in K. destruct K as (K1 & K2). split; [exact K1|].
      destruct (Nat.eqb_spec x r); [|exact K2]. intros Q. injection Q as Q. apply Hd'. now apply rec_inj.
    + intros (K1 & K2). left. apply (H_asked _ _ _ _ _ H). split; [exact K1|]. destruct (Nat.eqb_spec x r) as [->|]; [|exact K2].
      rewrite Hg. intros Q. injection Q as Q. apply Hd. now apply rec_inj.
Qed.

(** A new request. *)
Lemma hist_new : forall E i l s o op s' g k a, Hist E i l s o -> Inv s' ->
  one s s' (next s) g -> (forall x, asks s' x = if Nat.eqb x (next s) then Some k else asks s x) -> next s' = S (next s) ->
  told_of g = 0 -> (forall x, told x a = 0) ->
  (forall x, In (Asked x) a <-> (x = next s /\ g <> Dropped)) ->
  (g = Dropped \/ exists ref q, asked_in E i (l ++ [op]) (next s) ref q /\ k = full ref q) ->
  (forall b, verdict_of g = Some b -> Because E i (l ++ [op]) (next s) b) ->
  is_off (h_phase s') = negb (has_init (l ++ [op])) -> served (l ++ [op]) = listening s' ->
  Hist E i (l ++ [op]) s' (o ++ a).
Proof.
  intros E i l s o op s' g k a H I O A N Tg T Na Hk W F S.
  destruct (J_new _ (H_inv _ _ _ _ _ H) (next s) (le_n _)) as (N1 & N2).
  constructor; auto.
  - intros x. rewrite told_app, (H_told _ _ _ _ _ H), T, O. destruct (Nat.eqb_spec x (next s)) as [->|]; [|lia].
    rewrite N1, done_told. lia.
  - intros x Hx. rewrite O, A. destruct (Nat.eqb_spec x (next s)) as [->|].
    + destruct Hk as [->|(ref & q & K1 & ->)]; [auto|]. right. eauto.
    + destruct (H_ask _ _ _ _ _ H x) as [K|(ref & q & K1 & K2)]; [lia|auto|].
      right. exists ref, q. split; [now apply asked_in_app|exact K2].
  - intros x gx b Hx Hb. rewrite O in Hx. destruct (Nat.eqb_spec x (next s)) as [->|].
    + injection Hx as Hx. apply rec_inj in Hx. subst gx. auto.
    + apply because_app. exact (H_why _ _ _ _ _ H x gx b Hx Hb).
  - intros x. rewrite in_app_iff, N, O, Na. split.
    + intros [K|(-> & K)].
      * apply (H_asked _ _ _ _ _ H) in K. destruct K as (K1 & K2). split; [lia|].
        destruct (Nat.eqb_spec x (next s)); [lia|exact K2].
      * split; [lia|]. rewrite Nat.eqb_refl. intros Q. injection Q as Q. apply K. now apply rec_inj.
    + intros (K1 & K2). destruct (Nat.eqb_spec x (next s)) as [->|].
      * right. split; [reflexivity|]. intros ->. now apply K2.
      * left. apply (H_asked _ _ _ _ _ H). split; [lia|exact K2].
Qed.

Lemma add_all_ok : forall ok n l k k', add_all ok n l k = Some k' ->
  k' = {| k_ref := k_ref k; k_action := k_action k; k_attrs := rev l ++ k_attrs k |}.
Proof.
  intros ok n l. revert n. induction l as [|kv l IH]; intros n k k' H; cbn in *.
  - injection H as <-. destruct k; reflexivity.
  - unfold add_attribute in H. destruct (ok n); [|discriminate]. apply IH in H. rewrite H. cbn. now rewrite <- app_assoc.
Qed.

Lemma off_served : forall E i l s o, Hist E i l s o -> is_off (h_phase s) = true -> has_init l = false.
Proof. intros E i l s o H K. rewrite (H_off _ _ _ _ _ H) in K. now destruct (has_init l). Qed.

Lemma hist_step : forall E i l s o op s' a, runs E (init i) l = Some (s, o) -> Hist E i l s o ->
  step E s op = Some (s', a) -> Hist E i (l ++ [op]) s' (o ++ a).
Proof.
  intros E i l s o op s' a Hr H St.
  assert (I := H_inv _ _ _ _ _ H). assert (F := H_off _ _ _ _ _ H). assert (S := H_serv _ _ _ _ _ H).
  assert (Fs : match op with OInit _ | OStop => False | _ => True end ->
               negb (has_init (l ++ [op])) = is_off (h_phase s) /\ served (l ++ [op]) = listening s).
  { intros Ho. rewrite has_init_snoc, served_snoc, F, <- S. destruct op; try contradiction; rewrite ?orb_false_r; split; auto;
      destruct (has_init l) eqn:Hi; rewrite ?andb_true_r; auto;
      rewrite S; unfold listening; assert (L := J_lis _ I); unfold Lis in L; rewrite ?Hi in F; destruct (h_phase s); try discriminate F;
      destruct (AuthModel.a_listener (dev s)) as [ls|]; auto; destruct L as (_ & [(_ & _ & [])|(_ & _ & _ & _ & L)]); congruence. }
  assert (L := J_lis _ I).
  destruct op; cbn [step] in St.
  - (* OIam *) destruct (IamStateModel.step E (iamst s) xo) as [j|]; [|discriminate]. injection St as <- <-. rewrite app_nil_r.
    destruct (Fs Logic.I) as (F1 & F2).
    apply (hist_quiet E i l s); auto. destruct I; constructor; auto.
  - (* OAsk *) destruct (Fs Logic.I) as (F1 & F2). unfold do_ask in St. destruct (am_req x) eqn:Am.
    2:{ injection St as <- <-. assert (Q : Hist E i (l ++ [OAsk ref q x]) s o) by (apply (hist_quiet E i l s); auto).
        destruct Q as [Q1 Q2 Q3 Q4 Q5 Q6 Q7]. constructor; auto.
        - intros r. rewrite told_app, Q2. cbn. lia.
        - intros r. rewrite in_app_iff, Q7. cbn. intuition discriminate. }
    destruct (add_all (am_add x) 0 (adds_of q) {| k_ref := ref; k_action := action_of q; k_attrs := [] |}) as [k|] eqn:Ad.
    + destruct (check_ok s k I) as (s2 & g & C1 & C2 & C3 & C4 & C5 & C6 & CL & C7). rewrite C1 in St. injection St as <- <-.
      assert (Ai : asked_in E i (l ++ [OAsk ref q x]) (next s) ref q).
      { exists l, x, []. split; [reflexivity|]. exists s, o, s2, [Asked (next s)]. split; [exact Hr|]. split; [|now left].
        cbn [step]. unfold do_ask. now rewrite Am, Ad, C1. }
      apply add_all_ok in Ad. cbn in Ad. rewrite app_nil_r in Ad. fold (full ref q) in Ad.
      assert (Lg : g <> Dropped /\ told_of g = 0 /\ is_off (h_phase s2) = is_off (h_phase s) /\ listening s2 = listening s /\
                   (forall b, verdict_of g = Some b -> b = false /\ listening s = false)).
      { assert (LL : listening s2 = listening s).
        { unfold listening. destruct (AuthModel.a_listener (dev s)) as [ls|]; [destruct CL as (l2 & -> & ->)|rewrite CL]; reflexivity. }
        rewrite LL. unfold listening. destruct (AuthModel.a_listener (dev s)) as [ls|] eqn:E1.
        - destruct (Nat.eqb_spec (ListenerModel.l_ec ls) ListenerModel.ok) as [Eo|Eo].
          + destruct (h_phase s) eqn:Ph; destruct C7 as (-> & P1 & P2); rewrite P1; refine (conj _ (conj _ (conj _ (conj _ _)))); try discriminate; auto; intros b Hb; discriminate.
          + destruct C7 as (-> & P1 & P2); rewrite P1; refine (conj _ (conj _ (conj _ (conj _ _)))); try discriminate; auto; intros b Hb; injection Hb as <-; auto.
        - destruct C7 as (-> & P1 & P2); rewrite P1; refine (conj _ (conj _ (conj _ (conj _ _)))); try discriminate; auto; intros b Hb; injection Hb as <-; auto. }
      destruct Lg as (G1 & G2 & G3 & G4 & G5).
      apply (hist_new E i l s o _ s2 g k); auto.
      * intros y. cbn. split; [intros [K|[]]; injection K as <-; auto|intros (-> & _); auto].
      * right. eauto.
      * intros b Hb. destruct (G5 b Hb) as (-> & G6). right. split; [reflexivity|]. exists ref, q, (l ++ [OAsk ref q x]), [].
        rewrite app_nil_r. split; [reflexivity|]. split; [exact Ai|]. rewrite F2. exact G6.
      * now rewrite F1.
      * now rewrite G4.
    + destruct (discard_ok s {| k_ref := ref; k_action := action_of q; k_attrs := [] |} I) as (s2 & C1 & C2 & C3 & C4 & C5 & C6 & C7 & C8 & C9).
      rewrite C1 in St. injection St as <- <-.
      apply (hist_new E i l s o _ s2 Dropped {| k_ref := ref; k_action := action_of q; k_attrs := [] |}); auto.
      * intros y. cbn. split; [intros [K|[]]; discriminate|intros (_ & K); congruence].
      * discriminate.
      * now rewrite F1, C7.
      * rewrite F2. unfold listening. now rewrite C9.
  - (* ORun *) destruct (Fs Logic.I) as (F1 & F2). destruct (run_ok s r I) as [(C1 & _)|(b & g & s2 & C1 & C2 & C3 & C4 & C5 & C6 & C7 & C8 & C9 & C10 & C11)].
    + rewrite C1 in St. injection St as <- <-. rewrite app_nil_r. apply (hist_quiet E i l s); auto.
    + rewrite C1 in St. injection St as <- <-.
      assert (Tb : forall x, told x [Told r b] = if Nat.eqb x r then 1 else 0).
      { intros x. unfold told. cbn. rewrite (Nat.eqb_sym r x). destruct (x =? r); reflexivity. }
      assert (Na : forall x, ~ In (Asked x) [Told r b]) by (intros x [K|[]]; discriminate).
      assert (Li : listening s2 = listening s) by (unfold listening; now rewrite C9).
      destruct C3 as [(C3 & ->)|(C3 & ->)].
      * apply (hist_one E i l s o _ s2 r (AnsPosted b) (AnsTold b)); auto; try discriminate; try (now rewrite F1, C10); try (now rewrite F2, Li); cbn; lia.
      * apply (hist_one E i l s o _ s2 r (Posted b) (Gone b)); auto; try discriminate; try (now rewrite F1, C10); try (now rewrite F2, Li); cbn; lia.
  - (* OInit *) destruct (h_phase s) eqn:Ph; cbn in F.
    1:{ assert (Hi : has_init l = false) by (now destruct (has_init l)).
      destruct ok.
      * destruct (init_ok s I Ph) as (s1 & s2 & C1 & C2 & C3 & (C4 & C5 & C6) & C7 & C8 & C9).
        rewrite C1, C2 in St. injection St as <- <-. rewrite app_nil_r. apply (hist_quiet E i l s); auto.
        -- rewrite has_init_snoc, C7, orb_true_r. reflexivity.
        -- rewrite served_snoc, Hi. unfold listening. destruct C9 as (l' & -> & ->). reflexivity.
      * injection St as <- <-. rewrite app_nil_r. apply (hist_quiet E i l s); auto.
        -- destruct I as [I1 I2 I3 I4 I5 I6 I7 I8]. constructor; auto.
           ++ unfold Lis in *. rewrite Ph in *. cbn. destruct (AuthModel.a_listener (dev s)) as [ls|]; auto.
              destruct I2 as (_ & [(_ & _ & [])|(_ & _ & _ & _ & I2)]). congruence.
           ++ cbn. intros [K|K]; discriminate.
           ++ intros r Hlt. destruct (I5 r Hlt) as (g & G1 & G2 & G3). exists g. split; [exact G1|]. split; [|exact G3].
              rewrite Ph in G2. destruct g; cbn in *; try (destruct G2; discriminate); intros [K|K]; discriminate.
        -- rewrite has_init_snoc, orb_true_r. reflexivity.
        -- rewrite served_snoc, Hi. unfold listening. cbn. unfold Lis in L. rewrite Ph in L.
           destruct (AuthModel.a_listener (dev s)) as [ls|]; auto. destruct L as (_ & [(_ & _ & [])|(_ & _ & _ & _ & L)]). congruence. }
    all: assert (Hi : has_init l = true) by (now destruct (has_init l)).
    all: injection St as <- <-; rewrite app_nil_r; apply (hist_quiet E i l s); auto;
      [rewrite has_init_snoc, Ph, orb_true_r; reflexivity | rewrite served_snoc, Hi, andb_true_r; exact S].
  - (* OCallback *) destruct (Fs Logic.I) as (F1 & F2). destruct (h_phase s) as [| |ec| | |] eqn:Ph.
    3:{ destruct (Nat.eqb_spec ec ListenerModel.ok) as [->|Ne].
        - destruct (h_slot s) as [r|] eqn:Sl; [|discriminate]. destruct (asks s r) as [k|] eqn:Ak; [|discriminate].
          destruct (verdict E x (iamst s) look k) as [v|] eqn:Ve; [|discriminate].
          destruct (verdict_ok s r v I Ph Sl) as (s2 & C1 & C2 & (C3 & C4 & C5) & C6 & C7 & C8 & C9).
          rewrite C1 in St. injection St as <- <-.
          destruct (held_stage s r I Ph Sl) as (Hlt & G1 & Gq).
          apply (hist_one E i l s o _ s2 r Held (AnsPosted v)); auto; try discriminate.
          + intros y. cbn. destruct (y =? r); reflexivity.
          + intros b Hb. cbn in Hb. injection Hb as <-. right. left.
            destruct (H_ask _ _ _ _ _ H r Hlt) as [K|(ref & q & K1 & K2)].
            * rewrite K in G1. injection G1 as G1. discriminate.
            * rewrite Ak in K2. injection K2 as ->.
              exists ref, q, x, (iamst s), (look ref), l, look, [], s, o. auto 10.
          + now rewrite F1, C7, ?Ph.
          + rewrite F2. unfold listening. now rewrite C9.
        - injection St as <- <-. rewrite app_nil_r. apply (hist_quiet E i l s); auto.
          destruct I as [I1 I2 I3 I4 I5 I6 I7 I8]. constructor; auto.
          + unfold Lis in *. rewrite Ph in *. cbn. destruct (AuthModel.a_listener (dev s)) as [ls|]; auto.
            destruct I2 as (I2 & [(_ & _ & (I2' & _))|(I21 & I22 & I23 & _ & _)]); [congruence|].
            split; [exact I2|]. right. repeat split; auto; discriminate.
          + cbn. intros [K|K]; discriminate.
          + intros r Hlt. destruct (I5 r Hlt) as (g & G1 & G2 & G3). exists g. split; [exact G1|]. split; [|exact G3].
            rewrite Ph in G2. destruct g; cbn in *; try (destruct G2; congruence); intros [K|K]; discriminate. }
    all: injection St as <- <-; rewrite app_nil_r; apply (hist_quiet E i l s); auto; now rewrite F1, ?Ph.
  - (* OFree *) destruct (Fs Logic.I) as (F1 & F2).
    assert (Q : (exists r, h_phase s = Answered /\ h_slot s = Some r) \/ step E s OFree = Some (s, [])).
    { cbn [step]. destruct (h_phase s) eqn:Ph; auto. destruct (h_slot s) eqn:Sl; eauto. }
    destruct Q as [(r & Ph & Sl)|Q]; [|cbn [step] in Q; rewrite St in Q; injection Q as -> ->; rewrite app_nil_r; apply (hist_quiet E i l s); auto].
    rewrite Ph, Sl in St. destruct (free_ok s r I Ph Sl) as (s2 & g & C1 & C2 & (C3 & C4 & C5) & (b & C6) & C7 & C8 & C9).
    rewrite C1 in St. injection St as <- <-.
    assert (Li : served (l ++ [OFree]) = listening s2) by (rewrite F2; unfold listening; now rewrite C9).
    assert (Of : is_off (h_phase s2) = negb (has_init (l ++ [OFree]))) by (now rewrite F1, C8, ?Ph).
    destruct (answered_stage s r I Ph Sl) as (Hlt & _).
    destruct C6 as [(C6 & ->)|(C6 & ->)].
    + apply (hist_one E i l s o _ s2 r (AnsPosted b) (Posted b)); auto; try discriminate. intros y. cbn. destruct (y =? r); reflexivity.
    + apply (hist_one E i l s o _ s2 r (AnsTold b) (Gone b)); auto; try discriminate. intros y. cbn. destruct (y =? r); reflexivity.
  - (* OListen *) destruct (Fs Logic.I) as (F1 & F2). destruct (h_phase s) eqn:Ph.
    1-4,6: injection St as <- <-; rewrite app_nil_r; apply (hist_quiet E i l s); auto; now rewrite F1, ?Ph.
    unfold Lis in L. rewrite Ph in L. destruct (AuthModel.a_listener (dev s)) as [ls|] eqn:Hl; [|destruct L; discriminate].
    assert (SP : set_phase s Released = s) by (destruct s; cbn in *; now subst).
    destruct (listen_ok s ls) as (s2 & C1 & C2 & C3 & C4 & C5 & (l2 & Hl2 & Ec2) & C6); [now rewrite SP|exact Hl|].
    rewrite C1 in St. injection St as <- <-.
    assert (L2 := J_lis _ C2). unfold Lis in L2.
    destruct C6 as [(D1 & D2 & D3)|[(D1 & D2 & D3 & D4 & D5)|(e & q & D1 & D2 & D3 & D4 & D5 & D6)]].
    + rewrite app_nil_r. apply (hist_quiet E i l s); auto; [now rewrite D2|now rewrite F1, D3|rewrite F2; unfold listening; now rewrite D2].
    + rewrite app_nil_r. apply (hist_quiet E i l s); auto; [now rewrite F1, D3|].
      rewrite F2. unfold listening. now rewrite Hl, Hl2, Ec2.
    + assert (Hin : In e (queue (dev s))) by (unfold queue; rewrite Hl, D2; now left).
      assert (Hlt := J_less _ I e Hin). destruct (J_req _ I e Hlt) as (g & G1 & G2 & G3). apply G3 in Hin. subst g.
      apply (hist_one E i l s o _ s2 e Queued Held); auto; try discriminate.
      * intros y. cbn. destruct (y =? e); reflexivity.
      * now rewrite F1, D3.
      * rewrite F2. unfold listening. now rewrite Hl, Hl2, Ec2.
  - (* OStop *) destruct (AuthModel.a_listener (dev s)) as [ls|] eqn:Hl.
    + destruct (stop_ok s ls I Hl) as (s2 & C1 & C2 & (C3 & C4 & C5) & C6 & (l2 & C7 & C8) & C9 & C10).
      rewrite C1 in St. injection St as <- <-. rewrite app_nil_r.
      assert (Hi : has_init l = true).
      { destruct (has_init l); [reflexivity|]. cbn in F. unfold Lis in L. rewrite Hl in L. destruct (h_phase s); try discriminate F.
        destruct L as (_ & [(_ & _ & [])|(_ & _ & _ & _ & L)]). congruence. }
      assert (Sv : served (l ++ [OStop]) = false) by (now rewrite served_snoc, Hi, andb_false_r).
      constructor; auto.
      * intros r. rewrite (H_told _ _ _ _ _ H), C9. destruct (in_dec _ _ _) as [Hq|]; [|reflexivity].
        destruct (J_req _ I r (J_less _ I r Hq)) as (g & G1 & _ & G3). apply G3 in Hq. subst g. rewrite G1. reflexivity.
      * intros r Hlt. rewrite C5 in Hlt. rewrite C4, C9. destruct (H_ask _ _ _ _ _ H r Hlt) as [K|(ref & q & K1 & K2)].
        -- destruct (in_dec _ _ _) as [Hq|]; [|auto]. destruct (J_req _ I r Hlt) as (g & G1 & _ & G3). apply G3 in Hq. subst g.
           rewrite K in G1. injection G1 as G1. discriminate.
        -- right. exists ref, q. split; [now apply asked_in_app|exact K2].
      * intros r g b Hg Hb. rewrite C9 in Hg. destruct (in_dec _ _ _) as [Hq|].
        -- injection Hg as Hg. apply (rec_inj (Posted false)) in Hg. subst g. injection Hb as <-.
           assert (Hlt := J_less _ I r Hq). destruct (H_ask _ _ _ _ _ H r Hlt) as [K|(ref & q & K1 & K2)].
           ++ destruct (J_req _ I r Hlt) as (g & G1 & _ & G3). apply G3 in Hq. subst g. rewrite K in G1. injection G1 as G1. discriminate.
           ++ right. split; [reflexivity|]. exists ref, q, (l ++ [OStop]), []. rewrite app_nil_r. split; [reflexivity|].
              split; [now apply asked_in_app|exact Sv].
        -- apply because_app. exact (H_why _ _ _ _ _ H r g b Hg Hb).
      * rewrite C10, has_init_snoc, Hi. unfold Lis in L. rewrite Hi in F. destruct (h_phase s); auto; discriminate.
      * rewrite Sv. unfold listening. now rewrite C7, C8.
      * intros r. rewrite C5, C9. destruct (in_dec _ _ _) as [Hq|]; [|apply (H_asked _ _ _ _ _ H)].
        rewrite (H_asked _ _ _ _ _ H). destruct (J_req _ I r (J_less _ I r Hq)) as (g & G1 & _ & G3). apply G3 in Hq. subst g.
        rewrite G1. split; intros (K1 & K2); (split; [exact K1|]); intros Q; injection Q; discriminate.
    + injection St as <- <-. rewrite app_nil_r. apply (hist_quiet E i l s); auto.
      * rewrite has_init_snoc, orb_false_r. exact F.
      * rewrite served_snoc. rewrite S. unfold listening. rewrite Hl. destruct (has_init l); reflexivity.
Qed.

Lemma hist_run : forall E i l s o, runs E (init i) l = Some (s, o) -> Hist E i l s o.
Proof.
  intros E i. induction l as [|op l IH] using rev_ind; intros s o Hr.
  - injection Hr as <- <-. constructor; auto.
    + apply inv_init.
    + intros r Hr. inversion Hr.
    + intros r g b Hg. discriminate.
    + intros r. split; [intros []|intros (K & _); inversion K].
  - rewrite runs_snoc in Hr. destruct (runs E (init i) l) as [[s1 o1]|] eqn:R; [|discriminate].
    destruct (step E s1 op) as [[s2 a]|] eqn:St; [|discriminate]. injection Hr as <- <-.
    eapply hist_step; eauto.
Qed.
