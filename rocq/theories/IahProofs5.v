(** * Where answers come from, right answers, and progress (C97) *)
From Coq Require Import String List Bool Arith Lia.
From Verif Require Import IamPolicyModel IamPolicySpec IamPolicyProofs IamStateModel IamStateSpec IamStateInv IahModel IahSpec.
From Verif Require ListenerModel AuthModel.
From Verif Require Import IahProofs IahProofs2 IahProofs3 IahProofs4.
Import ListNotations.
Open Scope string_scope.
Open Scope list_scope.
Open Scope nat_scope.

(** ** Only the verdict event tells the asker *)
Lemma told_run : forall E s op s' a r b, Inv s -> step E s op = Some (s', a) -> In (Told r b) a ->
  op = ORun r /\ (AuthModel.a_reqs (dev s) r = Some (rec (AnsPosted b)) \/ AuthModel.a_reqs (dev s) r = Some (rec (Posted b))).
Proof.
  intros E s op s' a r b I St Hin. destruct op; cbn [step] in St.
  - destruct (IamStateModel.step E (iamst s) xo) as [j|]; [|discriminate]. injection St as <- <-. destruct Hin.
  - unfold do_ask in St. destruct (am_req x).
    + destruct (add_all _ _ _ _) as [k|].
      * destruct (check_ok s k I) as (t & g & C & _). rewrite C in St. injection St as <- <-. destruct Hin as [K|[]]. discriminate.
      * match type of St with context [set_ask s ?k] => destruct (discard_ok s k I) as (t & C & _) end. rewrite C in St.
        injection St as <- <-. destruct Hin as [K|[]]. discriminate.
    + injection St as <- <-. destruct Hin as [K|[]]. discriminate.
  - destruct (run_ok s r0 I) as [(C & _)|(b' & g & t & C & _ & G & _)]; rewrite C in St; injection St as <- <-; [destruct Hin|].
    destruct Hin as [K|[]]. injection K as -> ->. split; [reflexivity|]. destruct G as [(G & _)|(G & _)]; auto.
  - destruct (h_phase s) eqn:Hp; try (injection St as <- <-; destruct Hin; fail).
    destruct ok; [|injection St as <- <-; destruct Hin].
    destruct (init_ok s I Hp) as (t1 & t & C1 & C2 & _). rewrite C1, C2 in St. injection St as <- <-. destruct Hin.
  - destruct (h_phase s) eqn:Hp; try (injection St as <- <-; destruct Hin; fail).
    destruct (Nat.eqb_spec ec ListenerModel.ok) as [->|]; [|injection St as <- <-; destruct Hin].
    destruct (h_slot s) as [r0|] eqn:Hs; [|discriminate]. destruct (asks s r0) as [k|]; [|discriminate].
    destruct (verdict E x (iamst s) look k) as [v|]; [|discriminate].
    destruct (verdict_ok s r0 v I Hp Hs) as (t & C & _). rewrite C in St. injection St as <- <-. destruct Hin.
  - destruct (h_phase s) eqn:Hp; try (injection St as <- <-; destruct Hin; fail).
    destruct (h_slot s) as [r0|] eqn:Hs; [|injection St as <- <-; destruct Hin].
    destruct (free_ok s r0 I Hp Hs) as (t & g & C & _). rewrite C in St. injection St as <- <-. destruct Hin.
  - destruct (h_phase s) eqn:Hp; try (injection St as <- <-; destruct Hin; fail).
    assert (L := J_lis _ I). unfold Lis in L. rewrite Hp in L.
    destruct (AuthModel.a_listener (dev s)) as [l|] eqn:Hl; [|destruct L; discriminate].
    destruct (listen_ok s l) as (t & C & _); [|exact Hl|].
    { destruct s; cbn in *. subst. exact I. }
    rewrite C in St. injection St as <- <-. destruct Hin.
  - destruct (AuthModel.a_listener (dev s)) as [l|] eqn:Hl; [|injection St as <- <-; destruct Hin].
    destruct (stop_ok s l I Hl) as (t & C & _). rewrite C in St. injection St as <- <-. destruct Hin.
Qed.

Lemma told_because : forall E i l s o r b, runs E (init i) l = Some (s, o) -> In (Told r b) o -> Because E i l r b.
Proof.
  intros E i. induction l as [|op l IH] using rev_ind; intros s o r b R Hin.
  - injection R as <- <-. destruct Hin.
  - rewrite runs_snoc in R. destruct (runs E (init i) l) as [[s1 o1]|] eqn:R1; [|discriminate].
    destruct (step E s1 op) as [[s2 a]|] eqn:St; [|discriminate]. injection R as <- <-.
    apply because_app. apply in_app_or in Hin. destruct Hin as [Hin|Hin]; [now apply (IH _ _ _ _ eq_refl)|].
    assert (H := hist_run E i l s1 o1 R1).
    destruct (told_run E s1 op s2 a r b (H_inv _ _ _ _ _ H) St Hin) as (_ & [G|G]);
      apply (H_why _ _ _ _ _ H r _ b G); reflexivity.
Qed.

(** ** The verdict is the decision *)
Lemma read_all : forall ref a t n m, length m = n -> read_attrs {| k_ref := ref; k_action := a; k_attrs := m ++ t |} (seq n (length t)) = Some t.
Proof.
  intros ref a. induction t as [|kv t IH]; intros n m Hn; [reflexivity|]. cbn [length seq read_attrs].
  unfold get_attribute. cbn [k_attrs]. rewrite nth_error_app2 by lia. rewrite Hn, Nat.sub_diag. cbn [nth_error].
  specialize (IH (S n) (m ++ [kv])). rewrite <- app_assoc in IH. cbn [app] in IH. rewrite IH; [reflexivity|].
  rewrite app_length. cbn. lia.
Qed.
Lemma verdict_full : forall E x i look ref q, 
  verdict E x i look {| k_ref := ref; k_action := action_of q; k_attrs := rev (adds_of q) |} =
  check_access_mem E x i (look ref) (action_of q) (inserts E (m_take x) 0 (rev (adds_of q)) []).
Proof.
  intros. unfold verdict, attributes_size. cbn [k_attrs k_ref k_action].
  assert (R := read_all ref (action_of q) (rev (adds_of q)) 0 [] eq_refl). cbn [app] in R. now rewrite R.
Qed.

Lemma inserts_plenty : forall E ok q, (forall n, ok n = true) -> inserts E ok 0 (rev (adds_of q)) [] = rev (adds_of q).
Proof. intros E ok q H. destruct q; cbn; rewrite ?H; reflexivity. Qed.
Lemma blur_plenty : forall x c, m_fp x = true -> m_name x = true -> blur x c = c.
Proof. intros x c H1 H2. unfold blur. rewrite H1, H2. now destruct c. Qed.

Lemma service_full : forall q, service_attrs q (rev (adds_of q)).
Proof.
  intros q k. destruct q as [|u t|u t]; [reflexivity| |]; cbn [adds_of rev app attr_get];
    destruct (string_dec k "TcpTunnel:ServiceId") as [->|N1]; try reflexivity;
    destruct (string_dec k "TcpTunnel:ServiceType") as [->|N2]; cbn; try reflexivity;
    repeat match goal with |- context [String.eqb ?a ?b] => destruct (String.eqb_spec a b); try congruence end;
    repeat match goal with |- context [string_dec ?a ?b] => destruct (string_dec a b); try congruence end; reflexivity.
Qed.
Lemma service_reserved : forall q, no_reserved (rev (adds_of q)).
Proof. intros q. destruct q; split; reflexivity. Qed.

Lemma named_action : forall E j who m' q,
  (exists n r, role_name j who = Some n /\ names_role (i_conf j) n r /\ grants (e_num E) (i_conf j) r (action_of q) m') <->
  (exists n r a, role_name j who = Some n /\ names_role (i_conf j) n r /\ action_named q a /\ grants (e_num E) (i_conf j) r a m').
Proof.
  intros E j who m' q. assert (A : forall a, action_named q a <-> a = action_of q) by (intros a; destruct q; reflexivity). split.
  - intros (n & r & H1 & H2 & H3). exists n, r, (action_of q). split; [exact H1|]. split; [exact H2|]. split; [now apply A|exact H3].
  - intros (n & r & a & H1 & H2 & H3 & H4). exists n, r. apply A in H3. subst a. auto.
Qed.

Lemma verdict_decision : forall E y j look ref q b, plenty y ->
  verdict E y j look {| k_ref := ref; k_action := action_of q; k_attrs := rev (adds_of q) |} = Some b ->
  Decision E j (look ref) q b.
Proof.
  intros E y j look ref q b (P1 & P2 & P3 & P4 & P5 & P6) V. rewrite verdict_full in V.
  rewrite inserts_plenty in V by exact P3. unfold check_access_mem in V. cbv zeta in V.
  rewrite (inserts_plenty E (m_copy y) q P4), P5, P6, blur_plenty in V by assumption.
  assert (C : check_access E j (look ref) (action_of q) (rev (adds_of q)) = Some b) by exact V.
  apply access_identity in C; [|apply service_reserved].
  destruct C as [C|(C1 & who & m' & C2 & C3 & C4)]; [left; exact C|].
  right. split; [exact C1|]. exists who, (rev (adds_of q)), m'. split; [exact C2|]. split; [apply service_full|]. split; [exact C3|]. rewrite C4. apply named_action.
Qed.

(** ** Progress *)
Lemma verdict_some : forall E y j look ref q, (forall c, resolve_user j c <> None) -> 
  exists b, verdict E y j look (full ref q) = Some b.
Proof.
  intros E y j look ref q U. unfold full. rewrite verdict_full. unfold check_access_mem. cbv zeta.
  specialize (U (blur y (look ref))).
  destruct (cn_fp (look ref)), (cn_virtual (look ref)); try (eexists; reflexivity);
    destruct (resolve_user j (blur y (look ref))) as [[u|]|]; try congruence; eexists; reflexivity.
Qed.

Definition Reaches (E : env) (y : mem) (look : nat -> conn) (s : st) (o : list out) (r : nat) : Prop :=
  exists l' s' o', Forall (internal y look) l' /\ runs E s l' = Some (s', o') /\ told r (o ++ o') = 1.

Lemma reach_step : forall E y look s o r op s' a, internal y look op -> step E s op = Some (s', a) ->
  Reaches E y look s' (o ++ a) r -> Reaches E y look s o r.
Proof.
  intros E y look s o r op s' a Ho St (l' & t & o' & F & R & T). exists (op :: l'), t, (a ++ o').
  split; [now constructor|]. split; [cbn; now rewrite St, R|]. now rewrite app_assoc.
Qed.

Lemma snoc_run : forall E i l s o op s' a, runs E (init i) l = Some (s, o) -> step E s op = Some (s', a) ->
  runs E (init i) (l ++ [op]) = Some (s', o ++ a).
Proof. intros. rewrite runs_snoc, H, H0. reflexivity. Qed.

Lemma reach_posted : forall E i y look l s o r b, runs E (init i) l = Some (s, o) ->
  (AuthModel.a_reqs (dev s) r = Some (rec (AnsPosted b)) \/ AuthModel.a_reqs (dev s) r = Some (rec (Posted b))) ->
  Reaches E y look s o r.
Proof.
  intros E i y look l s o r b R G. assert (H := hist_run _ _ _ _ _ R).
  destruct (run_ok s r (H_inv _ _ _ _ _ H)) as [(_ & C)|(b' & g & s' & C & _ & _ & O & _)].
  - destruct (C b) as (C1 & C2). destruct G; contradiction.
  - assert (T : told r o = 0) by (rewrite (H_told _ _ _ _ _ H); destruct G as [-> | ->]; reflexivity).
    exists [ORun r], s', [Told r b']. split; [constructor; [exact Logic.I|constructor]|].
    split; [cbn; now rewrite C|]. rewrite told_app, T. unfold told. cbn. now rewrite Nat.eqb_refl.
Qed.

Lemma asked_full : forall E i l s o r, runs E (init i) l = Some (s, o) -> r < next s -> 
  AuthModel.a_reqs (dev s) r <> Some (rec Dropped) -> exists ref q, asks s r = Some (full ref q).
Proof.
  intros E i l s o r R Hr Hd. destruct (H_ask _ _ _ _ _ (hist_run _ _ _ _ _ R) r Hr) as [K|(ref & q & _ & K)]; [contradiction|eauto].
Qed.

(** The handler decides about the request it holds. *)
Lemma callback_step : forall E i y look l s o r, runs E (init i) l = Some (s, o) -> (forall c, resolve_user (iamst s) c <> None) ->
  h_phase s = Resolved ListenerModel.ok -> h_slot s = Some r ->
  exists s' b, step E s (OCallback y look) = Some (s', []) /\ iamst s' = iamst s /\ h_phase s' = Answered /\ h_slot s' = Some r /\
    AuthModel.a_listener (dev s') = AuthModel.a_listener (dev s) /\ one s s' r (AnsPosted b).
Proof.
  intros E i y look l s o r R U Hp Hs. assert (I := H_inv _ _ _ _ _ (hist_run _ _ _ _ _ R)).
  destruct (held_stage s r I Hp Hs) as (Hlt & G & _).
  destruct (asked_full E i l s o r R Hlt) as (ref & q & K); [rewrite G; discriminate|].
  destruct (verdict_some E y (iamst s) look ref q U) as (b & V).
  destruct (verdict_ok s r b I Hp Hs) as (s' & C & _ & (R1 & _ & _) & O & P & S & L).
  exists s', b. split; [cbn [step]; rewrite Hp, Nat.eqb_refl, Hs, K, V; exact C|]. auto.
Qed.

Lemma reach_held : forall E i y look l s o r, runs E (init i) l = Some (s, o) -> (forall c, resolve_user (iamst s) c <> None) ->
  AuthModel.a_reqs (dev s) r = Some (rec Held) -> r < next s -> Reaches E y look s o r.
Proof.
  intros E i y look l s o r R U G Hlt. assert (I := H_inv _ _ _ _ _ (hist_run _ _ _ _ _ R)).
  destruct (J_req _ I r Hlt) as (g & G1 & G2 & _). rewrite G in G1. assert (G0 : g = Held) by (apply rec_inj; congruence). subst g.
  destruct G2 as (Hp & Hs).
  destruct (callback_step E i y look l s o r R U Hp Hs) as (s' & b & St & _ & _ & _ & _ & O).
  apply reach_step with (op := OCallback y look) (s' := s') (a := []); [split; reflexivity|exact St|].
  apply (reach_posted E i y look (l ++ [OCallback y look]) s' (o ++ []) r b); [now apply snoc_run with (s := s)|].
  left. rewrite O, Nat.eqb_refl. reflexivity.
Qed.

(** It takes the next request as soon as it has released the one it had. *)
Lemma reach_released : forall E i y look n, (forall l s o r pre post, runs E (init i) l = Some (s, o) -> (forall c, resolve_user (iamst s) c <> None) ->
    queue (dev s) = pre ++ r :: post -> length pre < n -> Reaches E y look s o r) ->
  forall l s o r pre post, runs E (init i) l = Some (s, o) -> (forall c, resolve_user (iamst s) c <> None) ->
    queue (dev s) = pre ++ r :: post -> length pre = n -> h_phase s = Released -> Reaches E y look s o r.
Proof.
  intros E i y look n IH l s o r pre post R U Q Hn Hp. assert (I := H_inv _ _ _ _ _ (hist_run _ _ _ _ _ R)).
  destruct (AuthModel.a_listener (dev s)) as [ls|] eqn:Hl.
  2: { unfold queue in Q. rewrite Hl in Q. destruct pre; discriminate. }
  assert (Qe : ListenerModel.l_events ls = pre ++ r :: post) by (unfold queue in Q; now rewrite Hl in Q).
  destruct (listen_ok s ls) as (s' & C & I' & R1 & _ & N1 & _ & D); [destruct s; cbn in *; subst; exact I|exact Hl|].
  assert (St : step E s OListen = Some (s', [])) by (cbn [step]; rewrite Hp; exact C).
  assert (Lo : ListenerModel.l_ec ls = ListenerModel.ok).
  { assert (L := J_lis _ I). unfold Lis in L. rewrite Hl in L. destruct L as (_ & [(L & _)|(_ & L & _)]); [exact L|].
    rewrite Qe in L. destruct pre; discriminate. }
  destruct D as [(D & _)|[(_ & D & _)|(e & q & _ & D & Hp' & Hs' & Q' & O)]].
  - contradiction.
  - rewrite Qe in D. destruct pre; discriminate.
  - apply reach_step with (op := OListen) (s' := s') (a := []); [exact Logic.I|exact St|].
    assert (R' := snoc_run E i l s o OListen s' [] R St).
    rewrite Qe in D. destruct pre as [|e0 pre]; cbn [app] in D; injection D as D1 D2; subst e q.
    + apply (reach_held E i y look _ s' _ r R'); [now rewrite R1|rewrite O, Nat.eqb_refl; reflexivity|].
      rewrite N1. apply (J_less _ I). rewrite Q. now left.
    + apply (IH _ s' _ r pre post R'); [now rewrite R1|exact Q'|]. cbn in Hn. lia.
Qed.

Lemma reach_answered : forall E i y look n, (forall l s o r pre post, runs E (init i) l = Some (s, o) -> (forall c, resolve_user (iamst s) c <> None) ->
    queue (dev s) = pre ++ r :: post -> length pre < n -> Reaches E y look s o r) ->
  forall l s o r pre post, runs E (init i) l = Some (s, o) -> (forall c, resolve_user (iamst s) c <> None) ->
    queue (dev s) = pre ++ r :: post -> length pre = n -> h_phase s = Answered -> Reaches E y look s o r.
Proof.
  intros E i y look n IH l s o r pre post R U Q Hn Hp. assert (I := H_inv _ _ _ _ _ (hist_run _ _ _ _ _ R)).
  destruct (J_slot _ I) as (r0 & Hs & _); [auto|].
  destruct (free_ok s r0 I Hp Hs) as (s' & g & C & I' & (R1 & _) & _ & _ & Hp' & L).
  assert (St : step E s OFree = Some (s', [])) by (cbn [step]; rewrite Hp, Hs; exact C).
  apply reach_step with (op := OFree) (s' := s') (a := []); [exact Logic.I|exact St|].
  apply (reach_released E i y look n IH (l ++ [OFree]) s' (o ++ []) r pre post); auto.
  - now apply snoc_run with (s := s).
  - now rewrite R1.
  - unfold queue in *. now rewrite L.
Qed.

Lemma reach_queued : forall E i y look n l s o r pre post, runs E (init i) l = Some (s, o) -> (forall c, resolve_user (iamst s) c <> None) ->
    queue (dev s) = pre ++ r :: post -> length pre = n -> Reaches E y look s o r.
Proof.
  intros E i y look n. induction n as [n IHn] using (well_founded_induction lt_wf).
  assert (IH : forall l s o r pre post, runs E (init i) l = Some (s, o) -> (forall c, resolve_user (iamst s) c <> None) ->
    queue (dev s) = pre ++ r :: post -> length pre < n -> Reaches E y look s o r).
  { intros l s o r pre post R U Q Hn. exact (IHn _ Hn l s o r pre post R U Q eq_refl). }
  intros l s o r pre post R U Q Hn. assert (I := H_inv _ _ _ _ _ (hist_run _ _ _ _ _ R)).
  assert (L := J_lis _ I). unfold Lis in L. unfold queue in Q.
  destruct (AuthModel.a_listener (dev s)) as [ls|] eqn:Hl; [|destruct pre; discriminate].
  assert (Q2 : queue (dev s) = pre ++ r :: post) by (unfold queue; rewrite Hl; exact Q).
  destruct L as (_ & [(_ & _ & L)|(_ & L & _)]); [|rewrite Q in L; destruct pre; discriminate].
  destruct (h_phase s) eqn:Hp; try contradiction.
  - destruct L as (_ & _ & L). rewrite Q in L. destruct pre; discriminate.
  - destruct L as (-> & _). destruct (J_slot _ I) as (r0 & Hs & _); [auto|].
    destruct (callback_step E i y look l s o r0 R U Hp Hs) as (s' & b & St & R1 & Hp' & _ & L' & _).
    apply reach_step with (op := OCallback y look) (s' := s') (a := []); [split; reflexivity|exact St|].
    apply (reach_answered E i y look n IH (l ++ [OCallback y look]) s' (o ++ []) r pre post); auto.
    + now apply snoc_run with (s := s).
    + now rewrite R1.
    + unfold queue in *. now rewrite L', Hl.
  - apply (reach_answered E i y look n IH l s o r pre post); auto.
  - apply (reach_released E i y look n IH l s o r pre post); auto.
Qed.

Lemma reach_all : forall E i y look l s o r, runs E (init i) l = Some (s, o) -> (forall c, resolve_user (iamst s) c <> None) ->
  In (Asked r) o -> Reaches E y look s o r.
Proof.
  intros E i y look l s o r R U Hin. assert (H := hist_run _ _ _ _ _ R). assert (I := H_inv _ _ _ _ _ H).
  apply (H_asked _ _ _ _ _ H) in Hin. destruct Hin as (Hlt & Hd).
  destruct (J_req _ I r Hlt) as (g & G1 & G2 & G3).
  assert (Done : told r o = 1 -> Reaches E y look s o r).
  { intros T. exists [], s, []. split; [constructor|]. split; [reflexivity|]. now rewrite app_nil_r. }
  destruct g as [| | |b|b|b|b].
  - contradiction.
  - destruct (in_split _ _ (proj2 G3 eq_refl)) as (pre & post & Q). exact (reach_queued E i y look _ l s o r pre post R U Q eq_refl).
  - exact (reach_held E i y look l s o r R U G1 Hlt).
  - apply (reach_posted E i y look l s o r b R). auto.
  - apply Done. rewrite (H_told _ _ _ _ _ H), G1. reflexivity.
  - apply (reach_posted E i y look l s o r b R). auto.
  - apply Done. rewrite (H_told _ _ _ _ _ H), G1. reflexivity.
Qed.

(** ** Without freed users nothing is undefined *)
Lemma step_defined : forall E i l s o op, runs E (init i) l = Some (s, o) ->
  (forall c, resolve_user (iamst s) c <> None) ->
  (forall xo, op = OIam xo -> IamStateModel.step E (iamst s) xo <> None) -> step E s op <> None.
Proof.
  intros E i l s o op R U Hi. assert (I := H_inv _ _ _ _ _ (hist_run _ _ _ _ _ R)). destruct op; cbn [step].
  - specialize (Hi xo eq_refl). destruct (IamStateModel.step E (iamst s) xo); [discriminate|contradiction].
  - unfold do_ask. destruct (am_req x); [|discriminate]. destruct (add_all _ _ _ _) as [k|].
    + destruct (check_ok s k I) as (t & g & C & _). rewrite C. discriminate.
    + match goal with |- context [set_ask s ?k] => destruct (discard_ok s k I) as (t & C & _) end. rewrite C. discriminate.
  - destruct (run_ok s r I) as [(C & _)|(b' & g & t & C & _)]; rewrite C; discriminate.
  - destruct (h_phase s) eqn:Hp; try discriminate. destruct ok; [|discriminate].
    destruct (init_ok s I Hp) as (t1 & t & C1 & C2 & _). rewrite C1, C2. discriminate.
  - destruct (h_phase s) eqn:Hp; try discriminate. destruct (Nat.eqb_spec ec ListenerModel.ok) as [->|]; [|discriminate].
    destruct (J_slot _ I) as (r0 & Hs & _); [auto|].
    destruct (callback_step E i x look l s o r0 R U Hp Hs) as (t & b & St & _).
    cbn [step] in St. rewrite Hp, Nat.eqb_refl, Hs in *. rewrite St. discriminate.
  - destruct (h_phase s) eqn:Hp; try discriminate. destruct (h_slot s) as [r0|] eqn:Hs; [|discriminate].
    destruct (free_ok s r0 I Hp Hs) as (t & g & C & _). rewrite C. discriminate.
  - destruct (h_phase s) eqn:Hp; try discriminate. assert (L := J_lis _ I). unfold Lis in L. rewrite Hp in L.
    destruct (AuthModel.a_listener (dev s)) as [ls|] eqn:Hl; [|destruct L; discriminate].
    destruct (listen_ok s ls) as (t & C & _); [|exact Hl|].
    { destruct s; cbn in *. subst. exact I. }
    rewrite C. discriminate.
  - destruct (AuthModel.a_listener (dev s)) as [ls|] eqn:Hl; [|discriminate].
    destruct (stop_ok s ls I Hl) as (t & C & _). rewrite C. discriminate.
Qed.
