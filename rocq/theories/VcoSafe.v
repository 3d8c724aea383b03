(** Virtual CoAP requests: a careful application meets nothing undefined. *)
From Coq Require Import List Bool Arith Lia Ascii String.
From Verif Require Import VcoModel VcoSpec VcoProofs VcoHist VcoApi VcoCore VcoInv VcoStep.
Import ListNotations.
Local Open Scope list_scope.

Lemma resolve_alive e k s c a f : nth_error (cores s) k = Some c -> (resolved c = false -> nth_error (apis s) (who c) = Some a /\ live a = true /\ fut a = Some f) -> dead (fst (resolve e k s)) = dead s.
Proof. intros E H. unfold resolve. rewrite E. destruct (resolved c); [reflexivity|]. destruct (H eq_refl) as (H1 & H2 & H3). rewrite H1, H2, H3. reflexivity. Qed.
Lemma close_alive n : forall k s, (forall j c, nth_error (cores s) j = Some c -> gone c = false -> resolved c = true) -> dead (fst (close_all n k s)) = dead s.
Proof.
  induction n as [|n IH]; intros k s H; cbn [close_all]; [reflexivity|]. destruct (nth_error (cores s) k) as [c|] eqn:E; [|reflexivity]. destruct (gone c) eqn:Eg; [now apply IH|].
  set (s0 := set_cores (upd k set_closed (cores s)) s).
  assert (E0 : nth_error (cores s0) k = Some (set_closed c)) by (cbn [s0 set_cores cores]; rewrite nth_upd, Nat.eqb_refl, E; reflexivity).
  assert (R0 : resolve Stopped k s0 = (s0, [])) by (unfold resolve; rewrite E0; cbn [set_closed resolved]; rewrite (H _ _ E Eg); reflexivity).
  rewrite R0. destruct (dead s0) eqn:D0; [reflexivity|]. specialize (IH (S k) s0). destruct (close_all n (S k) s0) as [s2 o2]. cbn [fst] in *. rewrite IH; [reflexivity|].
  intros j c' E' G'. cbn [s0 set_cores cores] in E'. rewrite nth_upd in E'. destruct (Nat.eqb j k); [|eauto]. destruct (nth_error (cores s) j) as [x|] eqn:Ej; [|discriminate]. injection E' as <-. cbn [set_closed resolved gone] in *. eauto.
Qed.
Lemma resolved_in l s o k c f e : run init l = (s, o) -> nth_error (cores s) k = Some c -> In (Resolved k f e) o -> resolved c = true.
Proof.
  intros R E X. destruct (counts l k) as [C _]. rewrite R in C. cbn [fst snd] in C. unfold VcoProofs.R in C. rewrite E in C. destruct (resolved c); [reflexivity|]. cbn [b2n] in C. exfalso.
  unfold resolutions, count in C. apply length_zero_iff_nil in C. assert (Y : In (Resolved k f e) []); [|destruct Y]. rewrite <- C. apply filter_In. split; [exact X|apply Nat.eqb_refl].
Qed.
Lemma resolved_of l s o k c : run init l = (s, o) -> nth_error (cores s) k = Some c -> resolved c = true -> exists f e, In (Resolved k f e) o.
Proof.
  intros R E X. destruct (counts l k) as [C _]. rewrite R in C. cbn [fst snd] in C. unfold VcoProofs.R in C. rewrite E, X in C. cbn [b2n] in C. unfold resolutions, count in C.
  destruct (filter _ o) as [|x q] eqn:F; [discriminate|]. assert (Y : In x (x :: q)) by now left. rewrite <- F in Y. apply filter_In in Y. destruct Y as [Y1 Y2]. destruct x; try discriminate. apply Nat.eqb_eq in Y2. subst. eauto.
Qed.
Lemma payload_none n l : (forall d a, ~ In (SetPayload n d a) l) -> payload_of n l = [].
Proof.
  induction l as [|v l IH] using rev_ind; [reflexivity|]. intros H. rewrite payload_snoc, IH by (intros d a X; apply (H d a), in_or_app; now left).
  destruct v as [|m d []| | | | | | | | | | | | |]; try reflexivity. destruct (Nat.eqb_spec m n) as [-> | N]; [|reflexivity]. exfalso. apply (H d true), in_or_app. right. now left.
Qed.
Lemma run_snoc' l v s o s' o' : run init l = (s, o) -> step s v = (s', o') -> run init (l ++ [v]) = (s', o ++ o').
Proof. intros H1 H2. now rewrite run_snoc, H1, H2. Qed.

Record SafeI (l : list op) (s : st) (o : list out) : Prop := {
  F_dead : dead s = false;
  F_single : Single l;
  F_size : forall n a, nth_error (apis s) n = Some a -> pay a = None -> size a = 0;
  F_conn : In ConnFree l -> forall n, In (Created n) o -> In (Free n) l;
  F_free : forall n k, In (Free n) l -> In (Executed n k) o -> exists f e, In (Resolved k f e) o
}.
Lemma alive l s o v : run init l = (s, o) -> SafeI l s o -> Allowed l o v -> dead (fst (step s v)) = false.
Proof.
  intros R [D SG FS FC FF] H. pose proof (api_inv _ _ _ R D) as A. pose proof (core_inv _ _ _ R D SG) as I. unfold step. rewrite D.
  assert (HV : forall n f, Have n l o -> (forall a, nth_error (apis s) n = Some a -> live a = true -> dead (fst (f a)) = false) -> dead (fst (on_api n s f)) = false).
  { intros n f [H1 H2] F. apply (A_created _ _ _ A) in H1. apply nth_error_Some in H1. unfold on_api. destruct (nth_error (apis s) n) as [a|] eqn:E; [|congruence]. destruct (A_api _ _ _ A _ _ E) as (L & _).
    assert (X : live a = true) by (rewrite L; destruct (freedb n l) eqn:Y; [apply freedb_in in Y; tauto|reflexivity]). rewrite X. auto. }
  assert (HK : forall k f, Holds k l o -> (forall c, nth_error (cores s) k = Some c -> dead (fst (f c)) = false) -> dead (fst (on_core k s f)) = false).
  { intros k f [H1 H2] F. apply handedb_in in H1. unfold on_core. destruct (nth_error (cores s) k) as [c|] eqn:E.
    - destruct (C_core _ _ _ I _ _ E) as [_ P2 P3 _ _ _ _ _ _ _ _]. assert (X : sfreed c = false) by (rewrite P2, H1; destruct (rfreedb k l) eqn:Y; [apply rfreedb_in in Y; tauto|reflexivity]).
      rewrite P3, X, andb_false_r. cbn [orb]. auto.
    - apply nth_error_None in E. destruct (C_none _ _ _ I _ E) as (_ & _ & X & _). congruence. }
  assert (CN : forall n, Have n l o -> conn s = true).
  { intros n [H1 H2]. rewrite (A_conn _ _ _ A). destruct (closedb l) eqn:Y; [|reflexivity]. apply closedb_in in Y. destruct (H2 (FC Y n H1)). }
  assert (GT : forall n f, Have n l o -> dead (fst (on_api n s (fun a => getting a s f))) = false).
  { intros n f HH. apply HV; [exact HH|]. intros a E L. unfold getting. destruct (ready a) eqn:Er; [|exact D]. cbn [negb]. rewrite (CN _ HH). cbn [negb].
    destruct (C_api _ _ _ I _ _ E) as (J1 & _ & _ & _ & J5). destruct (core a) as [k|]; [|rewrite J5 in Er by reflexivity; discriminate]. destruct (J1 _ eq_refl) as (c & Ec & W). rewrite Ec.
    destruct (C_core _ _ _ I _ _ Ec) as [(b & f' & Q1 & _ & _ & Q4 & _) _ P3 _ _ _ _ _ _ _ _]. rewrite W in Q1. assert (b = a) by congruence. subst b. rewrite P3, Q4, L. exact D. }
  assert (OWN : forall k c, nth_error (cores s) k = Some c -> resolved c = false -> exists a f, nth_error (apis s) (who c) = Some a /\ live a = true /\ fut a = Some f).
  { intros k c E Er. destruct (C_core _ _ _ I _ _ E) as [(b & f' & Q1 & Q2 & Q3 & Q4 & _) _ _ _ _ _ _ _ _ _ _]. exists b, f'. repeat split; auto. destruct (A_api _ _ _ A _ _ Q1) as (L & _).
    rewrite L. destruct (freedb (who c) l) eqn:Y; [|reflexivity]. apply freedb_in in Y. assert (X : In (Executed (who c) k) o) by (apply (C_exec _ _ _ I); eauto).
    destruct (FF _ _ Y X) as (f & e & Z). rewrite (resolved_in _ _ _ _ _ _ _ R E Z) in Er. discriminate. }
  assert (RS : forall k c g s0, nth_error (cores s) k = Some c -> who (g c) = who c -> resolved (g c) = resolved c -> apis s0 = apis s -> cores s0 = upd k g (cores s) -> dead s0 = dead s -> dead (fst (resolve Ok k s0)) = false).
  { intros k c g s0 E G1 G2 S1 S2 S3. assert (E0 : nth_error (cores s0) k = Some (g c)) by (rewrite S2, nth_upd, Nat.eqb_refl, E; reflexivity).
    destruct (resolved c) eqn:Er; [unfold resolve; rewrite E0, G2; cbn [fst]; congruence|]. destruct (OWN _ _ E Er) as (a & f & O1 & O2 & O3).
    rewrite (resolve_alive Ok k s0 (g c) a f E0); [congruence|]. intros _. rewrite G1, S1. auto. }
  destruct v as [p a|n d al|n f|n f al found|n|n|n|n|k x|k d a|k f|k|k x m a|k|]; cbn [Allowed] in H.
  - destruct H as [H1 H2]. assert (X : conn s = true) by (rewrite (A_conn _ _ _ A); destruct (closedb l) eqn:Y; [apply closedb_in in Y; tauto|reflexivity]). rewrite X. unfold new_req. destruct a; [|exact D]. cbn [negb].
    unfold segments, strip. destruct p as [|x p]; [congruence|]. exact D.
  - destruct H as [H1 H2]. apply HV; [exact H1|]. intros a E L. unfold set_payload. destruct al; exact D.
  - apply HV; [exact H|]. intros a E L. exact D.
  - destruct H as [H1 H2]. apply HV; [exact H1|]. intros a E L. rewrite (CN _ H1). unfold execute. destruct al; [|exact D]. cbn [negb].
    assert (SN : exists q, sends a = Some q).
    { unfold sends. destruct (A_api _ _ _ A _ _ E) as (_ & _ & _ & K). destruct (pay a) as [q|] eqn:Ep; [destruct K as [_ ->]; rewrite Nat.leb_refl; eauto|]. rewrite (FS _ _ E Ep). exists []. reflexivity. }
    destruct SN as [q SN]. fold (sends a). rewrite SN. destruct found; [exact D|]. cbn [negb]. fold (newcore n false).
    match goal with |- context [resolve Ok ?k ?s2] => assert (X : dead (fst (resolve Ok k s2)) = false); [|destruct (resolve Ok k s2); exact X] end.
    rewrite (resolve_alive Ok _ _ (set_resp not_found (Some not_found_text) (List.length not_found_text) 0 true (newcore n false)) (set_exec (Some (List.length (cores s))) f a) f); [exact D| |].
    + cbn [set_cores set_apis cores]. rewrite nth_upd, Nat.eqb_refl, nth_snoc, Nat.eqb_refl. reflexivity.
    + intros _. cbn [set_cores set_apis apis set_resp newcore who]. rewrite nth_upd, Nat.eqb_refl, E. cbn [option_map set_exec live fut]. auto.
  - destruct H as [H1 H2]. apply HV; [exact H1|]. intros a E L. unfold req_free. destruct (C_api _ _ _ I _ _ E) as (J1 & _). destruct (core a) as [k|]; [|exact D]. destruct (J1 _ eq_refl) as (c & Ec & W). rewrite Ec.
    destruct (C_core _ _ _ I _ _ Ec) as [(b & f' & Q1 & _ & _ & Q4 & _) _ P3 _ _ _ _ _ _ _ _]. rewrite W in Q1. assert (b = a) by congruence. subst b. rewrite P3, Q4, L. cbn [negb andb]. unfold client_free. destruct (sfreed c); exact D.
  - now apply GT.
  - now apply GT.
  - now apply GT.
  - apply HK; [exact H|]. intros c E. exact D.
  - apply HK; [exact H|]. intros c E. unfold resp_payload. destruct a; exact D.
  - apply HK; [exact H|]. intros c E. exact D.
  - apply HK; [exact H|]. intros c E. unfold resp_ready. destruct (closed c); [exact D|].
    match goal with |- context [resolve Ok ?k ?s2] => assert (X : dead (fst (resolve Ok k s2)) = false); [|destruct (resolve Ok k s2); exact X] end.
    eapply RS; [exact E| | | |reflexivity|]; reflexivity.
  - apply HK; [exact H|]. intros c E. unfold resp_error.
    match goal with |- context [resolve Ok ?k ?s2] => assert (X : dead (fst (resolve Ok k s2)) = false); [|destruct (resolve Ok k s2); exact X] end.
    eapply RS; [exact E| | | |reflexivity|]; reflexivity.
  - apply HK; [exact H|]. intros c E. unfold server_free. destruct (cfreed c); exact D.
  - destruct H as [H1 H2]. unfold conn_free. assert (X : conn s = true) by (rewrite (A_conn _ _ _ A); destruct (closedb l) eqn:Y; [apply closedb_in in Y; tauto|reflexivity]). rewrite X. cbn [negb].
    assert (Z : dead (fst (close_all (List.length (cores s)) 0 s)) = false); [|destruct (close_all (List.length (cores s)) 0 s); exact Z]. rewrite close_alive; [exact D|].
    intros k c E G. destruct (resolved c) eqn:Er; [reflexivity|]. destruct (OWN _ _ E Er) as (a & f & O1 & O2 & _). destruct (A_api _ _ _ A _ _ O1) as (L & _). rewrite O2 in L.
    assert (Y : In (Free (who c)) l) by (apply H2, (A_created _ _ _ A); eapply nth_lt; eauto). apply freedb_in in Y. rewrite Y in L. discriminate.
Qed.
Lemma does_pay s v s' o : Does v s s' o -> forall n a', nth_error (apis s') n = Some a' -> (exists a, nth_error (apis s) n = Some a /\ pay a' = pay a /\ size a' = size a) \/ (exists g, a' = newapi g) \/ (exists a d al, v = SetPayload n d al /\ nth_error (apis s) n = Some a /\ a' = if al then set_pay (Some d) (List.length d) a else set_pay None (size a) a).
Proof.
  intros H n a' E.
  assert (U : forall m f, (forall a, pay (f a) = pay a /\ size (f a) = size a) -> apis s' = upd m f (apis s) -> exists a, nth_error (apis s) n = Some a /\ pay a' = pay a /\ size a' = size a).
  { intros m f F X. rewrite X, nth_upd in E. destruct (Nat.eqb n m); [|exists a'; auto]. destruct (nth_error (apis s) n) as [a|]; [|discriminate]. injection E as <-. exists a. destruct (F a). auto. }
  assert (S : apis s' = apis s -> exists a, nth_error (apis s) n = Some a /\ pay a' = pay a /\ size a' = size a) by (intros X; rewrite X in E; exists a'; auto).
  assert (AN : forall k g c, answer k g c s s' o -> exists a, nth_error (apis s) n = Some a /\ pay a' = pay a /\ size a' = size a).
  { intros k g c (_ & _ & [(_ & X & _) | (a & f & _ & _ & _ & _ & X & _)]); [auto|]. eapply U; [|exact X]. split; reflexivity. }
  destruct v as [p a|m d al|m f|m f al found|m|m|m|m|k x|k d a|k f|k|k x e a|k|]; cbn [Does] in H.
  - destruct H as (_ & _ & _ & [(_ & X & _) | (g & _ & _ & X & _)]); [auto|]. rewrite X, nth_snoc in E. destruct (Nat.eqb n (List.length (apis s))); [injection E as <-; right; left; eauto|left; exists a'; auto].
  - destruct H as (a & Ea & _ & _ & _ & [(-> & X & _) | (-> & X & _)]); rewrite X, nth_upd in E; (destruct (Nat.eqb_spec n m) as [-> | N]; [|left; exists a'; auto]); rewrite Ea in E; injection E as <-; right; right; exists a, d; eauto.
  - destruct H as (a & Ea & _ & _ & _ & X & _). left. eapply U; [|exact X]. split; reflexivity.
  - destruct H as (a & Ea & _ & _ & _ & [(_ & _ & X & _) | (q & _ & _ & [(_ & _ & X & _) | (_ & _ & X & _)])]); left; (eapply U; [|exact X]; split; reflexivity).
  - destruct H as (a & Ea & _ & _ & X & _). left. eapply U; [|exact X]. split; reflexivity.
  - destruct H as (a & Ea & _ & -> & _). left. auto.
  - destruct H as (a & Ea & _ & -> & _). left. auto.
  - destruct H as (a & Ea & _ & -> & _). left. auto.
  - destruct H as (c & _ & _ & _ & _ & X & _). auto.
  - destruct H as (c & _ & _ & _ & _ & H). destruct a; destruct H as (X & _); auto.
  - destruct H as (c & _ & _ & _ & _ & X & _). auto.
  - destruct H as (c & _ & _ & _ & _ & H). left. destruct (closed c); [destruct H as [-> _]; auto|]. eapply AN; eauto.
  - destruct H as (c & _ & _ & _ & _ & H). left. eapply AN; eauto.
  - destruct H as (c & _ & _ & _ & _ & X & _). auto.
  - destruct H as (_ & _ & X & _). auto.
Qed.
Lemma does_executed s v s' o n k : Does v s s' o -> In (Executed n k) o -> exists f al found, v = Execute n f al found.
Proof.
  intros H X. destruct v as [p a|m d al|m f|m f al found|m|m|m|m|j x|j d a|j f|j|j x e a|j|]; cbn [Does] in H.
  - destruct H as (_ & _ & _ & [(_ & _ & ->) | (g & _ & _ & _ & ->)]); destruct X as [X|[]]; discriminate.
  - destruct H as (a & _ & _ & _ & _ & [(_ & _ & ->) | (_ & _ & ->)]); destruct X as [X|[]]; discriminate.
  - destruct H as (a & _ & _ & _ & _ & _ & ->); destruct X as [X|[]]; discriminate.
  - destruct H as (a & _ & _ & _ & _ & [(_ & _ & _ & ->) | (q & _ & _ & [(_ & _ & _ & ->) | (_ & _ & _ & ->)])]); repeat (destruct X as [X|X]; try discriminate); try (injection X as <- <-; eauto); destruct X.
  - destruct H as (a & _ & _ & _ & _ & [(_ & _ & ->) | (q & c & _ & _ & _ & [(_ & _ & ->) | (_ & _ & ->)])]); repeat (destruct X as [X|X]; try discriminate); destruct X.
  - destruct H as (a & _ & _ & _ & [(_ & ->) | (q & c & _ & _ & _ & _ & _ & ->)]); destruct X as [X|[]]; try discriminate. destruct (rready c); discriminate.
  - destruct H as (a & _ & _ & _ & [(_ & ->) | (q & c & _ & _ & _ & _ & _ & ->)]); destruct X as [X|[]]; try discriminate. destruct (rready c); discriminate.
  - destruct H as (a & _ & _ & _ & [(_ & ->) | (q & c & _ & _ & _ & _ & _ & ->)]); destruct X as [X|[]]; try discriminate. destruct (rready c), (rpay c); discriminate.
  - destruct H as (c & _ & _ & _ & _ & _ & _ & ->); destruct X as [X|[]]; discriminate.
  - destruct H as (c & _ & _ & _ & _ & H). destruct a; destruct H as (_ & _ & ->); destruct X as [X|[]]; discriminate.
  - destruct H as (c & _ & _ & _ & _ & _ & _ & ->); destruct X as [X|[]]; discriminate.
  - destruct H as (c & _ & _ & _ & _ & H). destruct (closed c); [destruct H as [_ ->]; destruct X as [X|[]]; discriminate|]. destruct H as (_ & _ & [(_ & _ & ->) | (a & f & _ & _ & _ & _ & _ & ->)]); repeat (destruct X as [X|X]; try discriminate); destruct X.
  - destruct H as (c & _ & _ & _ & _ & H). destruct H as (_ & _ & [(_ & _ & ->) | (b & f & _ & _ & _ & _ & _ & ->)]); repeat (destruct X as [X|X]; try discriminate); destruct X.
  - destruct H as (c & _ & _ & _ & _ & _ & [(_ & _ & ->) | (_ & _ & ->)]); repeat (destruct X as [X|X]; try discriminate); destruct X.
  - destruct H as (_ & _ & _ & _ & H & _). apply H in X. destruct X as (? & ? & ? & ? & X & _). discriminate.
Qed.
Lemma does_created s v s' o n : Does v s s' o -> In (Created n) o -> exists p, v = New p true.
Proof.
  intros H X. destruct v as [p a|m d al|m f|m f al found|m|m|m|m|j x|j d a|j f|j|j x e a|j|]; cbn [Does] in H.
  - destruct H as (_ & _ & _ & [(_ & _ & ->) | (g & -> & _ & _ & ->)]); destruct X as [X|[]]; try discriminate. eauto.
  - destruct H as (a & _ & _ & _ & _ & [(_ & _ & ->) | (_ & _ & ->)]); destruct X as [X|[]]; discriminate.
  - destruct H as (a & _ & _ & _ & _ & _ & ->); destruct X as [X|[]]; discriminate.
  - destruct H as (a & _ & _ & _ & _ & [(_ & _ & _ & ->) | (q & _ & _ & [(_ & _ & _ & ->) | (_ & _ & _ & ->)])]); repeat (destruct X as [X|X]; try discriminate); destruct X.
  - destruct H as (a & _ & _ & _ & _ & [(_ & _ & ->) | (q & c & _ & _ & _ & [(_ & _ & ->) | (_ & _ & ->)])]); repeat (destruct X as [X|X]; try discriminate); destruct X.
  - destruct H as (a & _ & _ & _ & [(_ & ->) | (q & c & _ & _ & _ & _ & _ & ->)]); destruct X as [X|[]]; try discriminate. destruct (rready c); discriminate.
  - destruct H as (a & _ & _ & _ & [(_ & ->) | (q & c & _ & _ & _ & _ & _ & ->)]); destruct X as [X|[]]; try discriminate. destruct (rready c); discriminate.
  - destruct H as (a & _ & _ & _ & [(_ & ->) | (q & c & _ & _ & _ & _ & _ & ->)]); destruct X as [X|[]]; try discriminate. destruct (rready c), (rpay c); discriminate.
  - destruct H as (c & _ & _ & _ & _ & _ & _ & ->); destruct X as [X|[]]; discriminate.
  - destruct H as (c & _ & _ & _ & _ & H). destruct a; destruct H as (_ & _ & ->); destruct X as [X|[]]; discriminate.
  - destruct H as (c & _ & _ & _ & _ & _ & _ & ->); destruct X as [X|[]]; discriminate.
  - destruct H as (c & _ & _ & _ & _ & H). destruct (closed c); [destruct H as [_ ->]; destruct X as [X|[]]; discriminate|]. destruct H as (_ & _ & [(_ & _ & ->) | (a & f & _ & _ & _ & _ & _ & ->)]); repeat (destruct X as [X|X]; try discriminate); destruct X.
  - destruct H as (c & _ & _ & _ & _ & H). destruct H as (_ & _ & [(_ & _ & ->) | (b & f & _ & _ & _ & _ & _ & ->)]); repeat (destruct X as [X|X]; try discriminate); destruct X.
  - destruct H as (c & _ & _ & _ & _ & _ & [(_ & _ & ->) | (_ & _ & ->)]); repeat (destruct X as [X|X]; try discriminate); destruct X.
  - destruct H as (_ & _ & _ & _ & H & _). apply H in X. destruct X as (? & ? & ? & ? & X & _). discriminate.
Qed.
Lemma safe l : Careful l -> forall s o, run init l = (s, o) -> SafeI l s o.
Proof.
  induction 1 as [|l v HC IH HA]; intros s2 o2 R2.
  - injection R2 as <- <-. constructor; cbn; [reflexivity|apply NoDup_nil|intros [|n] a X; discriminate|intros []|intros n k []].
  - destruct (run init l) as [s o] eqn:R. specialize (IH _ _ eq_refl). cbn [snd] in HA. pose proof (alive _ _ _ _ R IH HA) as AL. destruct (step s v) as [s' o'] eqn:ST. cbn [fst] in AL.
    rewrite (run_snoc' _ _ _ _ _ _ R ST) in R2. injection R2 as <- <-. pose proof IH as [D SG FS FC FF]. pose proof (does _ _ _ _ D ST AL) as DO. pose proof (api_inv _ _ _ R D) as A.
    constructor; auto.
    + unfold Single in *. rewrite execs_snoc. destruct v as [| | |n f al found| | | | | | | | | | |]; rewrite ?app_nil_r; auto. destruct HA as [_ NE]. apply NoDup_rev in SG. rewrite <- (rev_involutive (execs l ++ [n])), rev_app_distr. apply NoDup_rev. cbn [rev app]. constructor; [|exact SG]. now rewrite <- in_rev.
    + intros n a' E P. destruct (does_pay _ _ _ _ DO _ _ E) as [(a & Ea & K1 & K2) | [(g & ->) | (a & d & al & -> & Ea & ->)]].
      * rewrite K2. apply (FS _ _ Ea). congruence.
      * reflexivity.
      * destruct al; [discriminate|]. cbn [set_pay size]. destruct HA as [_ NS]. pose proof (payload_none _ _ NS) as PN. destruct (A_api _ _ _ A _ _ Ea) as (_ & _ & _ & K). rewrite PN in K. destruct (pay a); [destruct K as [-> K]; exact K|exact K].
    + intros X n Y. apply in_or_app. apply in_app_or in X. apply in_app_or in Y. destruct X as [X|[-> | []]].
      * destruct Y as [Y|Y]; [left; now apply FC|]. destruct (does_created _ _ _ _ _ DO Y) as [p ->]. destruct HA as [_ NC]. tauto.
      * destruct HA as [_ HA]. destruct Y as [Y|Y]; [left; now apply HA|]. destruct (does_created _ _ _ _ _ DO Y) as [p E]. discriminate.
    + intros n k X Y. apply in_app_or in X. apply in_app_or in Y. destruct X as [X|[-> | []]].
      * destruct Y as [Y|Y]; [destruct (FF _ _ X Y) as (f & e & Z); exists f, e; apply in_or_app; now left|]. destruct (does_executed _ _ _ _ _ _ DO Y) as (f & al & found & ->). destruct HA as [[_ NF] _]. tauto.
      * destruct HA as [_ HA]. destruct Y as [Y|Y]; [destruct (HA _ Y) as (f & e & Z); exists f, e; apply in_or_app; now left|]. destruct (does_executed _ _ _ _ _ _ DO Y) as (f & al & found & E). discriminate.
Qed.
