(** Properties of STUN analyses and requests for endpoints (C54). *)
From Coq Require Import List Bool Arith Lia.
From Verif Require Import StunModel StunSpec.
Import ListNotations.

Lemma run_app t l m s : run t s (l ++ m) = let (s1, o1) := run t s l in let (s2, o2) := run t s1 m in (s2, o1 ++ o2).
Proof.
  revert s. induction l as [|v l IH]; intros s; cbn [app run]; [destruct (run t s m); reflexivity|].
  destruct (step t s v) as [s1 o1]. rewrite IH. destruct (run t s1 l) as [s2 o2]. destruct (run t s2 m) as [s3 o3]. now rewrite app_assoc.
Qed.
Lemma run_snoc t l v s : run t s (l ++ [v]) = let (s1, o1) := run t s l in let (s2, o2) := step t s1 v in (s2, o1 ++ o2).
Proof. rewrite run_app. destruct (run t s l) as [s1 o1]. cbn [run]. destruct (step t s1 v) as [s2 o2]. now rewrite app_nil_r. Qed.
Lemma asked_app id o o' : asked id (o ++ o') = asked id o + asked id o'.
Proof. unfold asked. now rewrite filter_app, app_length. Qed.
Lemma responses_app id o o' : responses id (o ++ o') = responses id o + responses id o'.
Proof. unfold responses. now rewrite filter_app, app_length. Qed.
Lemma answers_app id o o' : answers id (o ++ o') = answers id o + answers id o'.
Proof. unfold answers. now rewrite filter_app, app_length. Qed.
Definition inw (id : nat) (s : st) : nat := count_occ Nat.eq_dec (waiting s) id.
(** What a step does to the accounts. *)
Definition Kept (s : st) (r : st * list out) : Prop := forall id, responses id (snd r) + inw id (fst r) = asked id (snd r) + inw id s /\ answers id (snd r) <= responses id (snd r).
Lemma respond_counts y j e s id : asked id (respond y j e s) = 0 /\ responses id (respond y j e s) = (if Nat.eqb j id then 1 else 0) /\ answers id (respond y j e s) = (if Nat.eqb j id then 1 else 0).
Proof. unfold respond, asked, responses, answers. cbn. destruct (Nat.eqb j id); auto. Qed.
Lemma resolve_all_kept y s : Kept s (resolve_all y s).
Proof.
  intros id. unfold resolve_all, inw. cbn [fst snd set_waiting waiting count_occ]. generalize (cur_ec s) as e. intros e. generalize (respond_counts y). intros RC.
  induction (waiting s) as [|j w IH]; cbn [flat_map count_occ]; [split; reflexivity|]. rewrite !responses_app, !asked_app, !answers_app. destruct (RC j e s id) as (-> & -> & ->).
  destruct (Nat.eq_dec j id) as [->|N]; [rewrite Nat.eqb_refl|rewrite (proj2 (Nat.eqb_neq _ _) N)]; lia.
Qed.
Lemma kept_frame s s' r : waiting s = waiting s' -> Kept s r -> Kept s' r.
Proof. intros E K id. specialize (K id). unfold inw in *. now rewrite <- E. Qed.
Lemma kept_same s s' : waiting s' = waiting s -> Kept s (s', []).
Proof. intros E id. unfold inw. cbn. rewrite E. lia. Qed.
Lemma resolve_error_kept y e s : Kept s (resolve_error y e s).
Proof. unfold resolve_error. eapply kept_frame; [|apply resolve_all_kept]. reflexivity. Qed.
Lemma kept_sent s s' b : waiting s' = waiting s -> Kept s (s', [Sent b]).
Proof. intros E id. unfold inw. cbn. rewrite E. lia. Qed.
Lemma event_kept y n s : Kept s (event y n s).
Proof.
  unfold event. destruct n as [ep|ep| | |r| |]; cbn [set_io pri sec].
  - destruct (pri s); cbn [negb]; [|eapply kept_frame; [|apply resolve_error_kept]; reflexivity]. destruct ep; cbn [negb]; [apply kept_sent; reflexivity|eapply kept_frame; [|apply resolve_error_kept]; reflexivity].
  - destruct (sec s); cbn [negb]; [|eapply kept_frame; [|apply resolve_error_kept]; reflexivity]. destruct ep; cbn [negb]; [apply kept_sent; reflexivity|eapply kept_frame; [|apply resolve_error_kept]; reflexivity].
  - apply kept_same; reflexivity.
  - apply kept_same; reflexivity.
  - eapply kept_frame; [|apply resolve_all_kept]; reflexivity.
  - eapply kept_frame; [|apply resolve_error_kept]; reflexivity.
  - apply kept_same; reflexivity.
Qed.
Lemma step_kept t s v : Kept s (step t s v).
Proof.
  destruct v as [v y]. unfold step. destruct (dead s); [apply kept_same; reflexivity|]. destruct v as [id al|al| |ok|n|n|n|n|p q|].
  - unfold get. destruct al; cbn [negb].
    + unfold analyze. assert (RF : forall e, Kept s (s, Asked id :: respond y id e s)).
      { intros e j. change (Asked id :: respond y id e s) with ([Asked id] ++ respond y id e s). cbn [fst snd]. rewrite responses_app, asked_app, answers_app. destruct (respond_counts y id e s j) as (-> & -> & ->). unfold asked, responses, answers. cbn. destruct (Nat.eqb id j); cbn; lia. }
      assert (AC : forall s', waiting s' = waiting s ++ [id] -> Kept s (s', [Asked id; Accepted id])).
      { intros s' E j. unfold inw. cbn [fst snd]. rewrite E, count_occ_app. unfold asked, responses, answers. cbn. destruct (Nat.eq_dec id j) as [->|N]; [rewrite Nat.eqb_refl|rewrite (proj2 (Nat.eqb_neq _ _) N)]; cbn; lia. }
      destruct (ph s); destruct (host s); try apply RF; apply AC; reflexivity.
    + intros j. unfold inw, asked, responses, answers. cbn. destruct (Nat.eqb id j); cbn; lia.
  - apply kept_same; reflexivity.
  - unfold read. destruct (unread s) as [|h u]; [apply kept_same; reflexivity|]. destruct (host s) as [g|]; [destruct (Nat.eqb g h); [apply kept_same; reflexivity|]|]; intros id; unfold inw, asked, responses, answers; cbn; lia.
  - unfold looked. destruct (dns s), (unread s); apply kept_same; reflexivity.
  - unfold dns_cb. destruct (dns s) as [| |e]; try (apply kept_same; reflexivity). cbn [set_dns ph].
    assert (EV : Kept s (match e with Ok => event y n (set_ph Running (set_dns (unread s) NoLookup s)) | _ => resolve_error y e (set_dns (unread s) NoLookup s) end)) by (destruct e; (eapply kept_frame; [|first [apply event_kept | apply resolve_error_kept]]; reflexivity)).
    destruct (ph s); try exact EV. eapply kept_frame; [|apply resolve_all_kept]; reflexivity.
  - unfold send_cb. destruct (sendp s); [|apply kept_same; reflexivity]. cbn [set_io ph]. destruct (is_running (ph s)); [|apply kept_same; reflexivity]. eapply kept_frame; [|apply event_kept]; reflexivity.
  - unfold timeout. destruct (timer s); [|apply kept_same; reflexivity]. cbn [set_io ph]. destruct (is_running (ph s)); [|apply kept_same; reflexivity]. eapply kept_frame; [|apply event_kept]; reflexivity.
  - unfold packet. destruct (is_running (ph s)); [|apply kept_same; reflexivity]. apply event_kept.
  - apply kept_same; reflexivity.
  - unfold stop. eapply kept_frame; [|apply resolve_all_kept]; reflexivity.
Qed.
Lemma kept_run t l s o : run t init l = (s, o) -> forall id, responses id o + inw id s = asked id o /\ answers id o <= responses id o.
Proof.
  revert s o. induction l as [|v l IH] using rev_ind; intros s o R id.
  - injection R as <- <-. split; reflexivity.
  - rewrite run_snoc in R. destruct (run t init l) as [s1 o1]. pose proof (step_kept t s1 v id) as K. destruct (step t s1 v) as [s2 o2]. injection R as <- <-. cbn [fst snd] in K. destruct (IH _ _ eq_refl id) as [A B]. rewrite responses_app, asked_app, answers_app. lia.
Qed.
(** Each request is answered at most once in every history. *)
Theorem C54_once : forall t l id, let o := snd (run t init l) in responses id o <= asked id o /\ answers id o <= responses id o.
Proof. intros t l id. cbv zeta. destruct (run t init l) as [s o] eqn:R. destruct (kept_run _ _ _ _ R id) as [A B]. cbn [snd]. lia. Qed.
Print Assumptions C54_once.
(** The phases. *)
Record Inv (s : st) : Prop := {
  V_dead : dead s = false;
  V_abort : ph s = PAborted -> waiting s = [];
  V_res : ph s = Resolving -> dns s <> NoLookup;
  V_done : ph s = Done \/ ph s = PNone -> waiting s = [];
  V_run : ph s = Running -> sendp s = true \/ timer s = true;
  V_dns : dns s <> NoLookup -> ph s = Resolving \/ ph s = PAborted }.
Lemma all_inv y e r p s : (p = Done \/ p = PAborted) -> dead s = false -> (dns s <> NoLookup -> p = PAborted) -> Inv (fst (resolve_all y (set_result e r (set_ph p s)))).
Proof. intros P D K. split; cbn; try assumption; try reflexivity; try (intros; destruct P; congruence); auto. Qed.
Lemma error_inv y e s : dead s = false -> dns s = NoLookup -> Inv (fst (resolve_error y e s)).
Proof. intros D K. unfold resolve_error. change (res s) with (res s). apply all_inv; auto. congruence. Qed.
Lemma event_inv y n s : dead s = false -> ph s = Running -> dns s = NoLookup -> n <> NoEvent -> n <> Invalid -> Inv (fst (event y n s)).
Proof.
  intros D P K N1 N2. unfold event. destruct n as [ep|ep| | |r| |]; cbn [set_io pri sec]; try congruence.
  - destruct (pri s); cbn [negb]; [destruct ep; cbn [negb]|]; [|apply error_inv; assumption|apply error_inv; assumption]. split; cbn; auto; try congruence; rewrite P; try discriminate. intros [X|X]; discriminate.
  - destruct (sec s); cbn [negb]; [destruct ep; cbn [negb]|]; [|apply error_inv; assumption|apply error_inv; assumption]. split; cbn; auto; try congruence; rewrite P; try discriminate. intros [X|X]; discriminate.
  - split; cbn; auto; try congruence; rewrite P; try discriminate. intros [X|X]; discriminate.
  - apply all_inv; auto. cbn. congruence.
  - apply error_inv; assumption.
Qed.
Lemma inv_eq s s' : Inv s -> dead s' = dead s -> ph s' = ph s -> waiting s' = waiting s -> dns s' = dns s -> sendp s' = sendp s -> timer s' = timer s -> Inv s'.
Proof. intros [A B C D E F] X Y Z G H I. split; rewrite ?X, ?Y, ?Z, ?G, ?H, ?I; auto. Qed.
Lemma step_inv t s v y : Inv s -> wants v <> Some NoEvent -> wants v <> Some Invalid -> dead (fst (step t s (v, y))) = false -> Inv (fst (step t s (v, y))).
Proof.
  intros I W1 W2 D'. pose proof I as [VD VA VR VN VU VS]. unfold step in *. rewrite VD in *. destruct v as [id al|al| |ok|n|n|n|n|p q|]; cbn [wants] in W1, W2.
  - unfold get in *. destruct al; cbn [negb] in *; [|exact I]. unfold analyze in *. destruct (ph s) eqn:P; destruct (host s) as [h|]; cbn [fst] in *; try exact I; split; cbn; auto; try congruence; try (intros [X|X]; congruence); try (intros X; rewrite X in P; discriminate); try (rewrite P; assumption).
  - eapply inv_eq; [exact I|..]; reflexivity.
  - unfold read in *. destruct (unread s) as [|h u]; [exact I|]. destruct (host s) as [g|]; [destruct (Nat.eqb g h)|]; try discriminate D'. eapply inv_eq; [exact I|..]; reflexivity.
  - unfold looked in *. destruct (dns s) eqn:E; try exact I. destruct (unread s); [|exact I]. split; cbn; auto; try congruence. intros _. apply VS. discriminate.
  - unfold dns_cb in *. destruct (dns s) as [| |e] eqn:E; try exact I. cbn [set_dns ph] in *. destruct (VS ltac:(discriminate)) as [P|P]; rewrite P in *.
    + destruct e; try (apply error_inv; [exact VD|reflexivity]). apply event_inv; auto; congruence.
    + change (Inv (fst (resolve_all y (set_result Aborted (res s) (set_dns (unread s) NoLookup s))))). split; cbn; auto; try congruence.
  - unfold send_cb in *. destruct (sendp s) eqn:E; [|exact I]. cbn [set_io ph] in *. destruct (is_running (ph s)) eqn:R.
    + assert (P : ph s = Running) by (destruct (ph s); try discriminate; reflexivity). apply event_inv; auto; try congruence. cbn. destruct (dns s) eqn:X; [reflexivity| |]; destruct VS as [Y|Y]; congruence.
    + split; cbn; auto. intros P. rewrite P in R. discriminate.
  - unfold timeout in *. destruct (timer s) eqn:E; [|exact I]. cbn [set_io ph] in *. destruct (is_running (ph s)) eqn:R.
    + assert (P : ph s = Running) by (destruct (ph s); try discriminate; reflexivity). apply event_inv; auto; try congruence. cbn. destruct (dns s) eqn:X; [reflexivity| |]; destruct VS as [Y|Y]; congruence.
    + split; cbn; auto. intros P. rewrite P in R. discriminate.
  - unfold packet in *. destruct (is_running (ph s)) eqn:R; [|exact I]. assert (P : ph s = Running) by (destruct (ph s); try discriminate; reflexivity). apply event_inv; auto; try congruence. destruct (dns s) eqn:X; [reflexivity| |]; destruct VS as [Y|Y]; congruence.
  - eapply inv_eq; [exact I|..]; reflexivity.
  - unfold stop. apply all_inv; auto.
Qed.
Lemma dead_stays t s v : dead s = true -> step t s v = (s, []).
Proof. intros D. destruct v as [v y]. unfold step. now rewrite D. Qed.
Lemma respond_crash y j e s : ~ In Crash (respond y j e s).
Proof. unfold respond. intros [X|[X|[]]]; discriminate. Qed.
Lemma resolve_crash y s : ~ In Crash (snd (resolve_all y s)) /\ dead (fst (resolve_all y s)) = dead s.
Proof. split; [|reflexivity]. unfold resolve_all. cbn [snd]. intros X. apply in_flat_map in X. destruct X as (j & _ & X). exact (respond_crash _ _ _ _ X). Qed.
Lemma error_crash y e s : ~ In Crash (snd (resolve_error y e s)) /\ dead (fst (resolve_error y e s)) = dead s.
Proof. unfold resolve_error. exact (resolve_crash _ _). Qed.
Lemma event_crash y n s : ~ In Crash (snd (event y n s)) /\ dead (fst (event y n s)) = dead s.
Proof.
  unfold event. destruct n as [ep|ep| | |r| |]; cbn [set_io pri sec]; try (split; [intros []|reflexivity]).
  - destruct (pri s); cbn [negb]; [destruct ep; cbn [negb]|]; try exact (error_crash _ _ _). split; [intros [X|[]]; discriminate|reflexivity].
  - destruct (sec s); cbn [negb]; [destruct ep; cbn [negb]|]; try exact (error_crash _ _ _). split; [intros [X|[]]; discriminate|reflexivity].
  - exact (resolve_crash _ _).
  - exact (error_crash _ _ _).
Qed.
Lemma step_crash t s v : dead s = false -> (In Crash (snd (step t s v)) <-> dead (fst (step t s v)) = true) /\ (dead (fst (step t s v)) = true -> fst v = Read /\ exists h u, unread s = h :: u /\ host s <> Some h).
Proof.
  intros D. assert (NO : forall r : st * list out, ~ In Crash (snd r) /\ dead (fst r) = dead s -> (In Crash (snd r) <-> dead (fst r) = true) /\ (dead (fst r) = true -> fst v = Read /\ exists h u, unread s = h :: u /\ host s <> Some h)).
  { intros r [A B]. rewrite B, D. split; [split; [tauto|discriminate]|discriminate]. }
  destruct v as [v y]. unfold step. rewrite D. destruct v as [id al|al| |ok|n|n|n|n|p q|].
  - apply NO. unfold get. destruct al; cbn [negb]; [|split; [intros [X|[X|[]]]; discriminate|reflexivity]]. unfold analyze. destruct (ph s), (host s); cbn [fst snd In]; (split; [|reflexivity]); intros [X|X]; try discriminate; try (destruct X as [X|[]]; discriminate); exact (respond_crash _ _ _ _ X).
  - apply NO. split; [intros []|reflexivity].
  - unfold read. destruct (unread s) as [|h u]; [apply NO; split; [intros []|reflexivity]|]. destruct (host s) as [g|] eqn:H; [destruct (Nat.eqb_spec g h) as [->|N]; [apply NO; split; [intros []|reflexivity]|]|]; cbn; (split; [tauto|intros _; split; [reflexivity|exists h, u; split; [reflexivity|congruence]]]).
  - apply NO. unfold looked. destruct (dns s), (unread s); (split; [intros []|reflexivity]).
  - apply NO. unfold dns_cb. destruct (dns s) as [| |e]; try (split; [intros []|reflexivity]). cbn [set_dns ph]. destruct (ph s); try (destruct e; try exact (error_crash _ _ _); exact (event_crash _ _ _)).
  - apply NO. unfold send_cb. destruct (sendp s); [|split; [intros []|reflexivity]]. cbn [set_io ph]. destruct (is_running (ph s)); [exact (event_crash _ _ _)|split; [intros []|reflexivity]].
  - apply NO. unfold timeout. destruct (timer s); [|split; [intros []|reflexivity]]. cbn [set_io ph]. destruct (is_running (ph s)); [exact (event_crash _ _ _)|split; [intros []|reflexivity]].
  - apply NO. unfold packet. destruct (is_running (ph s)); [exact (event_crash _ _ _)|split; [intros []|reflexivity]].
  - apply NO. split; [intros []|reflexivity].
  - apply NO. unfold stop. exact (resolve_crash _ _).
Qed.
Lemma crash_dead t l s o : run t init l = (s, o) -> (In Crash o <-> dead s = true).
Proof.
  revert s o. induction l as [|v l IH] using rev_ind; intros s o R.
  - injection R as <- <-. split; [intros []|discriminate].
  - rewrite run_snoc in R. destruct (run t init l) as [s1 o1]. specialize (IH _ _ eq_refl). destruct (dead s1) eqn:D1.
    + rewrite (dead_stays t s1 v D1) in R. injection R as <- <-. now rewrite app_nil_r, D1.
    + destruct (step_crash t s1 v D1) as [S1 _]. destruct (step t s1 v) as [s2 o2]. injection R as <- <-. cbn [fst snd] in *. rewrite in_app_iff, S1. split; [intros [X|X]; [apply IH in X; discriminate|exact X]|now right].
Qed.
Lemma alive t l s o : run t init l = (s, o) -> Fine o -> dead s = false.
Proof. intros R F. destruct (dead s) eqn:D; [|reflexivity]. destruct F. now apply (crash_dead _ _ _ _ R). Qed.
Lemma inv_run t l s o : run t init l = (s, o) -> dead s = false -> Active l -> Inv s.
Proof.
  revert s o. induction l as [|[v y] l IH] using rev_ind; intros s o R D A.
  - injection R as <- <-. split; cbn; try reflexivity; try discriminate. intros X. now destruct X.
  - rewrite run_snoc in R. destruct (run t init l) as [s1 o1]. assert (D1 : dead s1 = false) by (destruct (dead s1) eqn:D1; [rewrite (dead_stays t s1 _ D1) in R; injection R as <- <-; congruence|reflexivity]).
    assert (A1 : Active l) by (intros w z X; apply (A w z); apply in_or_app; now left). specialize (IH _ _ eq_refl D1 A1).
    destruct (A v y) as [W1 W2]; [apply in_or_app; right; now left|]. pose proof (step_inv t s1 v y IH W1 W2) as J. destruct (step t s1 (v, y)) as [s2 o2]. injection R as <- <-. cbn [fst] in J. auto.
Qed.
(** When nothing is left to happen every request has been answered. *)
Theorem C54_progress : forall t l s o id, run t init l = (s, o) -> Fine o -> Active l -> Quiet s -> responses id o = asked id o.
Proof.
  intros t l s o id R F A (Q1 & Q2 & Q3). pose proof (inv_run _ _ _ _ R (alive _ _ _ _ R F) A) as [VD VA VR VN VU VS]. destruct (kept_run _ _ _ _ R id) as [K _].
  assert (W : waiting s = []). { destruct (ph s); try (apply VN; tauto); try (apply VA; reflexivity); solve [destruct (VR eq_refl Q1)|destruct (VU eq_refl); congruence]. }
  unfold inw in K. rewrite W in K. cbn in K. lia.
Qed.
Print Assumptions C54_progress.
(** Once stopped every request has been answered. *)
Lemma stop_empty t l s o : run t init l = (s, o) -> dead s = false -> forall y, In (Stop, y) l -> ph s = PAborted /\ waiting s = [].
Proof.
  revert s o. induction l as [|v l IH] using rev_ind; intros s o R D y X; [destruct X|].
  rewrite run_snoc in R. destruct (run t init l) as [s1 o1]. destruct (step t s1 v) as [s2 o2] eqn:S. injection R as <- <-.
  assert (D1 : dead s1 = false) by (destruct (dead s1) eqn:D1; [rewrite (dead_stays t s1 v D1) in S; injection S as <- <-; congruence|reflexivity]).
  destruct v as [v z]. apply in_app_or in X. destruct X as [X|[X|[]]].
  - destruct (IH _ _ eq_refl D1 y X) as [P W]. unfold step in S. rewrite D1 in S. destruct v as [id al|al| |ok|n|n|n|n|p q|].
    + unfold get, analyze in S. rewrite P in S. destruct al; injection S as <- <-; auto.
    + injection S as <- <-. auto.
    + unfold read in S. destruct (unread s1) as [|h u]; [injection S as <- <-; auto|]. destruct (host s1) as [g|]; [destruct (Nat.eqb g h)|]; injection S as <- <-; auto.
    + unfold looked in S. destruct (dns s1), (unread s1); injection S as <- <-; auto.
    + unfold dns_cb in S. destruct (dns s1) as [| |e]; try (injection S as <- <-; auto; fail). cbn [set_dns ph] in S. rewrite P in S. unfold resolve_all in S. injection S as <- <-. cbn. auto.
    + unfold send_cb in S. destruct (sendp s1); cbn [set_io ph] in S; rewrite ?P in S; injection S as <- <-; auto.
    + unfold timeout in S. destruct (timer s1); cbn [set_io ph] in S; rewrite ?P in S; injection S as <- <-; auto.
    + unfold packet in S. rewrite P in S. injection S as <- <-. auto.
    + injection S as <- <-. auto.
    + unfold stop, resolve_all in S. injection S as <- <-. cbn. auto.
  - injection X as -> ->. unfold step in S. rewrite D1 in S. unfold stop, resolve_all in S. injection S as <- <-. cbn. auto.
Qed.
Theorem C54_stop : forall t l s o y id, run t init l = (s, o) -> Fine o -> In (Stop, y) l -> responses id o = asked id o.
Proof.
  intros t l s o y id R F X. destruct (stop_empty _ _ _ _ R (alive _ _ _ _ R F) y X) as [_ W]. destruct (kept_run _ _ _ _ R id) as [K _]. unfold inw in K. rewrite W in K. cbn in K. lia.
Qed.
Print Assumptions C54_stop.
(** What is answered. *)
Definition Told (l : list (op * sys)) (o : list out) : Prop := forall id le, In (Response id (Content le)) o -> Endpoints l le.
Lemma respond_told l v y j e s : In (v, y) l -> (e = Ok -> exists v' y', In (v', y') l /\ wants v' = Some (Completed (res s))) -> Told l (respond y j e s).
Proof.
  intros V K id le X. unfold respond in X. destruct X as [X|[X|[]]]; [discriminate|]. destruct (buf_ok y), (pay_ok y); try discriminate. injection X as <- <-.
  exists v, y, (if pri s then port y else 0). split; [exact V|]. split; [destruct (pri s); auto|]. destruct e; try (left; now rewrite app_nil_r). right. destruct (K eq_refl) as (v' & y' & A & B). exists v', y', (res s). auto.
Qed.
Lemma resolve_told l v y s : In (v, y) l -> (cur_ec s = Ok -> exists v' y', In (v', y') l /\ wants v' = Some (Completed (res s))) -> Told l (snd (resolve_all y s)).
Proof. intros V K id le X. unfold resolve_all in X. cbn [snd] in X. apply in_flat_map in X. destruct X as (j & _ & X). exact (respond_told l v y j _ s V K id le X). Qed.
Lemma error_told l v y e s : In (v, y) l -> e <> Ok -> Told l (snd (resolve_error y e s)).
Proof. intros V N. unfold resolve_error. apply (resolve_told l v); [exact V|]. cbn. congruence. Qed.
Lemma event_told l v y n s : In (v, y) l -> wants v = Some n -> Told l (snd (event y n s)).
Proof.
  intros V W. unfold event. destruct n as [ep|ep| | |r| |]; cbn [set_io pri sec]; try (intros id le []).
  - destruct (pri s); cbn [negb]; [destruct ep; cbn [negb]|]; try (eapply error_told; [exact V|discriminate]). intros id le [X|[]]. discriminate.
  - destruct (sec s); cbn [negb]; [destruct ep; cbn [negb]|]; try (eapply error_told; [exact V|discriminate]). intros id le [X|[]]. discriminate.
  - eapply resolve_told; [exact V|]. cbn. eauto.
  - eapply error_told; [exact V|discriminate].
Qed.
Lemma step_told t l s v y : In (v, y) l -> Told l (snd (step t s (v, y))).
Proof.
  intros V. unfold step. destruct (dead s); [intros id le []|]. destruct v as [id al|al| |ok|n|n|n|n|p q|].
  - unfold get. destruct al; cbn [negb]; [|intros j le [X|[X|[]]]; discriminate].
    unfold analyze. destruct (ph s), (host s); cbn [snd]; intros j le [X|X]; try discriminate; try (destruct X as [X|[]]; discriminate); (eapply respond_told; [exact V| |exact X]; discriminate).
  - intros id le [].
  - unfold read. destruct (unread s) as [|h u]; [intros id le []|]. destruct (host s) as [g|]; [destruct (Nat.eqb g h)|]; intros id le X; cbn in X; try tauto; destruct X as [X|[]]; discriminate.
  - unfold looked. destruct (dns s), (unread s); intros id le [].
  - unfold dns_cb. destruct (dns s) as [| |e]; try (intros id le []; fail). cbn [set_dns ph]. destruct (ph s); try (destruct e; try (eapply error_told; [exact V|discriminate]); eapply event_told; [exact V|reflexivity]). eapply resolve_told; [exact V|]. discriminate.
  - unfold send_cb. destruct (sendp s); [|intros id le []]. cbn [set_io ph]. destruct (is_running (ph s)); [eapply event_told; [exact V|reflexivity]|intros id le []].
  - unfold timeout. destruct (timer s); [|intros id le []]. cbn [set_io ph]. destruct (is_running (ph s)); [eapply event_told; [exact V|reflexivity]|intros id le []].
  - unfold packet. destruct (is_running (ph s)); [eapply event_told; [exact V|reflexivity]|intros id le []].
  - intros id le [].
  - unfold stop. eapply resolve_told; [exact V|]. discriminate.
Qed.
Lemma told_more l l' o : Told l o -> (forall x, In x l -> In x l') -> Told l' o.
Proof.
  intros T H id le X. destruct (T id le X) as (v & y & p & A & B & [C|(v' & y' & r & C1 & C2 & C3)]); exists v, y, p; split; auto; split; auto. right. exists v', y', r. auto.
Qed.
(** A response has at most two local addresses of the device, and the external endpoint only if an analysis has found it. *)
Theorem C54_content : forall t l s o id le, run t init l = (s, o) -> In (Response id (Content le)) o -> Endpoints l le /\ List.length le <= 3.
Proof.
  intros t l s o id le R X. assert (T : Told l o).
  { clear X. revert s o R. induction l as [|[v y] l IH] using rev_ind; intros s o R.
    - injection R as <- <-. intros j e [].
    - rewrite run_snoc in R. destruct (run t init l) as [s1 o1]. specialize (IH _ _ eq_refl). pose proof (step_told t (l ++ [(v, y)]) s1 v y) as K. destruct (step t s1 (v, y)) as [s2 o2]. injection R as <- <-. cbn [snd] in K.
      intros j e Y. apply in_app_or in Y. destruct Y as [Y|Y]; [|apply (K ltac:(apply in_or_app; right; now left) j e Y)]. eapply told_more; [exact IH| |exact Y]. intros x Z. apply in_or_app. now left. }
  split; [exact (T _ _ X)|]. destruct (T _ _ X) as (v & y & p & _ & _ & [->|(v' & y' & r & _ & _ & ->)]); rewrite ?app_length, map_length, firstn_length; cbn [List.length]; pose proof (Nat.le_min_l 2 (List.length (locals y))); lia.
Qed.
Print Assumptions C54_content.
(** The response which goes with an answer. *)
Definition Goes (e : ec) (x : response) : Prop := forall le, x = Content le -> (e = Ok <-> exists r, In (Extern r) le).
Inductive Paired : list out -> Prop :=
| P_nil : Paired []
| P_other : forall x o, (forall id e, x <> Answered id e) -> Paired o -> Paired (x :: o)
| P_pair : forall id e x o, Goes e x -> Paired o -> Paired (Answered id e :: Response id x :: o).
Lemma paired_app o o' : Paired o -> Paired o' -> Paired (o ++ o').
Proof. intros P Q. induction P; cbn [app]; [exact Q|apply P_other; auto|apply P_pair; auto]. Qed.
Lemma paired_at o : Paired o -> forall o1 id e o2, o = o1 ++ Answered id e :: o2 -> exists x o3, o2 = Response id x :: o3 /\ Goes e x.
Proof.
  intros P. induction P as [|x o N P IH|id e x o G P IH]; intros o1 j f o2 E; [destruct o1; discriminate| |].
  - destruct o1 as [|z o1]; injection E as E1 E2; [destruct (N j f E1)|exact (IH _ _ _ _ E2)].
  - destruct o1 as [|z [|z' o1]]; [injection E as <- <- <-; eauto|discriminate|injection E as _ _ E2; exact (IH _ _ _ _ E2)].
Qed.
Lemma paired_respond y j e s : Paired (respond y j e s).
Proof.
  unfold respond. apply P_pair; [|constructor]. intros le E. destruct (buf_ok y), (pay_ok y); try discriminate. injection E as <-. split.
  - intros ->. exists (res s). apply in_or_app. right. now left.
  - intros (r & X). apply in_app_or in X. destruct X as [X|X]; [apply in_map_iff in X; destruct X as (a & X & _); discriminate|]. destruct e; try reflexivity; destruct X.
Qed.
Lemma paired_all y s : Paired (snd (resolve_all y s)).
Proof. unfold resolve_all. cbn [snd]. induction (waiting s) as [|j w IH]; cbn [flat_map]; [constructor|]. apply paired_app; [apply paired_respond|exact IH]. Qed.
Lemma paired_sent b : Paired [Sent b].
Proof. repeat constructor. discriminate. Qed.
Lemma paired_event y n s : Paired (snd (event y n s)).
Proof.
  unfold event, resolve_error. destruct n as [ep|ep| | |r| |]; cbn [set_io pri sec]; try constructor; try apply paired_all.
  - destruct (pri s); cbn [negb]; [destruct ep; cbn [negb]|]; try apply paired_all. apply paired_sent.
  - destruct (sec s); cbn [negb]; [destruct ep; cbn [negb]|]; try apply paired_all. apply paired_sent.
Qed.
Lemma paired_step t s v : Paired (snd (step t s v)).
Proof.
  destruct v as [v y]. unfold step, resolve_error. destruct (dead s); [constructor|]. destruct v as [id al|al| |ok|n|n|n|n|p q|]; try constructor.
  - unfold get, analyze. destruct al; cbn [negb]; [|repeat constructor; discriminate]. destruct (ph s), (host s); cbn [snd]; (constructor; [discriminate|]); try apply paired_respond; repeat constructor; discriminate.
  - unfold read. destruct (unread s) as [|h u]; [constructor|]. destruct (host s) as [g|]; [destruct (Nat.eqb g h)|]; repeat constructor; discriminate.
  - unfold looked. destruct (dns s), (unread s); constructor.
  - unfold dns_cb, resolve_error. destruct (dns s) as [| |e]; try constructor. cbn [set_dns ph]. destruct (ph s); try apply paired_all; destruct e; try apply paired_all; apply paired_event.
  - unfold send_cb. destruct (sendp s); [|constructor]. cbn [set_io ph]. destruct (is_running (ph s)); [apply paired_event|constructor].
  - unfold timeout. destruct (timer s); [|constructor]. cbn [set_io ph]. destruct (is_running (ph s)); [apply paired_event|constructor].
  - unfold packet. destruct (is_running (ph s)); [apply paired_event|constructor].
  - apply paired_all.
Qed.
(** The answer to an analysis is the response to its request at once, with an external endpoint exactly if the analysis succeeded. *)
Theorem C54_meaning : forall t l s o o1 id e o2, run t init l = (s, o) -> o = o1 ++ Answered id e :: o2 ->
  exists x o3, o2 = Response id x :: o3 /\ forall le, x = Content le -> (e = Ok <-> exists r, In (Extern r) le).
Proof.
  intros t l s o o1 id e o2 R E. assert (P : Paired o).
  { clear E. revert s o R. induction l as [|v l IH] using rev_ind; intros s o R; [injection R as <- <-; constructor|]. rewrite run_snoc in R. destruct (run t init l) as [s1 o1']. pose proof (paired_step t s1 v) as K. destruct (step t s1 v) as [s2 o2']. injection R as <- <-. apply paired_app; [exact (IH _ _ eq_refl)|exact K]. }
  exact (paired_at _ P _ _ _ _ E).
Qed.
Print Assumptions C54_meaning.
(** The name is read while it is there: always with libevent, and with the thread if names are not replaced during lookups. Missing: names replaced then, which is false. *)
Lemma unread_inv t l s o : run t init l = (s, o) -> dead s = false -> (t = false \/ Calm t l) -> (t = false -> unread s = []) /\ (forall h, In h (unread s) -> host s = Some h) /\ (dns s <> Looking -> unread s = []).
Proof.
  revert s o. induction l as [|[v y] l IH] using rev_ind; intros s o R D C.
  - injection R as <- <-. repeat split. intros h [].
  - rewrite run_snoc in R. destruct (run t init l) as [s1 o1] eqn:R1. destruct (step t s1 (v, y)) as [s2 o2] eqn:S. injection R as <- <-.
    assert (D1 : dead s1 = false) by (destruct (dead s1) eqn:D1; [rewrite (dead_stays t s1 (v, y) D1) in S; injection S as <- <-; congruence|reflexivity]).
    assert (C1 : t = false \/ Calm t l) by (destruct C as [C|C]; [now left|right; intros l1 al z l2 E; apply (C l1 al z (l2 ++ [(v, y)])); now rewrite E, <- app_assoc]).
    destruct (IH _ _ eq_refl D1 C1) as (U1 & U2 & U3).
    assert (EV : forall n r s3, event y n s3 = r -> unread (fst r) = unread s3 /\ host (fst r) = host s3 /\ dns (fst r) = dns s3).
    { intros n r s3 <-. unfold event, resolve_error, resolve_all. destruct n as [ep|ep| | |q| |]; cbn; try destruct (pri s3); try destruct (sec s3); try destruct ep; cbn; auto. }
    assert (FR : unread s2 = unread s1 -> host s2 = host s1 -> dns s2 = dns s1 -> (t = false -> unread s2 = []) /\ (forall h, In h (unread s2) -> host s2 = Some h) /\ (dns s2 <> Looking -> unread s2 = [])) by (intros -> -> ->; auto).
    unfold step in S. rewrite D1 in S. destruct v as [id al|al| |ok|n|n|n|n|p q|].
    + unfold get in S. destruct al; cbn [negb] in S; [|injection S as <- <-; now apply FR]. unfold analyze in S.
      destruct (ph s1) eqn:P; destruct (host s1) as [h|] eqn:HH; injection S as <- <-; try (apply FR; first [reflexivity | exact HH]; fail);
        cbn; rewrite HH; (split; [intros ->; exact (U1 eq_refl)|split; [|congruence]]); intros g; (destruct t; [rewrite in_app_iff; intros [X|[<- |[<- |[]]]]; auto|auto]).
    + injection S as <- <-. cbn. split; [exact U1|]. destruct C as [-> |C]; [rewrite (U1 eq_refl); cbn; split; [intros h []|auto]|]. assert (N : dns s1 <> Looking) by (pose proof (C l al y [] eq_refl) as Z; rewrite R1 in Z; exact Z). rewrite (U3 N). split; [intros h []|auto].
    + unfold read in S. destruct (unread s1) as [|h u] eqn:UN; [injection S as <- <-; apply FR; congruence|]. destruct (host s1) as [g|] eqn:HH; [destruct (Nat.eqb g h)|]; injection S as <- <-; try discriminate D. cbn. split; [intros E; discriminate (U1 E)|]. split; [intros x X; rewrite HH; apply U2; now right|]. intros N. discriminate (U3 N).
    + unfold looked in S. destruct (dns s1) eqn:E; try (injection S as <- <-; apply FR; congruence). destruct (unread s1) eqn:UN; injection S as <- <-; [|apply FR; congruence]. cbn. repeat split. intros h [].
    + unfold dns_cb in S. destruct (dns s1) as [| |e] eqn:E; try (injection S as <- <-; apply FR; congruence). cbn [set_dns ph] in S. assert (UN : unread s1 = []) by (apply U3; discriminate).
      assert (Z : unread s2 = []).
      { destruct (ph s1); try (destruct e; try (unfold resolve_error, resolve_all in S; injection S as <- <-; exact UN); destruct (EV _ _ _ S) as (X1 & _); cbn [fst] in X1; rewrite X1; exact UN). }
      rewrite Z. repeat split. intros h [].
    + unfold send_cb in S. destruct (sendp s1); [|injection S as <- <-; now apply FR]. cbn [set_io ph] in S. destruct (is_running (ph s1)); [|injection S as <- <-; now apply FR]. destruct (EV _ _ _ S) as (X1 & X2 & X3). now apply FR.
    + unfold timeout in S. destruct (timer s1); [|injection S as <- <-; now apply FR]. cbn [set_io ph] in S. destruct (is_running (ph s1)); [|injection S as <- <-; now apply FR]. destruct (EV _ _ _ S) as (X1 & X2 & X3). now apply FR.
    + unfold packet in S. destruct (is_running (ph s1)); [|injection S as <- <-; now apply FR]. destruct (EV _ _ _ S) as (X1 & X2 & X3). now apply FR.
    + injection S as <- <-. now apply FR.
    + unfold stop, resolve_all in S. injection S as <- <-. now apply FR.
Qed.
Theorem C54_name_partial : forall t l, t = false \/ Calm t l -> Fine (snd (run t init l)).
Proof.
  intros t l C X. destruct (run t init l) as [s o] eqn:R. cbn [snd] in X. apply (crash_dead _ _ _ _ R) in X. revert s o R X C. induction l as [|[v y] l IH] using rev_ind; intros s o R X C; [injection R as <- <-; discriminate|].
  assert (C1 : t = false \/ Calm t l) by (destruct C as [C|C]; [now left|right; intros l1 al z l2 E; apply (C l1 al z (l2 ++ [(v, y)])); now rewrite E, <- app_assoc]).
  rewrite run_snoc in R. destruct (run t init l) as [s1 o1] eqn:R1. destruct (dead s1) eqn:D1; [exact (IH _ _ eq_refl D1 C1)|]. destruct (step_crash t s1 (v, y) D1) as [_ S2]. destruct (step t s1 (v, y)) as [s2 o2]. injection R as <- <-. cbn [fst] in S2.
  destruct (S2 X) as (_ & h & u & U & N). destruct (unread_inv _ _ _ _ R1 D1 C1) as (_ & U2 & _). apply N, U2. rewrite U. now left.
Qed.
Print Assumptions C54_name_partial.
Definition calm : sys := {| locals := [1]; port := 5; buf_ok := true; pay_ok := true |}.
(** With the thread the name is read after it was freed when the basestation names another server during a lookup. *)
Theorem C54_name_refuted : exists l, In Crash (snd (run true init l)).
Proof. exists [(SetHost true, calm); (Get 0 true, calm); (SetHost true, calm); (Read, calm)]. vm_compute. tauto. Qed.
Print Assumptions C54_name_refuted.
Definition ex54 : list (op * sys) := map (fun v => (v, calm)) [SetHost true; Sockets true true; Get 0 true; Read; Read; Looked true; DnsCb (SendPrimary true); Get 1 true; SendCb Wait; Packet (Completed 9); Get 2 true; Read; Read; Looked false; DnsCb Wait].
Example C54_ex : snd (run true init ex54) = [Asked 0; Accepted 0; Sent true; Asked 1; Accepted 1; Answered 0 Ok; Response 0 (Content [Local 1 5; Extern 9]); Answered 1 Ok; Response 1 (Content [Local 1 5; Extern 9]); Asked 2; Accepted 2; Answered 2 DnsError; Response 2 (Content [Local 1 5])].
Proof. vm_compute. reflexivity. Qed.
Example C54_ex_quiet : Quiet (fst (run true init ex54)) /\ Active ex54.
Proof.
  split; [vm_compute; repeat split|]. intros v y H. unfold ex54 in H. cbn in H. repeat (destruct H as [H|H]; [injection H as <- <-; cbn; split; discriminate|]). destruct H.
Qed.
Example C54_ex_calm : Calm true ex54.
Proof.
  intros l1 al y l2 E. destruct l1 as [|x l1]; [cbn; discriminate|]. exfalso. unfold ex54 in E. cbn in E. injection E as _ E. repeat (destruct l1 as [|? l1]; [discriminate|injection E as _ E]). destruct l1; discriminate.
Qed.
Example C54_ex_stop : Fine (snd (run false init [(SetHost true, calm); (Get 0 true, calm); (Stop, calm); (Get 1 true, calm)])) /\ responses 0 (snd (run false init [(SetHost true, calm); (Get 0 true, calm); (Stop, calm); (Get 1 true, calm)])) = 1.
Proof. split; [|reflexivity]. intros H. vm_compute in H. repeat (destruct H as [H|H]; [discriminate|]). destruct H. Qed.
