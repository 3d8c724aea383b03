(** Proofs for the properties C73, C75 and C76. *)
From Coq Require Import List NArith PeanoNat Bool Lia.
From Verif Require Import NetModel NetSpec NetProofs NetMore NetHist NetRv NetEnd.
Import ListNotations.
Local Open Scope N_scope.

(** ** C73 *)
Definition b2n (b : bool) : nat := if b then 1%nat else 0%nat.
Record waits (s : net) : Prop := { w_count : t_count s = N.of_nat (length (t_conns s)); w_closing : t_closing s = true; w_cb : t_cb s = true -> t_conns s <> [] }.
Definition ends (s : net) (x : net * list out) : Prop :=
  waits s -> waits (fst x) /\ (count is_cb (snd x) + b2n (t_cb (fst x)) = b2n (t_cb s))%nat /\ (In CloseCb (snd x) -> t_conns (fst x) = []) /\ (t_conns s = [] -> t_conns (fst x) = []).
Lemma ends_same : forall s s' l, t_count s' = t_count s -> length (t_conns s') = length (t_conns s) -> t_closing s' = t_closing s -> t_cb s' = t_cb s -> forallb (fun x => negb (is_cb x)) l = true -> ends s (s', l).
Proof.
  intros s s' l E1 E2 E3 E4 E5 [W1 W2 W3]. cbn [fst snd]. split; [split; [congruence|congruence|rewrite E4; intros C; specialize (W3 C); destruct (t_conns s), (t_conns s'); cbn in *; congruence]|].
  rewrite E4. assert (Z : count is_cb l = 0%nat /\ ~ In CloseCb l).
  { clear - E5. induction l as [|x l IH]; [cbn; auto|]. cbn in E5. apply andb_prop in E5. destruct E5 as [A B]. destruct (IH B) as [C D]. rewrite count_cons, C. destruct x; cbn in *; try discriminate; split; auto; intuition discriminate. }
  destruct Z as [-> Z]. split; [reflexivity|]. split; [tauto|]. intros C. rewrite C in E2. destruct (t_conns s'); [reflexivity|discriminate].
Qed.
Lemma ends_app : forall s s1 l1 s2 l2, ends s (s1, l1) -> ends s1 (s2, l2) -> ends s (s2, l1 ++ l2).
Proof.
  intros s s1 l1 s2 l2 A B W. destruct (A W) as (A1 & A2 & A3 & A4). destruct (B A1) as (B1 & B2 & B3 & B4). cbn [fst snd] in *. split; [exact B1|]. split; [rewrite count_app; lia|]. split; [|auto].
  rewrite in_app_iff. intros [H|H]; auto.
Qed.
Lemma ends_destroy : forall r s, In r (keys (t_conns s)) -> ends s (destroy r s).
Proof.
  intros r s I [W1 W2 W3]. unfold destroy, free_conn. cbv zeta. cbn [t_closing set_conns t_count]. rewrite W2. cbn [andb]. pose proof (remove_length r (t_conns s) I) as L.
  destruct (N.leb_spec (t_count s - 1) 0) as [X|X]; cbn [fst snd].
  - assert (E : remove r (t_conns s) = []) by (apply length_zero_iff_nil; rewrite W1, L in X; lia).
    split; [split; cbn; rewrite ?E; cbn; [lia|auto|discriminate]|]. cbn. rewrite E. split; [destruct (t_cb s); reflexivity|]. auto.
  - split; [split; cbn; [lia|auto|intros _ E; rewrite E in L; cbn in L; lia]|]. cbn. split; [destruct (t_cb s); reflexivity|]. split; [intuition discriminate|]. intros E. rewrite E. reflexivity.
Qed.
Lemma ends_dtls : forall r ch v s, ends s (handle_dtls r ch v s).
Proof.
  intros. unfold handle_dtls. destruct (from_ref r s) as [[r0 [k|]]|] eqn:E; try (apply ends_same; reflexivity).
  destruct v; [apply ends_same; reflexivity| |apply ends_destroy; eapply from_ref_key; eauto].
  unfold handle_data. destruct bytes; [apply ends_same; reflexivity|]. destruct (_ && _); [destruct (_ && _)|]; apply ends_same; try reflexivity; cbn; apply replace_length.
Qed.
Lemma ends_all : forall r ch l s, ends s (handle_all r ch l s).
Proof.
  intros r ch l. induction l as [|v l IH]; intros s; [apply ends_same; reflexivity|]. cbn [handle_all]. pose proof (ends_dtls r ch v s) as E. destruct (handle_dtls r ch v s) as [s1 a].
  specialize (IH s1). destruct (handle_all r ch l s1). eapply ends_app; eauto.
Qed.
Lemma ends_error : forall k ep p s, ends s (internal_error k ep p s).
Proof. intros. unfold internal_error. destruct (t_err s); [apply ends_same; reflexivity|]. destruct (Nat.ltb _ _); apply ends_same; reflexivity. Qed.
Lemma waits_alloc : forall m i s, waits s -> waits (fst (alloc m i s)) /\ t_cb (fst (alloc m i s)) = t_cb s.
Proof.
  intros m i s [W1 W2 W3]. unfold alloc, next_ref. cbv zeta. destruct (N.leb _ _); [split; [split; auto|reflexivity]|]. destruct m; [|split; [split; auto|reflexivity]]. destruct (N.ltb _ _); (split; [split|]; cbn; auto).
  - rewrite app_length. cbn. lia.
  - intros _ E. destruct (t_conns s); discriminate.
Qed.
(** Without the last clause, for a step which may make a connection first. *)
Definition ends' (s : net) (x : net * list out) : Prop :=
  waits s -> waits (fst x) /\ (count is_cb (snd x) + b2n (t_cb (fst x)) = b2n (t_cb s))%nat /\ (In CloseCb (snd x) -> t_conns (fst x) = []).
Lemma ends_ends' : forall s x, ends s x -> ends' s x.
Proof. intros s x E W. destruct (E W) as (A & B & C & D). auto. Qed.
Lemma ends_cons : forall s x r, is_cb x = false -> ends s r -> ends s (fst r, x :: snd r).
Proof.
  intros s x [s1 l] P E. change (x :: snd (s1, l)) with ([x] ++ l). eapply ends_app; [|exact E]. apply ends_same; try reflexivity. cbn. rewrite P. reflexivity.
Qed.
Lemma destroy_error : forall r s k ep p, ends s (let (s1, l1) := internal_error k ep p s in let (s2, l2) := destroy r s1 in (s2, l1 ++ l2)) \/ ~ In r (keys (t_conns s)).
Proof.
  intros r s k ep p. destruct (in_dec N.eq_dec r (keys (t_conns s))) as [I|I]; [left|right; exact I]. pose proof (ends_error k ep p s) as E. pose proof (conns_error k ep p s) as C.
  destruct (internal_error k ep p s) as [s1 l1]. cbn [fst] in C. pose proof (ends_destroy r s1 ltac:(rewrite C; exact I)) as D. destruct (destroy r s1). eapply ends_app; eauto.
Qed.
Lemma ends_clients : forall b e k ep p s, ends' s (clients_packet b e k ep p s).
Proof.
  intros. unfold clients_packet. destruct (Nat.ltb _ _); [apply ends_ends', ends_same; reflexivity|]. destruct (from_id p s) as [[r [c|]]|]; [|apply ends_ends', ends_same; reflexivity|].
  - unfold client_packet. destruct (nth_error p 15); [|apply ends_ends', ends_same; reflexivity]. cbv zeta. apply ends_ends'.
    match goal with |- context [handle_all r ?c ?l (put r ?k1 s)] => pose proof (ends_all r c l (put r k1 s)) as L; assert (P : ends s (put r k1 s, [ToDtls r c (skipn 16 p)])) by (apply ends_same; try reflexivity; cbn; apply replace_length); destruct (handle_all r c l (put r k1 s)) end.
    exact (ends_app _ _ _ _ _ P L).
  - destruct (nth_error p 16); [|apply ends_ends', ends_same; reflexivity]. destruct (nth_error p 15); [|apply ends_ends', ends_same; reflexivity]. destruct (copy 16 p); [|apply ends_ends', ends_same; reflexivity]. destruct (N.eqb _ _); [|apply ends_ends', ends_same; reflexivity]. cbv zeta.
    match goal with |- context [alloc ?m ?i s] => pose proof (waits_alloc m i s) as A; destruct (alloc m i s) as [s1 [r|]] eqn:AL end; cbn [fst] in A.
    + intros W. destruct (A W) as [W1 E1]. rewrite <- E1. revert W1. destruct (a_init e).
      * match goal with |- context [handle_all r ?c ?l s1] => pose proof (ends_all r c l s1) as L; destruct (handle_all r c l s1) as [s2 l2] end.
        intros W1. apply (ends_ends' s1 (s2, Created r :: match b with ServerBuild => [ToDtls r n0 (skipn 16 p)] | ClientOnlyBuild => [] end ++ l2)); [|exact W1].
        change (Created r :: match b with ServerBuild => [ToDtls r n0 (skipn 16 p)] | ClientOnlyBuild => [] end ++ l2) with ((Created r :: match b with ServerBuild => [ToDtls r n0 (skipn 16 p)] | ClientOnlyBuild => [] end) ++ l2).
        eapply ends_app; [|exact L]. destruct b; apply ends_same; reflexivity.
      * intros W1. destruct (destroy_error r s1 k ep p) as [D|D]; [exact (ends_ends' _ _ D W1)|]. exfalso. apply D. destruct (alloc_some _ _ _ _ _ AL) as [-> _]. unfold keys. rewrite map_app. apply in_app_iff. right. left. reflexivity.
    + intros W. destruct (A W) as [W1 E1]. rewrite <- E1. exact (ends_ends' _ _ (ends_error k ep p s1) W1).
Qed.
Lemma ends_rv_send : forall m s, ends s (rv_send m s).
Proof. intros. unfold rv_send. destruct (t_busy s); [apply ends_same; reflexivity|]. destruct (t_queue s); [apply ends_same; reflexivity|]. destruct m; [|apply ends_same; reflexivity]. destruct (r_sock r); apply ends_same; reflexivity. Qed.
Lemma ends_rv : forall m r s, ends s (rv_queue m r s).
Proof.
  intros. unfold rv_queue. destruct (Nat.leb _ _); [apply ends_same; reflexivity|]. destruct (match r_sock r with Some k => Some k | None => t_default s end); [|apply ends_same; reflexivity].
  match goal with |- ends s (rv_send m ?s1) => assert (P : ends s (s1, [])) by (apply ends_same; reflexivity); pose proof (ends_rv_send m s1) as L; destruct (rv_send m s1) end. exact (ends_app _ _ _ _ _ P L).
Qed.
Lemma ends_rv_packet : forall e k ep p s, ends s (rv_packet e k ep p s).
Proof.
  intros. unfold rv_packet. destruct (Nat.ltb _ _); [apply ends_same; reflexivity|]. destruct (nth_error p 16); [|apply ends_same; reflexivity]. destruct (copy 14 (skipn 1 p)); [|apply ends_same; reflexivity]. destruct (nth_error p 15); [|apply ends_same; reflexivity].
  destruct (N.eqb n 1); [|destruct (N.eqb n 4); [apply ends_rv|apply ends_same; reflexivity]]. destruct (copy 14 (skipn 2 p)); [|apply ends_same; reflexivity]. destruct (from_id (skipn 1 p) s); [apply ends_rv|apply ends_same; reflexivity].
Qed.
Lemma ends_step : forall b e o s, is_close (o, e) = false -> ends' s (step b e o s).
Proof.
  intros b e o s NC. destruct o; try discriminate.
  - rewrite split_packet. destruct (target_of h p) as [[]|]; try (apply ends_ends', ends_same; reflexivity); [apply ends_clients|apply ends_ends', ends_rv_packet].
  - cbn [step]. unfold with_client. destruct (from_ref ref s) as [[r0 [k|]]|]; try (apply ends_ends', ends_same; reflexivity). apply ends_ends', ends_dtls.
  - cbn [step]. unfold with_client. destruct (from_ref ref s) as [[r0 [k|]]|]; try (apply ends_ends', ends_same; reflexivity). unfold send_to_udp. destruct (k_sent k); [apply ends_ends', ends_same; reflexivity|]. cbv zeta.
    destruct (_ || _); [|destruct (N.eqb _ _)]; apply ends_ends', ends_same; try reflexivity; cbn; apply replace_length.
  - cbn [step]. unfold with_client. destruct (from_ref ref s) as [[r0 [k|]]|]; try (apply ends_ends', ends_same; reflexivity). unfold sent_cb. destruct (k_sent k); apply ends_ends', ends_same; try reflexivity; cbn; apply replace_length.
  - apply ends_ends', ends_same; reflexivity.
  - cbn [step]. destruct (t_busy s); [|apply ends_ends', ends_same; reflexivity]. apply ends_ends'.
    assert (P : ends s (set_queue (t_queue s) false s, [])) by (apply ends_same; reflexivity). pose proof (ends_rv_send (a_buf e) (set_queue (t_queue s) false s)) as L. destruct (rv_send (a_buf e) (set_queue (t_queue s) false s)). exact (ends_app _ _ _ _ _ P L).
  - cbn [step]. apply ends_ends', ends_rv.
  - cbn [step]. intros W. destruct (waits_alloc (a_mem e) None s W) as [A B]. destruct (alloc (a_mem e) None s) as [s1 [r|]]; cbn [fst snd] in *; rewrite B; (split; [exact A|]); (split; [reflexivity|cbn; intuition discriminate]).
  - cbn [step]. destruct (from_ref ref s) as [[r0 [k|]]|] eqn:E; try (apply ends_ends', ends_same; reflexivity). apply ends_ends', ends_destroy. eapply from_ref_key; eauto.
  - apply ends_ends', ends_same; reflexivity.
  - apply ends_ends', ends_same; reflexivity.
Qed.
Lemma closing_run : forall b h s, waits s -> forallb (fun m => negb (is_close m)) h = true ->
  waits (fst (run b s h)) /\ (count is_cb (outs (snd (run b s h))) + b2n (t_cb (fst (run b s h))) = b2n (t_cb s))%nat.
Proof.
  intros b h. induction h as [|m h IH] using rev_ind; intros s W NC; [split; [exact W|reflexivity]|]. rewrite forallb_app in NC. apply andb_prop in NC. destruct NC as [N1 N2]. cbn in N2. rewrite andb_true_r in N2. apply negb_true_iff in N2.
  destruct (IH s W N1) as [W1 C1]. rewrite last_run. cbn [fst snd]. rewrite outs_app, count_app. unfold outs at 2. cbn [flat_map]. rewrite app_nil_r. destruct m as [o e]. destruct (ends_step b e o (fst (run b s h)) N2 W1) as (A & B & C). cbn [fst snd] in *. split; [exact A|lia].
Qed.
Lemma not_sync : forall l sync s, forallb negb sync = true -> fst (close_each l sync s) = (s, []) /\ (snd (close_each l sync s) = true -> l <> []).
Proof.
  induction l as [|[r [k|]] l IH]; intros sync s F; cbn [close_each]; [split; [reflexivity|discriminate]| |].
  - destruct sync as [|x sync]; cbn [tl] in *.
    + destruct (IH [] s F) as [A B]. destruct (close_each l [] s) as [[s2 c] y]. cbn [fst snd] in *. injection A as -> ->. split; [reflexivity|discriminate].
    + cbn in F. apply andb_prop in F. destruct F as [F1 F2]. destruct x; [discriminate|]. destruct (IH sync s F2) as [A B]. destruct (close_each l sync s) as [[s2 c] y]. cbn [fst snd] in *. injection A as -> ->. split; [reflexivity|discriminate].
  - destruct (IH sync s F) as [A B]. split; [exact A|discriminate].
Qed.
Lemma close_starts : forall e s cb, t_count s = N.of_nat (length (t_conns s)) -> forallb negb (a_sync e) = true -> In (Return Ok) (snd (close_all cb (a_sync e) s)) ->
  waits (fst (close_all cb (a_sync e) s)) /\ t_cb (fst (close_all cb (a_sync e) s)) = cb.
Proof.
  intros e s cb C F R. unfold close_all in *. destruct (not_sync (t_conns s) (a_sync e) (set_closing true (t_cb s) s) F) as [A B]. destruct (close_each (t_conns s) (a_sync e) (set_closing true (t_cb s) s)) as [[s1 l] [|]]; cbn [fst snd] in *.
  - injection A as -> ->. split; [split; cbn; auto|reflexivity].
  - injection A as -> ->. cbn in R. intuition discriminate.
Qed.
Lemma opened_keys : forall b h, N.of_nat (length h) <= u64_max -> opened (snd (run b init h)) = keys (t_conns (fst (run b init h))).
Proof. intros b h L. destruct (reach b h L) as [I _]. symmetry. apply (i_map _ _ _ I). Qed.
Lemma closed_once : forall b (h1 h2 : list move) e t1 t2 x, N.of_nat (length (h1 ++ (CloseAll true, e) :: h2)) <= u64_max ->
  snd (run b init (h1 ++ (CloseAll true, e) :: h2)) = t1 ++ x :: t2 -> length t1 = length h1 -> In (Return Ok) (snd x) -> forallb negb (a_sync e) = true -> forallb (fun m => negb (is_close m)) h2 = true ->
  (count is_cb (outs t2) <= 1)%nat /\ (opened (t1 ++ x :: t2) = [] -> count is_cb (outs t2) = 1%nat).
Proof.
  intros b h1 h2 e t1 t2 x L T LT R S NC. rewrite run_app in T. pose proof (run_app b (h1 ++ [(CloseAll true, e)]) h2 init) as RA. rewrite <- app_assoc in RA. cbn [app] in RA.
  pose proof (opened_keys b _ L) as OK. rewrite run_app in OK. destruct (run b init h1) as [s1 tt1] eqn:R1. cbn [run fst snd] in T. cbn [run fst snd] in OK. destruct (step b e (CloseAll true) s1) as [s2 l2] eqn:ST. destruct (run b s2 h2) as [s3 tt3] eqn:R3.
  cbn [fst snd] in *. pose proof (run_length b h1 init) as RL. rewrite R1 in RL. cbn in RL.
  assert (E : t1 = tt1 /\ x :: t2 = ((CloseAll true, e), l2) :: tt3).
  { clear - T LT RL. assert (Q : length t1 = length tt1) by lia. clear LT RL. revert tt1 T Q. induction t1 as [|a t1 IH]; intros [|c tt1] T Q; try discriminate; cbn in *; [auto|]. injection T as -> T. destruct (IH tt1 T ltac:(lia)) as [-> ->]. auto. }
  destruct E as [-> E]. injection E as -> ->. cbn [snd] in R. cbn [step] in ST.
  assert (C1 : t_count s1 = N.of_nat (length (t_conns s1))). { rewrite app_length in L. destruct (reach b h1 ltac:(lia)) as [I _]. rewrite R1 in I. apply (i_count _ _ _ I). }
  pose proof (close_starts e s1 true C1 S) as CS. rewrite ST in CS. cbn [fst snd] in CS. destruct (CS R) as [W CB]. destruct (closing_run b h2 s2 W NC) as [W3 CN]. rewrite R3, CB in *. cbn [fst snd b2n] in *. split; [lia|].
  intros O. rewrite T in OK. rewrite O in OK. destruct (t_cb s3) eqn:X; cbn in CN; [|lia]. exfalso. apply (w_cb _ W3 X). destruct (t_conns s3); [reflexivity|discriminate].
Qed.
