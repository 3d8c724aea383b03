(** Proofs for the properties C44, C45, C73 and C74. *)
From Coq Require Import List NArith PeanoNat Bool Lia.
From Verif Require Import NetModel NetSpec NetProofs NetMore NetHist NetRv.
Import ListNotations.
Local Open Scope N_scope.

(** ** No crash *)
Lemma close_all_out : forall cb sync s x, In x (snd (close_all cb sync s)) -> (exists r, x = Gone r) \/ x = CloseCb \/ exists c, x = Return c.
Proof.
  intros cb sync s x. unfold close_all. pose proof (close_each_out (t_conns s) sync (set_closing true (t_cb s) s) x) as C. destruct (close_each (t_conns s) sync (set_closing true (t_cb s) s)) as [[s1 l] [|]]; cbn [fst snd] in *;
  (rewrite in_app_iff; intros [H|[<-|[]]]; [destruct (C H); auto|eauto]).
Qed.
Lemma crash_step : forall b (m : move) s, distinct s -> rinv s -> data_ok m -> ~ In Crash (snd (step b (snd m) (fst m) s)).
Proof.
  intros b [o e] s D I [D1 D2] H. cbn [fst snd] in *. destruct (rv_step o) eqn:R.
  - destruct (rv_steps b e o s I R) as (_ & sent & _ & E & _). rewrite E in H. apply in_flat_map in H. destruct H as (r & _ & H). unfold packet_of in H. destruct (r_sock r); cbn in H; intuition discriminate.
  - destruct o; cbn [rv_step] in R; try discriminate.
    + rewrite split_packet in H. destruct (target_of h p) as [[]|]; try discriminate; try (cbn in H; intuition discriminate).
      apply out_clients in H; auto. inversion H; subst; try (intuition discriminate). cbn in H0. destruct H0 as [n X]. apply (D1 n). exact X.
    + cbn [step] in H. unfold with_client in H. destruct (from_ref ref s) as [[r0 [k|]]|]; try destruct H. apply out_dtls in H. cbn in H. destruct H as (n & [->|[]]). exact D2.
    + cbn [step] in H. unfold with_client in H. destruct (from_ref ref s) as [[r0 [k|]]|]; try destruct H. unfold send_to_udp in H. destruct (k_sent k); [cbn in H; intuition discriminate|]. cbv zeta in H.
      destruct (_ || _) in H; [|destruct (N.eqb _ _) in H]; cbn in H; intuition discriminate.
    + cbn [step] in H. unfold with_client in H. destruct (from_ref ref s) as [[r0 [k|]]|]; try destruct H. unfold sent_cb in H. destruct (k_sent k); cbn in H; intuition discriminate.
    + destruct H.
    + cbn [step] in H. destruct (alloc (a_mem e) None s) as [s1 [r|]]; cbn in H; intuition discriminate.
    + cbn [step] in H. destruct (from_ref ref s) as [[r0 [k|]]|]; try destruct H. apply destroy_out in H. intuition discriminate.
    + destruct H.
    + cbn [step] in H. apply close_all_out in H. destruct H as [[? H]|[H|[? H]]]; discriminate.
    + destruct H.
Qed.
Lemma no_crash : forall b h, N.of_nat (length h) <= u64_max -> Forall data_ok h -> ~ In Crash (outs (snd (run b init h))).
Proof.
  intros b h. induction h as [|m h IH] using rev_ind; intros L F; [intros []|]. rewrite app_length in L. cbn in L. apply Forall_app in F. destruct F as [F1 F2]. inversion F2; subst.
  rewrite last_run. cbn [snd]. rewrite outs_app, in_app_iff. unfold outs at 2. cbn. rewrite app_nil_r. intros [X|X]; [apply IH in X; auto; lia|].
  revert X. apply crash_step; auto; [apply reach_fresh; lia|apply reach_rinv].
Qed.

(** ** Packets which are not rendezvous packets start with 240 *)
Lemma udp240 : forall b e o s k ep q, distinct s -> cinv b s -> rv_step o = false -> In (Udp k ep q) (snd (step b e o s)) -> nth_error q 0 = Some 240.
Proof.
  intros b e o s k ep q D C R H. destruct o; cbn [rv_step] in R; try discriminate.
  - rewrite split_packet in H. destruct (target_of h p) as [[]|] eqn:T; try discriminate; try (cbn in H; intuition discriminate).
    apply out_clients in H; auto. apply target_head in T. inversion H; subst; try (cbn in *; contradiction); try (intuition discriminate).
    destruct p; [discriminate|]. exact T.
  - cbn [step] in H. unfold with_client in H. destruct (from_ref ref s) as [[r0 [c|]]|]; try destruct H. apply out_dtls in H. destruct H.
  - cbn [step] in H. unfold with_client in H. destruct (from_ref ref s) as [[r0 [c|]]|] eqn:F; try destruct H. apply client_from in F. destruct (c_id _ _ C _ _ F) as (L & Hd & _).
    unfold send_to_udp in H. destruct (k_sent c); [cbn in H; intuition discriminate|]. cbv zeta in H. destruct (k_id c) as [|x i]; [discriminate|].
    destruct (_ || _) in H; [|destruct (N.eqb _ _) in H]; cbn in H; [| |destruct H as [H|[]]; discriminate]; (destruct H as [H|H]; [|destruct H as [H|[]]; discriminate]); injection H as <- <- <-; exact Hd.
  - cbn [step] in H. unfold with_client in H. destruct (from_ref ref s) as [[r0 [c|]]|]; try destruct H. unfold sent_cb in H. destruct (k_sent c); cbn in H; intuition discriminate.
  - destruct H.
  - cbn [step] in H. destruct (alloc (a_mem e) None s) as [s1 [r|]]; cbn in H; intuition discriminate.
  - cbn [step] in H. destruct (from_ref ref s) as [[r0 [c|]]|]; try destruct H. apply destroy_out in H. intuition discriminate.
  - destruct H.
  - cbn [step] in H. apply close_all_out in H. destruct H as [[? H]|[H|[? H]]]; discriminate.
  - destruct H.
Qed.

(** ** C45: counting *)
Definition makes (k ep : nat) (q : list N) (r : rv) : bool :=
  match r_sock r with Some k' => Nat.eqb k k' | None => false end && Nat.eqb ep (r_ep r) && bytes_eqb q (241 :: r_id r ++ [r_chan r; r_type r]).
Lemma makes_packets : forall k ep q l, count (is_packet k ep q) (flat_map packet_of l) = count (makes k ep q) l \/ exists r, In r l /\ r_sock r = None.
Proof.
  intros k ep q l. induction l as [|r l IH]; [left; reflexivity|]. cbn [flat_map]. destruct (r_sock r) as [k'|] eqn:K; [|right; exists r; cbn; auto].
  destruct IH as [IH|(r1 & I & N1)]; [left|right; exists r1; cbn; auto]. rewrite count_app, count_cons, IH. f_equal. unfold packet_of, makes. rewrite K. rewrite count_cons, count_nil. cbn [is_packet]. lia.
Qed.
Lemma last_app : forall (l : list N) x d, last (l ++ [x]) d = x.
Proof. intros. apply last_last. Qed.
Lemma asked_asks : forall k ep q (m : move) s, response q -> (count (makes k ep q) (asked (fst m) s) <= if asks k ep q m then 1 else 0)%nat.
Proof.
  intros k ep q [o e] s [Q1 Q2]. cbn [fst]. unfold asks. cbn [fst]. destruct o; try (cbn; lia); cbn [asked].
  - destruct (target_of h p) as [[]|]; try (cbn; lia). destruct (nth_error p 16) as [t|] eqn:N16; [|cbn; lia]. destruct (nth_error p 15) as [ch|] eqn:N15; [|cbn; lia].
    destruct (Nat.leb_spec 17 (length p)) as [L|L]; [|cbn; lia]. pose proof (nth_error_nth p 16 0 N16) as T. pose proof (nth_error_nth p 15 0 N15) as Ch. unfold answer. rewrite T, Ch.
    destruct (N.eqb_spec t 4) as [->|E4].
    + rewrite count_cons, count_nil. unfold makes. cbn [r_sock r_ep r_id r_chan r_type N.eqb Pos.eqb orb andb]. rewrite !andb_true_r. destruct (_ && _); lia.
    + destruct (N.eqb_spec t 1) as [->|E1]; cbn [andb]; [|cbn; lia]. destruct (from_id (skipn 1 p) s); [|cbn; lia].
      rewrite count_cons, count_nil. unfold makes. cbn [r_sock r_ep r_id r_chan r_type N.eqb Pos.eqb orb andb]. rewrite !andb_true_r. destruct (_ && _); lia.
  - destruct (t_default s) as [k'|]; [|cbn; lia]. rewrite count_cons, count_nil. unfold makes. cbn [r_sock r_ep r_id r_chan r_type].
    destruct (bytes_eqb q (241 :: id ++ [0; 3])) eqn:E; [|rewrite andb_false_r; lia]. apply bytes_eqb_eq in E. exfalso. assert (last q 0 = 3); [|destruct Q2; congruence].
    rewrite E. change (241 :: id ++ [0; 3]) with ((241 :: id) ++ [0; 3]). change [0; 3] with ([0] ++ [3]). rewrite app_assoc. apply last_app.
Qed.
Lemma responses : forall b h k ep q, N.of_nat (length h) <= u64_max -> response q ->
  (count (is_packet k ep q) (outs (snd (run b init h))) + count (makes k ep q) (t_queue (fst (run b init h))) <= count (asks k ep q) h)%nat.
Proof.
  intros b h k ep q. induction h as [|m h IH] using rev_ind; intros L R; [cbn; lia|]. rewrite app_length in L. cbn in L. specialize (IH ltac:(lia) R).
  rewrite last_run. cbn [fst snd]. rewrite outs_app, !count_app, count_cons, count_nil. unfold outs at 2. cbn [flat_map]. rewrite app_nil_r. cbn [snd].
  pose proof (reach_rinv b h) as I. destruct (rv_step (fst m)) eqn:RS.
  - destruct (rv_steps b (snd m) (fst m) _ I RS) as (J & sent & lost & E1 & E2 & E3 & E4). rewrite E1. specialize (E3 (makes k ep q)). pose proof (asked_asks k ep q m (fst (run b init h)) R) as A.
    destruct (makes_packets k ep q sent) as [M|(r & X & Y)]; [rewrite M; lia|]. exfalso.
    assert (Z : In r (asked (fst m) (fst (run b init h)) ++ t_queue (fst (run b init h)))) by (apply E2; apply in_app_iff; auto). apply in_app_iff in Z. destruct Z as [Z|Z]; [|eapply (q_sock _ I); eauto].
    clear - Z Y. destruct (fst m); cbn [asked] in Z; try destruct Z.
    + destruct (target_of h0 p) as [[]|]; try destruct Z. destruct (nth_error p 16); [|destruct Z]. destruct (nth_error p 15); [|destruct Z]. destruct (Nat.leb _ _); [|destruct Z]. destruct (N.eqb n 4); [destruct Z as [<-|[]]; discriminate|].
      destruct (_ && _); [destruct Z as [<-|[]]; discriminate|destruct Z].
    + destruct (t_default _); [destruct Z as [<-|[]]; discriminate|destruct Z].
  - destruct (calm_steps b (snd m) (fst m) (fst (run b init h)) RS) as [C1 C2]. rewrite C1.
    assert (Z : count (is_packet k ep q) (snd (step b (snd m) (fst m) (fst (run b init h)))) = 0%nat); [|lia].
    unfold count. destruct (filter _ _) as [|x l] eqn:F; [reflexivity|]. exfalso. assert (X : In x (x :: l)) by (left; reflexivity). rewrite <- F in X. apply filter_In in X. destruct X as [X1 X2].
    destruct x as [ | |r|r|r|r|r ch d|r d|k' ep' q'|t ok| |c|r| ]; try discriminate. cbn in X2. apply andb_prop in X2. destruct X2 as [_ X2]. apply bytes_eqb_eq in X2. subst q'.
    apply udp240 in X1; auto; [destruct R as [R _]; congruence|apply reach_fresh; lia|apply reach_cinv; lia].
Qed.
Lemma asks_size : forall k ep q m, asks k ep q m = true -> exists h p, fst m = Packet h k ep p /\ target_of h p = Some RendezvousPart /\ length q = 17%nat /\ (17 <= length p)%nat /\ q = answer p /\ (nth_error p 16 = Some 1 \/ nth_error p 16 = Some 4).
Proof.
  intros k ep q [o e] H. unfold asks in H. cbn [fst] in *. destruct o as [h k' ep' p| | | | | | | | | | | ]; try discriminate.
  apply andb_prop in H. destruct H as [H H1]. apply andb_prop in H. destruct H as [H H2]. apply andb_prop in H. destruct H as [H H3]. apply andb_prop in H. destruct H as [H H4]. apply andb_prop in H. destruct H as [H H5].
  apply Nat.eqb_eq in H5, H4. subst k' ep'. apply Nat.leb_le in H3. apply bytes_eqb_eq in H1. exists h, p. split; [reflexivity|]. split; [destruct (target_of h p) as [[]|]; auto; discriminate|].
  split; [subst q; unfold answer; cbn [length]; rewrite app_length; unfold id_of; rewrite firstn_length_le; [reflexivity|rewrite skipn_length; lia]|]. split; [exact H3|]. split; [exact H1|].
  destruct (packet_nth p 16 ltac:(lia)) as [t N16]. rewrite N16. rewrite (nth_error_nth p 16 0 N16) in H2. apply orb_prop in H2. destruct H2 as [H2|H2]; apply N.eqb_eq in H2; subst; auto.
Qed.

(** ** C74 *)
Lemma err_destroy : forall r s, t_err (fst (destroy r s)) = t_err s.
Proof. intros. unfold destroy, free_conn. cbv zeta. destruct (_ && _); reflexivity. Qed.
Lemma err_dtls : forall r ch v s, t_err (fst (handle_dtls r ch v s)) = t_err s.
Proof.
  intros. unfold handle_dtls. destruct (from_ref r s) as [[r0 [k|]]|]; auto. destruct v; auto; [|apply err_destroy]. unfold handle_data. destruct bytes; [reflexivity|]. destruct (_ && _); [destruct (_ && _)|]; reflexivity.
Qed.
Lemma err_all : forall r ch l s, t_err (fst (handle_all r ch l s)) = t_err s.
Proof.
  intros r ch l. induction l as [|v l IH]; intros s; [reflexivity|]. cbn [handle_all]. pose proof (err_dtls r ch v s) as L. destruct (handle_dtls r ch v s) as [s1 a].
  specialize (IH s1). destruct (handle_all r ch l s1) as [s2 c]. cbn in *. congruence.
Qed.
Lemma err_close_each : forall l sync s, t_err (fst (fst (close_each l sync s))) = t_err s.
Proof.
  induction l as [|[r [k|]] l IH]; intros sync s; cbn [close_each]; auto. destruct sync as [|[|] sync]; cbn [tl].
  - specialize (IH [] s). destruct (close_each l [] s) as [[s2 c] x]. exact IH.
  - pose proof (err_destroy r s) as L. destruct (destroy r s) as [s1 a]. specialize (IH sync s1). destruct (close_each l sync s1) as [[s2 c] x]. cbn in *. congruence.
  - specialize (IH sync s). destruct (close_each l sync s) as [[s2 c] x]. exact IH.
Qed.
Lemma err_rv_send : forall m s, t_err (fst (rv_send m s)) = t_err s.
Proof. intros. unfold rv_send. destruct (t_busy s); [reflexivity|]. destruct (t_queue s); [reflexivity|]. destruct m; [|reflexivity]. destruct (r_sock r); reflexivity. Qed.
Lemma err_rv : forall m r s, t_err (fst (rv_queue m r s)) = t_err s.
Proof. intros. unfold rv_queue. destruct (Nat.leb _ _); [reflexivity|]. destruct (match r_sock r with Some k => Some k | None => t_default s end); [rewrite err_rv_send|]; reflexivity. Qed.
Lemma err_rv_packet : forall e k ep p s, t_err (fst (rv_packet e k ep p s)) = t_err s.
Proof.
  intros. unfold rv_packet. destruct (Nat.ltb _ _); [reflexivity|]. destruct (nth_error p 16); [|reflexivity]. destruct (copy 14 (skipn 1 p)); [|reflexivity]. destruct (nth_error p 15); [|reflexivity].
  destruct (N.eqb n 1); [|destruct (N.eqb n 4); [apply err_rv|reflexivity]]. destruct (copy 14 (skipn 2 p)); [|reflexivity]. destruct (from_id (skipn 1 p) s); [apply err_rv|reflexivity].
Qed.
Lemma err_internal : forall k ep p s, (16 <= length p)%nat -> t_err (fst (internal_error k ep p s)) = true.
Proof. intros k ep p s L. unfold internal_error. destruct (t_err s) eqn:E; [exact E|]. destruct (Nat.ltb_spec (length p) 16); [lia|reflexivity]. Qed.
(** After a client packet: an error which came out is being sent; otherwise what was being sent still is. *)
Definition is_udp (x : out) : bool := match x with Udp _ _ _ => true | _ => false end.
Lemma err_clients : forall b e k ep p s, distinct s -> let x := clients_packet b e k ep p s in
  (existsb is_udp (snd x) = true -> t_err s = false /\ t_err (fst x) = true) /\ (t_err s = true -> t_err (fst x) = true).
Proof.
  intros b e k ep p s D. cbv zeta.
  assert (H1 : existsb is_udp (snd (clients_packet b e k ep p s)) = true -> t_err s = false).
  { intros H. apply existsb_exists in H. destruct H as (x & X & Y). apply out_clients in X; auto. destruct x; try discriminate. inversion X; subst; auto; try (cbn in *; contradiction); intuition discriminate. }
  unfold clients_packet in *. destruct (Nat.ltb_spec (length p) 17) as [L|L]; [split; [discriminate|auto]|]. destruct (from_id p s) as [[r [c|]]|].
  - unfold client_packet in *. destruct (nth_error p 15); [|split; [discriminate|auto]]. cbv zeta in *.
    match goal with |- context [handle_all r ?c ?l ?s1] => pose proof (err_all r c l s1) as E; pose proof (out_all r c l s1) as O; destruct (handle_all r c l s1) as [s2 l2] end. cbn [fst snd] in *. split; [|rewrite E; auto].
    intros H. exfalso. cbn in H. apply existsb_exists in H. destruct H as (x & X & Y). apply O in X. destruct x; try discriminate. exact X.
  - split; [discriminate|auto].
  - destruct (nth_error p 16); [|split; [discriminate|auto]]. destruct (nth_error p 15); [|split; [discriminate|auto]]. destruct (copy 16 p) as [i|]; [|split; [discriminate|auto]]. destruct (N.eqb _ _); [|split; [discriminate|auto]]. cbv zeta in *.
    match goal with |- context [alloc ?m ?i s] => pose proof (alloc_err m i s) as A; destruct (alloc m i s) as [s1 [r|]] end; cbn [fst] in A.
    + destruct (a_init e).
      * match goal with |- context [handle_all r ?c ?l ?s1] => pose proof (err_all r c l s1) as E; pose proof (out_all r c l s1) as O; destruct (handle_all r c l s1) as [s2 l2] end. cbn [fst snd] in *. split; [|intros; congruence].
        intros H. exfalso. cbn in H. rewrite existsb_app in H. apply orb_prop in H. destruct H as [H|H]; [destruct b; discriminate|]. apply existsb_exists in H. destruct H as (x & X & Y). apply O in X. destruct x; try discriminate. exact X.
      * pose proof (err_internal k ep p s1 ltac:(lia)) as E. destruct (internal_error k ep p s1) as [s2 l1]. pose proof (err_destroy r s2) as F. destruct (destroy r s2) as [s3 l3]. cbn [fst snd] in *. split; [intros H; split; [auto|congruence]|intros; congruence].
    + pose proof (err_internal k ep p s1 ltac:(lia)) as E. destruct (internal_error k ep p s1) as [s2 l1]. cbn [fst snd] in *. split; auto.
Qed.
Lemma err_step : forall b (m : move) s, fresh s -> cinv b s -> rinv s -> let x := step b (snd m) (fst m) s in
  match fst m with
  | ErrorSent => True
  | _ => (t_err s = true -> t_err (fst x) = true) /\ (error_reply (m, snd x) = true -> t_err s = false /\ t_err (fst x) = true)
  end.
Proof.
  intros b [o e] s F C R. cbv zeta. cbn [fst snd]. unfold error_reply. cbn [fst snd]. pose proof (proj1 F) as D. destruct o; auto; try (split; [|discriminate]); try (cbn [step fst]; auto).
  - fold (step b e (Packet h sock ep p) s). rewrite split_packet. destruct (target_of h p) as [[]|] eqn:T; try (split; [auto|discriminate]).
    + destruct (err_clients b e sock ep p s D) as [A B]. split; [exact B|]. intros H. apply A. apply existsb_exists in H. destruct H as (x & X & Y). apply existsb_exists. exists x. split; [exact X|]. destruct x; auto; discriminate.
    + split; [rewrite err_rv_packet; auto|]. intros H. exfalso. apply existsb_exists in H. destruct H as (x & X & Y). destruct (rv_packet_ok e h sock ep p s R T) as (_ & sent & _ & E & _). rewrite E in X. apply in_flat_map in X.
      destruct X as (r & _ & X). unfold packet_of in X. destruct (r_sock r); [|destruct X]. destruct X as [<-|[]]. discriminate.
  - intros H. unfold with_client. destruct (from_ref ref s) as [[r0 [k|]]|]; auto. rewrite err_dtls. exact H.
  - intros H. unfold with_client. destruct (from_ref ref s) as [[r0 [k|]]|]; auto. unfold send_to_udp. destruct (k_sent k); [exact H|]. cbv zeta. destruct (_ || _); [|destruct (N.eqb _ _)]; exact H.
  - intros H. unfold with_client. destruct (from_ref ref s) as [[r0 [k|]]|]; auto. unfold sent_cb. destruct (k_sent k); exact H.
  - intros H. destruct (t_busy s); [rewrite err_rv_send|]; exact H.
  - rewrite err_rv. auto.
  - pose proof (alloc_err (a_mem e) None s) as A. destruct (alloc (a_mem e) None s) as [s1 [r|]]; cbn [fst] in *; congruence.
  - intros H. destruct (from_ref ref s) as [[r0 [k|]]|]; auto. rewrite err_destroy. exact H.
  - unfold close_all. pose proof (err_close_each (t_conns s) (a_sync e) (set_closing true (t_cb s) s)) as A. destruct (close_each (t_conns s) (a_sync e) (set_closing true (t_cb s) s)) as [[s1 l] [|]]; cbn in *; congruence.
Qed.
Lemma replies : forall b h, N.of_nat (length h) <= u64_max ->
  (count error_reply (snd (run b init h)) <= count error_sent (snd (run b init h)) + (if t_err (fst (run b init h)) then 1 else 0))%nat.
Proof.
  intros b h. induction h as [|m h IH] using rev_ind; intros L; [cbn; lia|]. rewrite app_length in L. cbn in L. specialize (IH ltac:(lia)). rewrite last_run. cbn [fst snd]. rewrite !count_app, !count_cons, !count_nil.
  pose proof (err_step b m (fst (run b init h)) (reach_fresh b h ltac:(lia)) (reach_cinv b h ltac:(lia)) (reach_rinv b h)) as E. cbv zeta in E. unfold error_sent at 2. cbn [fst].
  destruct m as [o e]. cbn [fst snd] in *. destruct o; try (destruct E as [E1 E2]; destruct (error_reply _) in *; [destruct (E2 eq_refl) as [E3 E4]; rewrite E3 in IH; rewrite E4; lia|];
    destruct (t_err (fst (run b init h))); [rewrite (E1 eq_refl); lia|destruct (t_err _); lia]).
  unfold error_reply at 2. cbn. destruct (t_err (fst (run b init h))); lia.
Qed.
