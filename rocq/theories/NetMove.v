(** Proofs for the properties C75 and C76. *)
From Coq Require Import List NArith PeanoNat Bool Lia.
From Verif Require Import NetModel NetSpec NetProofs NetMore NetHist NetRv NetEnd.
Import ListNotations.
Local Open Scope N_scope.

Lemma get_conn : forall r s k, client_at r s = Some k -> exists c, from_ref r s = Some c.
Proof. intros r s k K. unfold client_at in K. destruct (from_ref r s); [eauto|discriminate]. Qed.
Lemma server_step : forall e o s r, fresh s -> cinv ServerBuild s -> rinv s -> ~ In (Changed r) (snd (step ServerBuild e o s)).
Proof.
  intros e o s r F C R. pose proof (proj1 F) as D. destruct o.
  - rewrite split_packet. destruct (target_of h p) as [[]|] eqn:T; try (cbn; intuition discriminate).
    + unfold clients_packet. destruct (Nat.ltb_spec (length p) 17) as [L|L]; [intros []|]. destruct (packet_nth p 16 ltac:(lia)) as [t N16]. destruct (packet_nth p 15 ltac:(lia)) as [ch N15]. destruct (from_id p s) as [c|] eqn:FI.
      * destruct (from_id_some _ _ _ D FI) as (k & Ec & K & I). rewrite Ec. unfold client_packet. rewrite N15. cbv zeta. destruct (get_conn _ _ _ K) as [c0 Hc].
        match goal with |- context [handle_all ?r0 ?c ?l (put ?r1 ?k1 s)] => pose proof (no_change_all r0 c l (put r1 k1 s) k1 r (distinct_put r1 k1 s D)) as G; destruct (handle_all r0 c l (put r1 k1 s)) as [s1 l1] end.
        cbn [snd] in *. intros [H|H]; [discriminate|]. revert H. apply G; [rewrite (at_put _ _ _ _ _ Hc), N.eqb_refl; reflexivity|reflexivity].
      * rewrite N16, N15. unfold copy. destruct (Nat.leb_spec 16 (length p)) as [L16|L16]; [|lia]. destruct (N.eqb_spec t 22) as [->|E22]; [|intros []]. cbv zeta.
        match goal with |- context [alloc ?m ?i s] => set (k0 := i); destruct (alloc m k0 s) as [s1 [r1|]] eqn:A end.
        -- destruct (fresh_alloc _ _ _ _ _ F A) as (D1 & _ & _ & R3). destruct (a_init e).
           ++ match goal with |- context [handle_all r1 ?c ?l s1] => pose proof (fun k => no_change_all r1 c l s1 k r D1) as G; destruct (handle_all r1 c l s1) as [s2 l2] end.
              cbn [snd] in *. intros [H|[H|H]]; [discriminate|discriminate|]. revert H. eapply G; [unfold client_at; rewrite R3, N.eqb_refl; reflexivity|reflexivity].
           ++ pose proof (out_error sock ep p s1 (Changed r)) as O. destruct (internal_error sock ep p s1) as [s2 l1]. cbn [snd] in *. pose proof (destroy_out r1 s2 (Changed r)) as DO. destruct (destroy r1 s2) as [s3 l3]. cbn [snd] in *.
              rewrite in_app_iff. intros [H|H]; [specialize (O H); discriminate|specialize (DO H); intuition discriminate].
        -- intros H. apply out_error in H. discriminate.
    + intros H. destruct (rv_packet_ok e h sock ep p s R T) as (_ & sent & _ & E & _). rewrite E in H. apply in_flat_map in H. destruct H as (x & _ & H). unfold packet_of in H. destruct (r_sock x); cbn in H; intuition discriminate.
  - cbn [step]. unfold with_client. destruct (from_ref ref s) as [[r0 [k|]]|] eqn:E; try (intros []; fail). pose proof (client_from _ _ _ _ E) as K. destruct (c_id _ _ C _ _ K) as (_ & _ & T). apply (no_change_dtls ref (k_told k) v s k r K). symmetry. exact T.
  - cbn [step]. unfold with_client. destruct (from_ref ref s) as [[r0 [k|]]|]; try (intros []; fail). unfold send_to_udp. destruct (k_sent k); [cbn; intuition discriminate|]. cbv zeta. destruct (_ || _); [|destruct (N.eqb _ _)]; cbn; intuition discriminate.
  - cbn [step]. unfold with_client. destruct (from_ref ref s) as [[r0 [k|]]|]; try (intros []; fail). unfold sent_cb. destruct (k_sent k); cbn; intuition discriminate.
  - intros [].
  - intros H. destruct (rv_steps ServerBuild e RendezvousSent s R eq_refl) as (_ & sent & _ & E & _). rewrite E in H. apply in_flat_map in H. destruct H as (x & _ & H). unfold packet_of in H. destruct (r_sock x); cbn in H; intuition discriminate.
  - intros H. destruct (rv_steps ServerBuild e (Rendezvous id ep) s R eq_refl) as (_ & sent & _ & E & _). rewrite E in H. apply in_flat_map in H. destruct H as (x & _ & H). unfold packet_of in H. destruct (r_sock x); cbn in H; intuition discriminate.
  - cbn [step]. destruct (alloc (a_mem e) None s) as [s1 [r1|]]; cbn; intuition discriminate.
  - cbn [step]. destruct (from_ref ref s) as [[r0 [k|]]|]; try (intros []; fail). intros H. apply destroy_out in H. intuition discriminate.
  - intros [].
  - cbn [step]. intros H. apply close_all_out in H. destruct H as [[? H]|[H|[? H]]]; discriminate.
  - intros [].
Qed.
Lemma server_never : forall h r, N.of_nat (length h) <= u64_max -> ~ In (Changed r) (outs (snd (run ServerBuild init h))).
Proof.
  intros h r. induction h as [|m h IH] using rev_ind; intros L; [intros []|]. rewrite app_length in L. cbn in L. rewrite last_run. cbn [snd]. rewrite outs_app, in_app_iff. unfold outs at 2. cbn [flat_map]. rewrite app_nil_r.
  intros [H|H]; [revert H; apply IH; lia|]. revert H. apply server_step; [apply reach_fresh; lia|apply reach_cinv; lia|apply reach_rinv].
Qed.

(** ** Something about all client connections *)
Definition clients_all (Q : client -> Prop) (s : net) : Prop := forall c k, In c (t_conns s) -> n_impl c = Some k -> Q k.
Lemma in_replace : forall r k c l, In c (replace r k l) -> In c l \/ n_impl c = Some k.
Proof. intros r k c l. induction l as [|d l IH]; [intros []|]. cbn. destruct (N.eqb _ _); cbn; intros [<-|H]; cbn; auto. destruct (IH H); auto. Qed.
Lemma in_remove : forall r c l, In c (remove r l) -> In c l.
Proof. intros r c l. induction l as [|d l IH]; [intros []|]. cbn. destruct (N.eqb _ _); cbn; [auto|]. intros [<-|H]; auto. Qed.
Lemma all_put : forall Q r k s, clients_all Q s -> Q k -> clients_all Q (put r k s).
Proof. intros Q r k s A H c k1 I E. cbn in I. apply in_replace in I. destruct I as [I|I]; [eauto|congruence]. Qed.
Lemma all_destroy : forall Q r s, clients_all Q s -> clients_all Q (fst (destroy r s)).
Proof. intros Q r s A c k I. rewrite destroy_conns in I. apply in_remove in I. eauto. Qed.
Lemma all_conns : forall Q s s', clients_all Q s -> t_conns s' = t_conns s -> clients_all Q s'.
Proof. intros Q s s' A E c k I. rewrite E in I. eauto. Qed.
Lemma all_from : forall Q r s r0 k, clients_all Q s -> from_ref r s = Some {| n_ref := r0; n_impl := Some k |} -> Q k.
Proof. intros Q r s r0 k A H. apply find_some in H. destruct H as [H _]. eapply A; eauto. Qed.
Definition below (n : N) (k : client) : Prop := k_max k < n.
Lemma below_dtls : forall n r ch v s, clients_all (below n) s -> (forall x, In x (seq_of v) -> x < n) -> clients_all (below n) (fst (handle_dtls r ch v s)).
Proof.
  intros n r ch v s A H. unfold handle_dtls. destruct (from_ref r s) as [[r0 [k|]]|] eqn:E; auto. pose proof (all_from _ _ _ _ _ A E) as B. destruct v; auto; [|apply all_destroy; auto].
  assert (X : seq < n) by (apply H; left; reflexivity). unfold handle_data. destruct bytes; auto. destruct (_ && _); [destruct (_ && _)|]; auto; apply all_put; auto.
Qed.
Lemma below_all : forall n r ch l s, clients_all (below n) s -> (forall x, In x (flat_map seq_of l) -> x < n) -> clients_all (below n) (fst (handle_all r ch l s)).
Proof.
  intros n r ch l. induction l as [|v l IH]; intros s A H; [exact A|]. cbn [handle_all]. cbn in H. pose proof (below_dtls n r ch v s A ltac:(intros x X; apply H; apply in_app_iff; auto)) as B. destruct (handle_dtls r ch v s) as [s1 a].
  specialize (IH s1 B ltac:(intros x X; apply H; apply in_app_iff; auto)). destruct (handle_all r ch l s1). exact IH.
Qed.
Lemma below_step : forall b n (m : move) s, 0 < n -> clients_all (below n) s -> (forall x, In x (seqs [m]) -> x < n) -> clients_all (below n) (fst (step b (snd m) (fst m) s)).
Proof.
  intros b n [o e] s Z A H. unfold seqs in H. cbn in H. rewrite app_nil_r in H. cbn [fst snd]. assert (HA : forall x, In x (flat_map seq_of (a_dtls e)) -> x < n) by (intros x X; apply H; apply in_app_iff; auto). destruct o.
  - rewrite split_packet. destruct (target_of h p) as [[]|]; auto; [|eapply all_conns; [exact A|apply conns_rv_packet]].
    unfold clients_packet. destruct (Nat.ltb _ _); [exact A|]. destruct (from_id p s) as [[r [c|]]|] eqn:FI; [|exact A|].
    + unfold client_packet. destruct (nth_error p 15); [|exact A]. cbv zeta. assert (B : below n c) by (apply find_some in FI; destruct FI as [FI _]; eapply A; eauto).
      match goal with |- context [handle_all r ?c ?l (put r ?k1 s)] => pose proof (below_all n r c l (put r k1 s)) as L; assert (P : clients_all (below n) (put r k1 s)) by (apply all_put; auto; destruct (N.eqb _ _); exact B); destruct (handle_all r c l (put r k1 s)) end. apply L; auto.
    + destruct (nth_error p 16); [|exact A]. destruct (nth_error p 15) as [ch|]; [|exact A]. destruct (copy 16 p); [|exact A]. destruct (N.eqb _ _); [|exact A]. cbv zeta.
      match goal with |- context [alloc ?m ?i s] => destruct (alloc m i s) as [s1 [r|]] eqn:AL end.
      * assert (B : clients_all (below n) s1). { intros c k I E. destruct (alloc_some _ _ _ _ _ AL) as [C _]. rewrite C in I. apply in_app_iff in I. destruct I as [I|[<-|[]]]; [eauto|]. cbn in E. injection E as <-. exact Z. }
        destruct (a_init e).
        -- pose proof (below_all n r ch (a_dtls e) s1 B HA) as L. destruct (handle_all r ch (a_dtls e) s1). exact L.
        -- pose proof (conns_error sock ep p s1) as CE. destruct (internal_error sock ep p s1) as [s2 l1]. cbn [fst] in CE. pose proof (all_destroy (below n) r s2 (all_conns _ _ _ B CE)) as X. destruct (destroy r s2). exact X.
      * apply alloc_none in AL. eapply all_conns; [exact A|]. rewrite conns_error. exact AL.
  - cbn [step]. unfold with_client. destruct (from_ref ref s) as [[r0 [k|]]|]; auto. apply below_dtls; auto. intros x X. apply H. apply in_app_iff. auto.
  - cbn [step]. unfold with_client. destruct (from_ref ref s) as [[r0 [k|]]|] eqn:E; auto. pose proof (all_from _ _ _ _ _ A E) as B. unfold send_to_udp. destruct (k_sent k); auto. cbv zeta. destruct (_ || _); [|destruct (N.eqb _ _)]; apply all_put; auto.
  - cbn [step]. unfold with_client. destruct (from_ref ref s) as [[r0 [k|]]|] eqn:E; auto. pose proof (all_from _ _ _ _ _ A E) as B. unfold sent_cb. destruct (k_sent k); auto. apply all_put; auto.
  - exact A.
  - cbn [step]. destruct (t_busy s); auto. eapply all_conns; [exact A|]. rewrite conns_rv_send. reflexivity.
  - cbn [step]. eapply all_conns; [exact A|apply conns_rv].
  - cbn [step]. destruct (alloc (a_mem e) None s) as [s1 [r|]] eqn:AL; [|eapply all_conns; [exact A|]; apply alloc_none in AL; exact AL].
    intros c k I E. cbn [fst] in I. destruct (alloc_some _ _ _ _ _ AL) as [C _]. rewrite C in I. apply in_app_iff in I. destruct I as [I|[<-|[]]]; [eauto|discriminate].
  - cbn [step]. destruct (from_ref ref s) as [[r0 [k|]]|]; auto. apply all_destroy. exact A.
  - exact A.
  - cbn [step]. unfold close_all. assert (G : forall l sync s, clients_all (below n) s -> clients_all (below n) (fst (fst (close_each l sync s)))).
    { clear. induction l as [|[r [k|]] l IH]; intros sync s A; cbn [close_each]; auto. destruct sync as [|[|] sync]; cbn [tl].
      - specialize (IH [] s A). destruct (close_each l [] s) as [[s2 c] x]. exact IH.
      - pose proof (all_destroy (below n) r s A) as L. destruct (destroy r s) as [s1 a]. specialize (IH sync s1 L). destruct (close_each l sync s1) as [[s2 c] x]. exact IH.
      - specialize (IH sync s A). destruct (close_each l sync s) as [[s2 c] x]. exact IH. }
    specialize (G (t_conns s) (a_sync e) (set_closing true (t_cb s) s) A). destruct (close_each (t_conns s) (a_sync e) (set_closing true (t_cb s) s)) as [[s1 l] [|]]; exact G.
  - exact A.
Qed.
Lemma reach_below : forall b h n, 0 < n -> (forall x, In x (seqs h) -> x < n) -> clients_all (below n) (fst (run b init h)).
Proof.
  intros b h n Z. induction h as [|m h IH] using rev_ind; intros H; [intros c k []|]. rewrite last_run. cbn [fst]. unfold seqs in *. rewrite flat_map_app in H. apply below_step; auto.
  - apply IH. intros x X. apply H. apply in_app_iff. auto.
  - intros x X. apply H. apply in_app_iff. auto.
Qed.
Lemma follows_client : forall h hd sock ep p e r c ch seq ty bytes, N.of_nat (length h) < u64_max -> let s := fst (run ClientOnlyBuild init h) in
  target_of hd p = Some Clients -> (17 <= length p)%nat -> conn_id r s = Some (id_of p) -> channel r s = Some c -> nth_error p 15 = Some ch -> ch <> c ->
  a_dtls e = [Data seq (ty :: bytes)] -> ty <> 4 -> 0 < seq -> (forall x, In x (seqs h) -> x < seq) ->
  let x := step ClientOnlyBuild e (Packet hd sock ep p) s in In (Changed r) (snd x) /\ endpoint r (fst x) = Some (sock, ep) /\ channel r (fst x) = Some ch.
Proof.
  intros h hd sock ep p e r c ch seq ty bytes L s T LP CI CH N15 NE DT TY SZ SE. cbv zeta. rewrite split_packet, T. pose proof (reach_fresh ClientOnlyBuild h L) as F. fold s in F. pose proof (proj1 F) as D.
  pose proof (reach_cinv ClientOnlyBuild h ltac:(lia)) as C. fold s in C. pose proof (reach_below ClientOnlyBuild h seq SZ SE) as B. fold s in B. clearbody s.
  rewrite conn_id_at in CI. rewrite channel_at in CH. destruct (client_at r s) as [k|] eqn:K; [|discriminate]. injection CI as CI. injection CH as CH.
  unfold clients_packet. destruct (Nat.ltb_spec (length p) 17) as [X|X]; [lia|]. destruct (from_id p s) as [c0|] eqn:FI; [|exfalso; eapply from_id_none; eauto].
  destruct (from_id_some _ _ _ D FI) as (k1 & Ec & K1 & I1). assert (R : n_ref c0 = r) by (eapply (c_one _ _ C); eauto; congruence). destruct c0 as [r0 i0]. cbn [n_ref] in *. injection Ec as ->. subst r0. rewrite K1 in K. injection K as ->.
  unfold client_packet. rewrite N15. cbv zeta. destruct (N.eqb_spec ch (ch_id (k_cur k))) as [Y|Y]; [congruence|]. cbn [k_cur with_alt with_told]. rewrite DT. cbn [handle_all]. unfold handle_dtls.
  destruct (get_conn _ _ _ K1) as [c1 Hc1]. assert (PF : forall kk, from_ref r (put r kk s) = Some {| n_ref := r; n_impl := Some kk |}).
  { intros kk. unfold from_ref, put. cbn [t_conns set_conns]. rewrite find_replace. unfold from_ref in Hc1. rewrite Hc1, N.eqb_refl. reflexivity. }
  rewrite PF. unfold handle_data. destruct (N.eqb_spec ty 4) as [Z|Z]; [congruence|]. cbn [negb andb with_told with_alt k_max k_cur k_alt with_max].
  assert (M : k_max k < seq). { unfold client_at in K1. destruct (from_ref r s) as [[r0 [k2|]]|] eqn:Q; try discriminate. injection K1 as ->. exact (all_from _ _ _ _ _ B Q). }
  apply N.ltb_lt in M. rewrite M. cbn [ch_id]. destruct (N.eqb_spec (ch_id (k_cur k)) ch) as [W|W]; [congruence|]. rewrite N.eqb_refl. cbn [negb andb fst snd app].
  split; [right; left; reflexivity|]. unfold endpoint, channel. match goal with |- context [from_ref r (put r ?a (put r ?b s))] => assert (PP : from_ref r (put r a (put r b s)) = Some {| n_ref := r; n_impl := Some a |}) end.
  { unfold from_ref, put. cbn [t_conns set_conns]. rewrite !find_replace. unfold from_ref in Hc1. rewrite Hc1, N.eqb_refl. reflexivity. }
  rewrite PP. split; reflexivity.
Qed.

(** ** C76 *)
Definition same_sent (r : N) (k k' : client) : Prop := k_sent k' = k_sent k.
Lemma same_sent_data : forall r0 ch auth r k k', by_data r0 ch auth r k k' -> same_sent r k k'.
Proof. intros r0 ch auth r k k' (A & B & C & D). exact C. Qed.
(** Every client connection after was there before with the same send, or is new. *)
Definition sends (s : net) (x : net * list out) : Prop :=
  forall r k', client_at r (fst x) = Some k' -> (exists k, client_at r s = Some k /\ k_sent k' = k_sent k) \/ t_ref s < r /\ k_sent k' = None.
Lemma sends_follows : forall s x, follows same_sent s (fst x) -> sends s x.
Proof. intros s x [_ F] r k' X. left. exact (F r k' X). Qed.
Lemma sends_same : forall s x, distinct s -> t_conns (fst x) = t_conns s -> sends s x.
Proof. intros s x D E. apply sends_follows. apply follows_same; auto. intros. reflexivity. Qed.
Lemma sends_other : forall b e o s, fresh s -> (forall r c d t, o <> Send r c d t) -> (forall r ok, o <> Sent r ok) -> sends s (step b e o s).
Proof.
  intros b e o s F NS NT. pose proof (proj1 F) as D. destruct o.
  - rewrite split_packet. destruct (target_of h p) as [[]|]; try solve [apply sends_same; auto]; [|apply sends_same; [exact D|apply conns_rv_packet]].
    unfold clients_packet. destruct (Nat.ltb_spec (length p) 17) as [L|L]; [apply sends_same; auto|]. destruct (packet_nth p 16 ltac:(lia)) as [t N16]. destruct (packet_nth p 15 ltac:(lia)) as [ch N15]. destruct (from_id p s) as [c|] eqn:FI.
    + destruct (from_id_some _ _ _ D FI) as (k & Ec & K & I). rewrite Ec. unfold client_packet. rewrite N15. cbv zeta. set (r0 := n_ref c) in *. clearbody r0. clear c Ec FI.
      match goal with |- context [handle_all r0 ?c ?l (put r0 ?k1 s)] => pose proof (follows_all r0 c l (put r0 k1 s) (distinct_put r0 k1 s D)) as G; assert (P : follows same_sent s (put r0 k1 s)) end.
      { eapply follows_put; eauto; [intros; reflexivity|]. unfold same_sent. destruct (N.eqb _ _); reflexivity. }
      match goal with |- context [handle_all ?r0 ?c ?l ?s1] => destruct (handle_all r0 c l s1) as [s2 l2] end. apply sends_follows. cbn [fst] in *.
      eapply follows_trans; [|exact P|exact G]. intros r a x y A B. apply same_sent_data in B. unfold same_sent in *. congruence.
    + rewrite N16, N15. unfold copy. destruct (Nat.leb_spec 16 (length p)) as [L16|L16]; [|lia]. destruct (N.eqb_spec t 22) as [->|E22]; [|apply sends_same; auto]. cbv zeta.
      match goal with |- context [alloc ?m ?i s] => set (k0 := i); destruct (alloc m k0 s) as [s1 [r1|]] eqn:A end.
      * destruct (fresh_alloc _ _ _ _ _ F A) as (D1 & R1 & R2 & R3). destruct (a_init e).
        -- pose proof (follows_all r1 ch (a_dtls e) s1 D1) as [_ G]. destruct (handle_all r1 ch (a_dtls e) s1) as [s2 l2]. cbn [fst] in G. intros r k' X. destruct (G r k' X) as (k1 & X1 & B). apply same_sent_data in B. unfold client_at in X1. rewrite R3 in X1.
           destruct (N.eqb_spec r r1) as [->|E]; [right|left; exists k1; split; [exact X1|exact B]]. unfold k0 in X1. injection X1 as <-. split; [lia|exact B].
        -- pose proof (conns_error sock ep p s1) as CE. destruct (internal_error sock ep p s1) as [s2 l1]. cbn [fst] in CE. assert (D2 : distinct s2) by (unfold distinct; rewrite CE; exact D1).
           pose proof (fun r => at_destroy r r1 s2 D2) as AD. destruct (destroy r1 s2) as [s3 l3]. intros r k' X. left. exists k'. split; [|reflexivity]. cbn [fst] in *. rewrite AD in X. destruct (N.eqb_spec r r1); [discriminate|].
           unfold client_at in *. assert (Q : from_ref r s2 = from_ref r s1) by (unfold from_ref; rewrite CE; reflexivity). rewrite Q, R3 in X. destruct (N.eqb_spec r r1); [congruence|exact X].
      * apply alloc_none in A. apply sends_same; auto. rewrite conns_error. exact A.
  - cbn [step]. unfold with_client. destruct (from_ref ref s) as [[r0 [k|]]|]; try solve [apply sends_same; auto]. apply sends_follows. eapply follows_weaken; [|apply follows_dtls; exact D]. intros r a c B. eapply same_sent_data; eauto.
  - exfalso. eapply NS. reflexivity.
  - exfalso. eapply NT. reflexivity.
  - apply sends_same; auto.
  - cbn [step]. destruct (t_busy s); apply sends_same; auto. rewrite conns_rv_send. reflexivity.
  - apply sends_same; auto. apply conns_rv.
  - cbn [step]. destruct (alloc (a_mem e) None s) as [s1 [r1|]] eqn:A; [|apply alloc_none in A; apply sends_same; auto].
    destruct (fresh_alloc _ _ _ _ _ F A) as (D1 & R1 & R2 & R3). intros r k' X. left. exists k'. split; [|reflexivity]. unfold client_at in *. cbn [fst] in X. rewrite R3 in X. destruct (N.eqb_spec r r1); [discriminate|exact X].
  - cbn [step]. destruct (from_ref ref s) as [[r0 [k|]]|]; try solve [apply sends_same; auto]. apply sends_follows. apply follows_destroy; auto. intros; reflexivity.
  - apply sends_same; auto.
  - cbn [step]. unfold close_all. pose proof (effect_close (t_conns s) (a_sync e) (set_closing true (t_cb s) s) D) as G.
    assert (G' : forall l sync s, distinct s -> follows same_sent s (fst (fst (close_each l sync s)))).
    { clear. induction l as [|[r [k|]] l IH]; intros sync s D; cbn [close_each]; auto; try (apply follows_same; [intros; reflexivity|exact D|reflexivity]). destruct sync as [|[|] sync]; cbn [tl].
      - specialize (IH [] s D). destruct (close_each l [] s) as [[s2 c] x]. exact IH.
      - pose proof (follows_destroy same_sent s r D ltac:(intros; reflexivity)) as F. destruct (destroy r s) as [s1 a]. cbn [fst] in F. specialize (IH sync s1 (proj1 F)). destruct (close_each l sync s1) as [[s2 c] x]. eapply follows_trans; [|exact F|exact IH]. unfold same_sent. intuition congruence.
      - specialize (IH sync s D). destruct (close_each l sync s) as [[s2 c] x]. exact IH. }
    specialize (G' (t_conns s) (a_sync e) (set_closing true (t_cb s) s) D). destruct (close_each (t_conns s) (a_sync e) (set_closing true (t_cb s) s)) as [[s1 l] [|]]; apply sends_follows; exact G'.
  - apply sends_same; auto.
Qed.
Lemma ref_grows : forall b h m, N.of_nat (length h) < u64_max -> t_ref (fst (run b init h)) <= t_ref (fst (step b (snd m) (fst m) (fst (run b init h)))).
Proof.
  intros b h m L. assert (G : forall r, t_ref (fst (destroy r (fst (run b init h)))) = t_ref (fst (run b init h))) by (intros; apply destroy_ref). clear G.
  pose proof (reach_fresh b h L) as F. set (s := fst (run b init h)) in *. clearbody s. destruct m as [o e]. cbn [fst snd].
  assert (AL : forall mm i, t_ref s <= t_ref (fst (alloc mm i s))).
  { intros mm i. unfold alloc, next_ref. cbv zeta. destruct (N.leb _ _); [cbn; lia|]. destruct mm; [|cbn; lia]. rewrite (N.mod_small (t_ref s + 1)) by (destruct F as (_ & _ & F); unfold u64_max in *; lia). destruct (N.ltb _ _); cbn; lia. }
  assert (RD : forall r ch v s, t_ref (fst (handle_dtls r ch v s)) = t_ref s) by (intros; apply quiet_dtls).
  assert (RA : forall r ch l s, t_ref (fst (handle_all r ch l s)) = t_ref s) by (intros; apply quiet_all).
  destruct o; cbn [step fst]; try apply N.le_refl.
  - fold (step b e (Packet h0 sock ep p) s). rewrite split_packet. destruct (target_of h0 p) as [[]|]; cbn [fst]; try lia.
    + unfold clients_packet. destruct (Nat.ltb _ _); [cbn; lia|]. destruct (from_id p s) as [[r [c|]]|]; [|cbn; lia|].
      * unfold client_packet. destruct (nth_error p 15); [|cbn; lia]. cbv zeta.
        match goal with |- context [handle_all r ?c ?l (put r ?k1 s)] => pose proof (RA r c l (put r k1 s)) as X; destruct (handle_all r c l (put r k1 s)) end. cbn in *. lia.
      * destruct (nth_error p 16); [|cbn; lia]. destruct (nth_error p 15) as [ch|]; [|cbn; lia]. destruct (copy 16 p); [|cbn; lia]. destruct (N.eqb _ _); [|cbn; lia]. cbv zeta.
        match goal with |- context [alloc ?m ?i s] => specialize (AL m i); destruct (alloc m i s) as [s1 [r|]] end; cbn [fst] in AL.
        -- destruct (a_init e); [pose proof (RA r ch (a_dtls e) s1) as X; destruct (handle_all r ch (a_dtls e) s1); cbn in *; lia|].
           assert (X : t_ref (fst (internal_error sock ep p s1)) = t_ref s1) by (unfold internal_error; destruct (t_err s1); [reflexivity|]; destruct (Nat.ltb _ _); reflexivity). destruct (internal_error sock ep p s1) as [s2 l1].
           pose proof (destroy_ref r s2) as Y. destruct (destroy r s2). cbn in *. lia.
        -- assert (X : t_ref (fst (internal_error sock ep p s1)) = t_ref s1) by (unfold internal_error; destruct (t_err s1); [reflexivity|]; destruct (Nat.ltb _ _); reflexivity). lia.
    + pose proof (quiet_rv e sock ep p s) as (_ & Q & _). rewrite Q. lia.
  - unfold with_client. destruct (from_ref ref s) as [[r0 [k|]]|]; cbn [fst]; try lia. rewrite RD. lia.
  - unfold with_client. destruct (from_ref ref s) as [[r0 [k|]]|]; cbn [fst]; try lia. unfold send_to_udp. destruct (k_sent k); [cbn; lia|]. cbv zeta. destruct (_ || _); [|destruct (N.eqb _ _)]; cbn; lia.
  - unfold with_client. destruct (from_ref ref s) as [[r0 [k|]]|]; cbn [fst]; try lia. unfold sent_cb. destruct (k_sent k); cbn; lia.
  - destruct (t_busy s); [|cbn; lia]. pose proof (quiet_rv_send (a_buf e) (set_queue (t_queue s) false s)) as (_ & Q & _). rewrite Q. cbn. lia.
  - pose proof (quiet_rv_queue (a_buf e) {| r_type := 3; r_id := id; r_chan := 0; r_sock := None; r_ep := ep |} s) as (_ & Q & _). rewrite Q. lia.
  - specialize (AL (a_mem e) None). destruct (alloc (a_mem e) None s) as [s1 [r|]]; exact AL.
  - destruct (from_ref ref s) as [[r0 [k|]]|]; cbn [fst]; try lia. rewrite destroy_ref. lia.
  - unfold close_all. assert (G : forall l sync s, t_ref (fst (fst (close_each l sync s))) = t_ref s).
    { clear. induction l as [|[r [k|]] l IH]; intros sync s; cbn [close_each]; auto. destruct sync as [|[|] sync]; cbn [tl].
      - specialize (IH [] s). destruct (close_each l [] s) as [[s2 c] x]. exact IH.
      - pose proof (destroy_ref r s) as L. destruct (destroy r s) as [s1 a]. specialize (IH sync s1). destruct (close_each l sync s1) as [[s2 c] x]. cbn in *. congruence.
      - specialize (IH sync s). destruct (close_each l sync s) as [[s2 c] x]. exact IH. }
    specialize (G (t_conns s) (a_sync e) (set_closing true (t_cb s) s)). destruct (close_each (t_conns s) (a_sync e) (set_closing true (t_cb s) s)) as [[s1 l] [|]]; cbn in *; lia.
Qed.
Lemma is_pending : forall b h, N.of_nat (length h) <= u64_max -> (forall r k, client_at r (fst (run b init h)) = Some k -> k_sent k = pending r (snd (run b init h))) /\
  (forall r, t_ref (fst (run b init h)) < r -> pending r (snd (run b init h)) = None).
Proof.
  intros b h. induction h as [|m h IH] using rev_ind; intros L; [split; [discriminate|reflexivity]|]. rewrite app_length in L. cbn in L. destruct (IH ltac:(lia)) as [A B]. pose proof (ref_grows b h m ltac:(lia)) as G.
  rewrite last_run. cbn [fst snd]. pose proof (reach_fresh b h ltac:(lia)) as F. pose proof (proj1 F) as D. set (s := fst (run b init h)) in *. set (t := snd (run b init h)) in *. clearbody s t.
  assert (P : forall r, pending r (t ++ [(m, snd (step b (snd m) (fst m) s))]) = pending_after r (pending r t) (m, snd (step b (snd m) (fst m) s))) by (intros; unfold pending; rewrite fold_left_app; reflexivity).
  destruct m as [o e]. cbn [fst snd] in *.
  assert (NI : forall r k, client_at r s = Some k -> r <= t_ref s) by (intros r k K; destruct (get_conn _ _ _ K) as [c Hc]; apply from_ref_key in Hc; apply F; apply Hc).
  destruct (match o with Send _ _ _ _ | Sent _ _ => true | _ => false end) eqn:O.
  - destruct o as [ | |ref ch bytes tok|ref ok| | | | | | | | ]; try discriminate.
    + split.
      * intros r k' X. rewrite P. unfold pending_after. cbn [fst snd step] in *. unfold with_client in *. destruct (from_ref ref s) as [[r0 [k|]]|] eqn:E.
        -- pose proof (client_from _ _ _ _ E) as K. unfold send_to_udp in *. destruct (k_sent k) eqn:KS.
           ++ cbn [existsb snd fst] in *. rewrite andb_false_r. auto.
           ++ cbv zeta in *. assert (Y : client_at r (put ref (with_sent (Some tok) k) s) = Some k') by (destruct (_ || _); [|destruct (N.eqb _ _)]; exact X).
              rewrite (at_put _ _ _ _ _ E) in Y. assert (Z : existsb (fun y => match y with Return Ok => true | _ => false end) (snd (if N.eqb ch (ch_id (k_cur k)) || N.eqb ch 255 then (put ref (with_sent (Some tok) k) s, [Udp (ch_sock (k_cur k)) (ch_ep (k_cur k)) (firstn 15 (k_id k) ++ [ch_id (k_cur k)] ++ bytes); Return Ok]) else if N.eqb ch (ch_id (k_alt k)) then (put ref (with_sent (Some tok) k) s, [Udp (ch_sock (k_alt k)) (ch_ep (k_alt k)) (firstn 15 (k_id k) ++ [ch_id (k_alt k)] ++ bytes); Return Ok]) else (put ref (with_sent (Some tok) k) s, [Return Ok]))) = true) by (destruct (_ || _); [|destruct (N.eqb _ _)]; reflexivity).
              rewrite Z, andb_true_r. destruct (N.eqb_spec r ref) as [->|N0]; [injection Y as <-; reflexivity|auto].
        -- cbn [existsb snd fst] in *. rewrite andb_false_r. auto.
        -- cbn [existsb snd fst] in *. rewrite andb_false_r. auto.
      * intros r X. rewrite P. unfold pending_after. cbn [fst]. destruct (N.eqb_spec r ref) as [->|N0]; [|apply B; lia]. destruct (existsb _ _) eqn:Z; [|apply B; lia]. exfalso. cbn [step snd] in Z. unfold with_client in Z.
        destruct (from_ref ref s) as [[r0 [k|]]|] eqn:E; try discriminate. apply client_from in E. apply NI in E. lia.
    + split.
      * intros r k' X. rewrite P. unfold pending_after. cbn [fst snd step] in *. unfold with_client in X. destruct (from_ref ref s) as [[r0 [k|]]|] eqn:E.
        -- pose proof (client_from _ _ _ _ E) as K. unfold sent_cb in X. destruct (k_sent k) eqn:KS; cbn [fst] in X.
           ++ rewrite (at_put _ _ _ _ _ E) in X. destruct (N.eqb_spec r ref) as [->|N0]; [injection X as <-; reflexivity|auto].
           ++ destruct (N.eqb_spec r ref) as [->|N0]; [congruence|auto].
        -- cbn [fst] in X. destruct (N.eqb_spec r ref) as [->|N0]; [unfold client_at in X; rewrite E in X; discriminate|auto].
        -- cbn [fst] in X. destruct (N.eqb_spec r ref) as [->|N0]; [unfold client_at in X; rewrite E in X; discriminate|auto].
      * intros r X. rewrite P. unfold pending_after. cbn [fst]. destruct (N.eqb_spec r ref); [reflexivity|apply B; lia].
  - assert (Q : forall r, pending r (t ++ [((o, e), snd (step b e o s))]) = pending r t) by (intros r; rewrite P; unfold pending_after; cbn [fst]; destruct o; try reflexivity; discriminate).
    pose proof (sends_other b e o s F ltac:(intros; intros ->; discriminate) ltac:(intros; intros ->; discriminate)) as S. split.
    + intros r k' X. rewrite Q. destruct (S r k' X) as [(k & K & E)|[E1 E2]]; [rewrite E; auto|rewrite E2; symmetry; apply B; exact E1].
    + intros r X. rewrite Q. apply B. lia.
Qed.
Lemma send_result : forall b h r ch bytes tok e, N.of_nat (length h) <= u64_max -> let s := fst (run b init h) in channel r s <> None ->
  let l := snd (step b e (Send r ch bytes tok) s) in
  match pending r (snd (run b init h)) with Some _ => l = [Return InProgress] | None => exists a, l = a ++ [Return Ok] end.
Proof.
  intros b h r ch bytes tok e L s CH. cbv zeta. rewrite channel_at in CH. destruct (client_at r s) as [k|] eqn:K; [|congruence]. destruct (is_pending b h L) as [P _]. rewrite <- (P r k K). unfold client_at in K. cbn [step]. unfold with_client.
  destruct (from_ref r s) as [[r0 [k0|]]|]; try discriminate. injection K as ->. unfold send_to_udp. destruct (k_sent k); [reflexivity|]. cbv zeta. destruct (_ || _); [|destruct (N.eqb _ _)]; cbn [snd]; [eexists [_]|eexists [_]|exists []]; reflexivity.
Qed.
Lemma sent_result : forall b h r ok e, N.of_nat (length h) <= u64_max -> let s := fst (run b init h) in channel r s <> None ->
  snd (step b e (Sent r ok) s) = match pending r (snd (run b init h)) with Some tok => [SentCb tok ok] | None => [] end.
Proof.
  intros b h r ok e L s CH. cbv zeta. rewrite channel_at in CH. destruct (client_at r s) as [k|] eqn:K; [|congruence]. destruct (is_pending b h L) as [P _]. rewrite <- (P r k K). unfold client_at in K. cbn [step]. unfold with_client.
  destruct (from_ref r s) as [[r0 [k0|]]|]; try discriminate. injection K as ->. unfold sent_cb. destruct (k_sent k); reflexivity.
Qed.
Lemma send_packet : forall b h r ch c i bytes tok e, N.of_nat (length h) <= u64_max -> let s := fst (run b init h) in channel r s = Some c -> conn_id r s = Some i ->
  pending r (snd (run b init h)) = None -> ch = 255 \/ ch = c ->
  exists k ep, endpoint r s = Some (k, ep) /\ snd (step b e (Send r ch bytes tok) s) = [Udp k ep (240 :: i ++ [c] ++ bytes); Return Ok].
Proof.
  intros b h r ch c i bytes tok e L s CH CI PE CC. rewrite channel_at in CH. rewrite conn_id_at in CI. rewrite endpoint_at. destruct (client_at r s) as [k|] eqn:K; [|discriminate]. injection CH as CH. injection CI as CI. destruct (is_pending b h L) as [P _]. rewrite <- (P r k K) in PE.
  destruct (c_id _ _ (reach_cinv b h L) r k K) as (L1 & L2 & _). exists (ch_sock (k_cur k)), (ch_ep (k_cur k)). split; [reflexivity|]. unfold client_at in K. cbn [step]. unfold with_client.
  destruct (from_ref r s) as [[r0 [k0|]]|]; try discriminate. injection K as ->. unfold send_to_udp. rewrite PE. cbv zeta.
  assert (Z : N.eqb ch (ch_id (k_cur k)) || N.eqb ch 255 = true) by (destruct CC as [->| ->]; [apply orb_true_r|rewrite CH, N.eqb_refl; reflexivity]). rewrite Z. cbn [snd]. rewrite CH, <- CI.
  destruct (k_id k) as [|x l]; [discriminate|]. cbn in L2. injection L2 as ->. reflexivity.
Qed.
