(** Proofs for the properties C43, C44, C75 and C76: histories and outputs. *)
From Coq Require Import List NArith PeanoNat Bool Lia.
From Verif Require Import NetModel NetSpec NetProofs NetMore.
Import ListNotations.
Local Open Scope N_scope.

Lemma reach_fresh : forall b h, N.of_nat (length h) < u64_max -> fresh (fst (run b init h)).
Proof.
  intros b h L. destruct (reach b h ltac:(lia)) as [I R]. split; [unfold distinct; rewrite (i_map _ _ _ I); apply (i_nd _ _ _ I)|]. split; [|lia].
  intros r X. rewrite (i_map _ _ _ I) in X. apply (i_le _ _ _ I). apply (i_incl _ _ _ I). exact X.
Qed.
Definition told_ok (b : build) (k : client) : Prop := k_told k = match b with ServerBuild => ch_id (k_cur k) | ClientOnlyBuild => 255 end.
Record cinv (b : build) (s : net) : Prop := {
  c_id : forall r k, client_at r s = Some k -> length (k_id k) = 16%nat /\ nth_error (k_id k) 0 = Some 240 /\ told_ok b k;
  c_one : forall r1 r2 k1 k2, client_at r1 s = Some k1 -> client_at r2 s = Some k2 -> id_of (k_id k1) = id_of (k_id k2) -> r1 = r2 }.
Lemma target_head : forall h p, target_of h p = Some Clients -> nth_error p 0 = Some 240.
Proof.
  intros h p H. destruct p as [|x p]; [discriminate|]. unfold target_of in H. destruct (h_stun h && _); [discriminate|]. destruct (h_attacher h && _ && _); [discriminate|].
  destruct (h_clients h && _) eqn:E; [|destruct (h_rendezvous h && _); discriminate]. apply andb_prop in E. destruct E as [_ E]. apply N.eqb_eq in E. subst. reflexivity.
Qed.
Lemma fate_told : forall b e s k k' r o, told_ok b k -> fate b e s k k' r o -> told_ok b k'.
Proof.
  intros b e s k k' r o T F. unfold told_ok in *. destruct F as [o A B|h sock ep p _ _ _ A B|h sock ep p id -> _ _ _ _ _ A B|v _ A B C].
  - rewrite A. destruct B as [B|B]; congruence.
  - rewrite A, B. reflexivity.
  - exact B.
  - destruct b; [congruence|]. congruence.
Qed.
Lemma cinv_step : forall b e o s, fresh s -> cinv b s -> cinv b (fst (step b e o s)).
Proof.
  intros b e o s F [C1 C2]. destruct (effect_step b e o s F) as [D E].
  assert (B : forall r k, born b s k r o (snd (step b e o s)) -> length (k_id k) = 16%nat /\ nth_error (k_id k) 0 = Some 240 /\ told_ok b k).
  { intros r k (h & sock & ep & p & ch & -> & T & L & _ & N15 & FI & I & Ch & Tl & _). rewrite I. split; [apply firstn_length_le; lia|].
    split; [|unfold told_ok; rewrite Ch; exact Tl]. apply target_head in T. destruct p; [discriminate|]. exact T. }
  assert (U : forall r k r1 k1, born b s k r o (snd (step b e o s)) -> client_at r1 s = Some k1 -> id_of (k_id k1) <> id_of (k_id k)).
  { intros r k r1 k1 (h & sock & ep & p & ch & -> & T & L & _ & N15 & FI & I & _) K. rewrite I. replace (id_of (firstn 16 p)) with (id_of p); [eapply from_id_none; eauto|].
    unfold id_of. do 16 (destruct p as [|? p]; [cbn in L; lia|]). reflexivity. }
  split.
  - intros r k' X. destruct (E r k' X) as [(k & K & I & G)|G]; [|eauto]. destruct (C1 r k K) as (X1 & X2 & X3). rewrite I. split; [exact X1|]. split; [exact X2|]. eapply fate_told; eauto.
  - intros r1 r2 k1 k2 X1 X2 Q. destruct (E r1 k1 X1) as [(j1 & K1 & I1 & _)|G1], (E r2 k2 X2) as [(j2 & K2 & I2 & _)|G2].
    + rewrite I1, I2 in Q. eauto.
    + exfalso. eapply U; eauto. rewrite <- I1. exact Q.
    + exfalso. eapply U; eauto. rewrite <- I2. symmetry. exact Q.
    + destruct G1 as (? & ? & ? & ? & ? & _ & _ & _ & _ & _ & _ & _ & _ & _ & _ & ->), G2 as (? & ? & ? & ? & ? & _ & _ & _ & _ & _ & _ & _ & _ & _ & _ & ->). reflexivity.
Qed.
Lemma reach_cinv : forall b h, N.of_nat (length h) <= u64_max -> cinv b (fst (run b init h)).
Proof.
  intros b h. induction h as [|m h IH] using rev_ind; intros L; [split; cbn; discriminate|].
  rewrite app_length in L. cbn in L. rewrite last_run. cbn [fst]. apply cinv_step; [apply reach_fresh; lia|apply IH; lia].
Qed.

(** ** C43 *)
Lemma endpoint_at : forall r s, endpoint r s = match client_at r s with Some k => Some (ch_sock (k_cur k), ch_ep (k_cur k)) | None => None end.
Proof. intros. unfold endpoint, client_at. destruct (from_ref r s) as [[r0 [k|]]|]; reflexivity. Qed.
Lemma channel_at : forall r s, channel r s = match client_at r s with Some k => Some (ch_id (k_cur k)) | None => None end.
Proof. intros. unfold channel, client_at. destruct (from_ref r s) as [[r0 [k|]]|]; reflexivity. Qed.
Lemma conn_id_at : forall r s, conn_id r s = match client_at r s with Some k => Some (id_of (k_id k)) | None => None end.
Proof. intros. unfold conn_id, client_at. destruct (from_ref r s) as [[r0 [k|]]|]; reflexivity. Qed.
Lemma gone_at : forall b e o s r k', fresh s -> client_at r (fst (step b e o s)) = Some k' -> client_at r s = None -> born b s k' r o (snd (step b e o s)).
Proof. intros b e o s r k' F X N0. destruct (effect_step b e o s F) as [_ E]. destruct (E r k' X) as [(k & K & _)|B]; [congruence|exact B]. Qed.
Lemma moves : forall b (h : list move) o e r x y, N.of_nat (length h) < u64_max ->
  endpoint r (fst (run b init h)) = Some x -> endpoint r (fst (run b init (h ++ [(o, e)]))) = Some y -> x <> y ->
  (exists hd p, o = Packet hd (fst y) (snd y) p /\ target_of hd p = Some Clients /\ (17 <= length p)%nat /\
     conn_id r (fst (run b init h)) = Some (id_of p) /\ nth_error p 15 = channel r (fst (run b init h))) \/
  b = ClientOnlyBuild /\ ((exists hd p, o = Packet hd (fst y) (snd y) p /\ target_of hd p = Some Clients /\ (17 <= length p)%nat /\
     conn_id r (fst (run b init h)) = Some (id_of p) /\ existsb authentic (a_dtls e) = true) \/
   exists v, o = DtlsEvent r v /\ authentic v = true).
Proof.
  intros b h o e r x y L X Y NE. rewrite last_run in Y. cbn [fst snd] in Y. pose proof (reach_fresh b h L) as F. pose proof (reach_cinv b h ltac:(lia)) as C.
  rewrite channel_at, conn_id_at. rewrite endpoint_at in X, Y. destruct (client_at r (fst (run b init h))) as [k|] eqn:K; [|discriminate]. injection X as X.
  destruct (client_at r (fst (step b e o (fst (run b init h))))) as [k'|] eqn:K'; [|discriminate]. injection Y as Y.
  destruct (effect_step b e o _ F) as [_ E]. destruct (E r k' K') as [(k1 & K1 & I & G)|G].
  - rewrite K in K1. injection K1 as <-. destruct (c_id _ _ C r k K) as (_ & _ & T).
    destruct G as [o A _|hd sock ep p T1 (H1 & H2) A B _|hd sock ep p id -> T1 (H1 & H2) N1 NE1 Au B _|v Au A B D].
    + exfalso. apply NE. rewrite <- X, <- Y, A. reflexivity.
    + left. exists hd, p. rewrite B in Y. cbn in Y. subst y. cbn [fst snd]. rewrite H2. auto 10.
    + right. split; [reflexivity|]. left. exists hd, p. rewrite B in Y. cbn in Y. subst y. cbn [fst snd]. rewrite H2. auto 10.
    + right. split; [destruct b; [exfalso; apply A; symmetry; exact T|reflexivity]|]. right. eauto.
  - exfalso. destruct G as (? & ? & ? & ? & ? & _ & _ & _ & _ & _ & _ & _ & _ & _ & _ & R). destruct F as (_ & F & _).
    assert (Z : In r (keys (t_conns (fst (run b init h))))) by (unfold client_at in K; destruct (from_ref r _) eqn:Q; [apply from_ref_key in Q; apply Q|discriminate]).
    apply F in Z. lia.
Qed.

(** ** Outputs *)
Definition dtls_out (r : N) (l : list dtls) (x : out) : Prop :=
  match x with Opened r' | Gone r' | Changed r' | App r' _ => r' = r | CloseCb => True | Crash => exists n, In (Data n []) l | _ => False end.
Lemma destroy_out : forall r s x, In x (snd (destroy r s)) -> x = Gone r \/ x = CloseCb.
Proof. intros r s x. destruct (destroy_outs r s) as [-> | ->]; cbn; intuition. Qed.
Lemma out_dtls : forall r ch v s x, In x (snd (handle_dtls r ch v s)) -> dtls_out r [v] x.
Proof.
  intros r ch v s x. unfold handle_dtls. destruct (from_ref r s) as [[r0 [k|]]|]; try (intros []). destruct v.
  - intros [<-|[]]. reflexivity.
  - unfold handle_data. destruct bytes as [|ty bytes]; [intros [<-|[]]; cbn; eauto|]. destruct (_ && _); [destruct (_ && _)|]; cbn; intuition; subst; reflexivity.
  - intros H. apply destroy_out in H. destruct H as [-> | ->]; cbn; auto.
Qed.
Lemma out_all : forall r ch l s x, In x (snd (handle_all r ch l s)) -> dtls_out r l x.
Proof.
  intros r ch l. induction l as [|v l IH]; intros s x; [intros []|]. cbn [handle_all]. pose proof (out_dtls r ch v s x) as O. destruct (handle_dtls r ch v s) as [s1 a].
  specialize (IH s1 x). destruct (handle_all r ch l s1) as [s2 c]. cbn [fst snd] in *. rewrite in_app_iff. intros [H|H]; [specialize (O H)|specialize (IH H)]; destruct x; cbn in *; auto.
  - destruct O as (n & [->|[]]). eauto.
  - destruct IH as (n & X). eauto.
Qed.
(** With the id of the current channel nothing is switched. *)
Lemma no_change_dtls : forall r ch v s k x, client_at r s = Some k -> ch_id (k_cur k) = ch -> ~ In (Changed x) (snd (handle_dtls r ch v s)).
Proof.
  intros r ch v s k x K E. unfold client_at in K. unfold handle_dtls. destruct (from_ref r s) as [[r0 [k0|]]|]; try discriminate. injection K as ->. destruct v.
  - cbn. intuition discriminate.
  - unfold handle_data. destruct bytes as [|ty bytes]; [cbn; intuition discriminate|]. destruct (_ && _); [|cbn; intuition discriminate]. cbn [with_max k_cur]. rewrite E, N.eqb_refl. cbn. intuition discriminate.
  - intros H. apply destroy_out in H. intuition discriminate.
Qed.
Lemma all_gone : forall r ch l s x, client_at r s = None -> ~ In (Changed x) (snd (handle_all r ch l s)).
Proof.
  intros r ch l. induction l as [|v l IH]; intros s x K; [intros []|]. cbn [handle_all]. unfold handle_dtls. unfold client_at in K.
  assert (Z : match from_ref r s with Some {| n_impl := Some k |} => match v with Handshaken => (s, [Opened r]) | Data seq bytes => handle_data r k ch seq bytes s | DtlsClosed => destroy r s end | _ => (s, []) end = (s, []))
    by (destruct (from_ref r s) as [[r0 [k|]]|]; [discriminate| |]; reflexivity).
  rewrite Z. specialize (IH s x K). destruct (handle_all r ch l s). exact IH.
Qed.
Lemma no_change_all : forall r ch l s k x, distinct s -> client_at r s = Some k -> ch_id (k_cur k) = ch -> ~ In (Changed x) (snd (handle_all r ch l s)).
Proof.
  intros r ch l. induction l as [|v l IH]; intros s k x D K E; [intros []|]. cbn [handle_all]. pose proof (no_change_dtls r ch v s k x K E) as O.
  destruct (follows_dtls r ch v s D) as [D1 F]. destruct (handle_dtls r ch v s) as [s1 a]. cbn [fst snd] in *.
  assert (G : ~ In (Changed x) (snd (handle_all r ch l s1))).
  { destruct (client_at r s1) as [k1|] eqn:K1; [|apply all_gone; auto]. destruct (F r k1 K1) as (k0 & K0 & B1 & B2 & B3 & B4 & B5). rewrite K in K0. injection K0 as <-.
    eapply IH; eauto. destruct B5 as [->|(_ & B5 & _)]; [exact E|congruence]. }
  destruct (handle_all r ch l s1) as [s2 c]. cbn [snd] in *. rewrite in_app_iff. tauto.
Qed.
Lemma out_error : forall k ep p s x, In x (snd (internal_error k ep p s)) -> x = Udp k ep (firstn 16 p ++ alert).
Proof. intros k ep p s x. unfold internal_error. destruct (t_err s); [intros []|]. destruct (Nat.ltb _ _); [intros []|]. intros [<-|[]]. reflexivity. Qed.
Lemma out_rv_send : forall m s x, In x (snd (rv_send m s)) -> (exists r k, In r (t_queue s) /\ r_sock r = Some k /\ x = Udp k (r_ep r) (241 :: r_id r ++ [r_chan r; r_type r])) \/ (x = Crash /\ exists r, In r (t_queue s) /\ r_sock r = None).
Proof.
  intros m s x. unfold rv_send. destruct (t_busy s); [intros []|]. destruct (t_queue s) as [|r q]; [intros []|]. destruct m; [|intros []]. destruct (r_sock r) eqn:E; intros [<-|[]]; [left|right].
  - exists r, n. cbn. auto.
  - split; auto. exists r. cbn. auto.
Qed.

(** What comes out when a client packet arrives. *)
Inductive clients_out (b : build) (e : env) (sock ep : nat) (p : list N) (s : net) (l : list out) : out -> Prop :=
| OutDtls : forall r x, dtls_out r (a_dtls e) x -> conn_id r s = Some (id_of p) \/ In (Created r) l -> clients_out b e sock ep p s l x
| OutTo : forall r ch, conn_id r s = Some (id_of p) \/ In (Created r) l -> clients_out b e sock ep p s l (ToDtls r ch (skipn 16 p))
| OutNew : forall r, from_id p s = None -> (17 <= length p)%nat -> nth_error p 16 = Some 22 -> clients_out b e sock ep p s l (Created r)
| OutErr : from_id p s = None -> (17 <= length p)%nat -> nth_error p 16 = Some 22 -> t_err s = false -> clients_out b e sock ep p s l (Udp sock ep (firstn 16 p ++ alert))
| OutFail : forall r x, from_id p s = None -> (17 <= length p)%nat -> nth_error p 16 = Some 22 -> x = Gone r \/ x = CloseCb -> clients_out b e sock ep p s l x.
Lemma conn_id_some : forall r s k, client_at r s = Some k -> conn_id r s = Some (id_of (k_id k)).
Proof. intros r s k K. rewrite conn_id_at, K. reflexivity. Qed.
Lemma error_free : forall k ep p s x, In x (snd (internal_error k ep p s)) -> t_err s = false.
Proof. intros k ep p s x. unfold internal_error. destruct (t_err s); [intros []|reflexivity]. Qed.
Lemma alloc_err : forall m i s, t_err (fst (alloc m i s)) = t_err s.
Proof. intros. unfold alloc, next_ref. cbv zeta. destruct (N.leb _ _); [reflexivity|]. destruct m; [|reflexivity]. destruct (N.ltb _ _); reflexivity. Qed.
Lemma out_clients : forall b e sock ep p s x, distinct s -> In x (snd (clients_packet b e sock ep p s)) -> clients_out b e sock ep p s (snd (clients_packet b e sock ep p s)) x.
Proof.
  intros b e sock ep p s x D. unfold clients_packet. destruct (Nat.ltb_spec (length p) 17) as [L|L]; [intros []|].
  destruct (packet_nth p 16 ltac:(lia)) as [t N16]. destruct (packet_nth p 15 ltac:(lia)) as [ch N15]. destruct (from_id p s) as [c|] eqn:FI.
  - destruct (from_id_some _ _ _ D FI) as (k & Ec & K & I). rewrite Ec. pose proof (conn_id_some _ _ _ K) as CI. rewrite I in CI. unfold client_packet. rewrite N15. cbv zeta.
    match goal with |- context [handle_all ?r ?c ?l ?s0] => pose proof (out_all r c l s0 x) as O; destruct (handle_all r c l s0) as [s1 l1] end. cbn [snd] in *. intros [<-|H].
    + apply OutTo. auto.
    + eapply OutDtls; eauto.
  - rewrite N16, N15. unfold copy. destruct (Nat.leb_spec 16 (length p)) as [L16|L16]; [|lia]. destruct (N.eqb_spec t 22) as [->|E22]; [|intros []]. cbv zeta.
    match goal with |- context [alloc ?m ?i s] => pose proof (alloc_err m i s) as AE; destruct (alloc m i s) as [s1 [r|]] eqn:A end; cbn [fst] in AE.
    + destruct (a_init e).
      * pose proof (out_all r ch (a_dtls e) s1 x) as O. destruct (handle_all r ch (a_dtls e) s1) as [s2 l2]. cbn [snd] in *. intros [<-|H]; [apply OutNew; auto|]. apply in_app_iff in H. destruct H as [H|H].
        -- destruct b; [|destruct H]. destruct H as [<-|[]]. apply OutTo. right. left. reflexivity.
        -- eapply OutDtls; [apply O; exact H|]. right. left. reflexivity.
      * pose proof (out_error sock ep p s1 x) as O. pose proof (error_free sock ep p s1 x) as EF. destruct (internal_error sock ep p s1) as [s2 l1]. cbn [snd] in *. pose proof (destroy_out r s2 x) as DO. destruct (destroy r s2) as [s3 l3]. cbn [snd] in *.
        intros H. apply in_app_iff in H. destruct H as [H|H].
        -- rewrite (O H). apply OutErr; auto. rewrite <- AE. auto.
        -- eapply OutFail; eauto.
    + intros H. pose proof (error_free _ _ _ _ _ H) as EF. rewrite (out_error _ _ _ _ _ H). apply OutErr; auto. congruence.
Qed.
Lemma split_packet : forall b e h sock ep p s, step b e (Packet h sock ep p) s =
  match target_of h p with
  | None => (s, []) | Some Stun => (s, [ToStun]) | Some Attacher => (s, [ToAttacher])
  | Some Clients => clients_packet b e sock ep p s | Some RendezvousPart => rv_packet e sock ep p s end.
Proof.
  intros. cbn [step]. unfold handle_packet, target_of. destruct p as [|x p]; [reflexivity|].
  replace (N.eqb x 0 || N.eqb x 1) with (N.leb x 1).
  2: { destruct (N.leb_spec x 1), (N.eqb_spec x 0), (N.eqb_spec x 1); cbn; auto; lia. }
  rewrite <- andb_assoc. destruct (h_stun h && _); [reflexivity|]. destruct (h_attacher h && _); [reflexivity|]. destruct (h_clients h && _); [reflexivity|]. destruct (h_rendezvous h && _); reflexivity.
Qed.
(** Every other step. *)
Lemma close_each_out : forall l sync s x, In x (snd (fst (close_each l sync s))) -> (exists r, x = Gone r) \/ x = CloseCb.
Proof.
  induction l as [|[r [k|]] l IH]; intros sync s x; cbn [close_each]; [intros []| |apply IH]. destruct sync as [|[|] sync]; cbn [tl].
  - specialize (IH [] s x). destruct (close_each l [] s) as [[s2 c] y]. exact IH.
  - pose proof (destroy_out r s x) as DO. destruct (destroy r s) as [s1 a]. specialize (IH sync s1 x). destruct (close_each l sync s1) as [[s2 c] y]. cbn [fst snd] in *. rewrite in_app_iff. intros [H|H]; [|auto]. destruct (DO H); eauto.
  - specialize (IH sync s x). destruct (close_each l sync s) as [[s2 c] y]. exact IH.
Qed.
(** Where things come from. *)
Lemma created_packet : forall b e o s r, distinct s -> In (Created r) (snd (step b e o s)) ->
  exists h sock ep p, o = Packet h sock ep p /\ target_of h p = Some Clients /\ (17 <= length p)%nat /\ nth_error p 16 = Some 22 /\ from_id p s = None.
Proof.
  intros b e o s r D. destruct o; [|cbn [step]; try unfold with_client..].
  - rewrite split_packet. destruct (target_of h p) as [[]|] eqn:T; try (cbn; intuition discriminate).
    + intros H. apply out_clients in H; auto. exists h, sock, ep, p. inversion H; subst; try solve [cbn in *; contradiction]; try solve [intuition discriminate]; auto 10.
    + intros H. exfalso. unfold rv_packet in H. destruct (Nat.ltb _ _); [destruct H|]. destruct (nth_error p 16); [|cbn in H; intuition discriminate]. destruct (copy 14 (skipn 1 p)); [|cbn in H; intuition discriminate].
      destruct (nth_error p 15); [|cbn in H; intuition discriminate]. unfold rv_queue in H.
      destruct (N.eqb n 1); [destruct (copy 14 (skipn 2 p)); [destruct (from_id (skipn 1 p) s)|cbn in H; intuition discriminate]|destruct (N.eqb n 4)]; try destruct H; try discriminate;
      (destruct (Nat.leb _ _); [destruct H|]; cbn [r_sock] in H; apply out_rv_send in H; destruct H as [(? & ? & _ & _ & H)|[H _]]; discriminate).
  - intros H. exfalso. destruct (from_ref ref s) as [[r0 [k|]]|]; try (destruct H). apply out_dtls in H. exact H.
  - intros H. exfalso. destruct (from_ref ref s) as [[r0 [k|]]|]; try (destruct H). unfold send_to_udp in H. destruct (k_sent k); [cbn in H; intuition discriminate|]. cbv zeta in H.
    destruct (_ || _) in H; [|destruct (N.eqb _ _) in H]; cbn in H; intuition discriminate.
  - intros H. exfalso. destruct (from_ref ref s) as [[r0 [k|]]|]; try (destruct H). unfold sent_cb in H. destruct (k_sent k); cbn in H; intuition discriminate.
  - intros [].
  - destruct (t_busy s); [|intros []]. intros H. apply out_rv_send in H. destruct H as [(? & ? & _ & _ & H)|[H _]]; discriminate.
  - unfold rv_queue. destruct (Nat.leb _ _); [intros []|]. cbn [r_sock]. destruct (t_default s); [|intros []]. intros H. apply out_rv_send in H. destruct H as [(? & ? & _ & _ & H)|[H _]]; discriminate.
  - destruct (alloc (a_mem e) None s) as [s1 [r1|]]; cbn; intuition discriminate.
  - destruct (from_ref ref s) as [[r0 [k|]]|]; try (intros []). intros H. apply destroy_out in H. intuition discriminate.
  - intros [].
  - unfold close_all. pose proof (close_each_out (t_conns s) (a_sync e) (set_closing true (t_cb s) s) (Created r)) as C. destruct (close_each (t_conns s) (a_sync e) (set_closing true (t_cb s) s)) as [[s1 l] [|]]; cbn [fst snd] in *;
    (rewrite in_app_iff; intros [H|H]; [destruct (C H) as [[? X]|X]; discriminate|cbn in H; intuition discriminate]).
  - intros [].
Qed.
