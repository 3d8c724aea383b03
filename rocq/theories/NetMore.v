(** Proofs for the properties C43, C44, C75 and C76: what a step does to the client connections. *)
From Coq Require Import List NArith PeanoNat Bool Lia Permutation.
From Verif Require Import NetModel NetSpec NetProofs.
Import ListNotations.
Local Open Scope N_scope.

Definition client_at (r : N) (s : net) : option client := match from_ref r s with Some {| n_impl := Some k |} => Some k | _ => None end.
Definition distinct (s : net) : Prop := NoDup (keys (t_conns s)).

Lemma find_replace : forall r r0 k l, find (fun c => N.eqb (n_ref c) r) (replace r0 k l) =
  match find (fun c => N.eqb (n_ref c) r) l with
  | Some c => Some (if N.eqb r r0 then {| n_ref := r; n_impl := Some k |} else c)
  | None => None end.
Proof.
  intros r r0 k l. induction l as [|c l IH]; [reflexivity|]. cbn. destruct (N.eqb_spec (n_ref c) r0) as [E|E]; cbn.
  - destruct (N.eqb_spec r0 r) as [F|F].
    + subst. rewrite !N.eqb_refl. reflexivity.
    + destruct (N.eqb_spec (n_ref c) r); [congruence|]. destruct (N.eqb_spec r r0); [congruence|]. destruct (find _ l); reflexivity.
  - destruct (N.eqb_spec (n_ref c) r) as [F|F]; [|exact IH]. destruct (N.eqb_spec r r0); [congruence|reflexivity].
Qed.
Lemma at_put : forall r r0 k s c, from_ref r0 s = Some c -> client_at r (put r0 k s) = if N.eqb r r0 then Some k else client_at r s.
Proof.
  intros r r0 k s c H. unfold client_at, from_ref, put. cbn. rewrite find_replace. unfold from_ref in H. destruct (N.eqb_spec r r0) as [->|E].
  - rewrite H. reflexivity.
  - destruct (find (fun c => N.eqb (n_ref c) r) (t_conns s)); reflexivity.
Qed.
Lemma find_remove : forall r r0 l, NoDup (keys l) -> find (fun c => N.eqb (n_ref c) r) (remove r0 l) = if N.eqb r r0 then None else find (fun c => N.eqb (n_ref c) r) l.
Proof.
  intros r r0 l. induction l as [|c l IH]; intros H; [destruct (N.eqb r r0); reflexivity|]. unfold keys in *. cbn in *. inversion H; subst.
  destruct (N.eqb_spec (n_ref c) r0) as [E|E]; cbn.
  - subst. destruct (N.eqb_spec r (n_ref c)) as [->|F].
    + destruct (find _ l) as [c'|] eqn:G; [|reflexivity]. apply find_some in G. destruct G as [G1 G2]. apply N.eqb_eq in G2. exfalso. apply H2. rewrite <- G2. apply in_map. auto.
    + destruct (N.eqb_spec (n_ref c) r); [congruence|reflexivity].
  - rewrite IH by auto. destruct (N.eqb_spec (n_ref c) r) as [F|F]; [|reflexivity]. destruct (N.eqb_spec r r0); [congruence|reflexivity].
Qed.
Lemma destroy_conns : forall r s, t_conns (fst (destroy r s)) = remove r (t_conns s).
Proof. intros r s. unfold destroy, free_conn. cbv zeta. destruct (_ && _); reflexivity. Qed.
Lemma at_destroy : forall r r0 s, distinct s -> client_at r (fst (destroy r0 s)) = if N.eqb r r0 then None else client_at r s.
Proof. intros r r0 s H. unfold client_at, from_ref. rewrite destroy_conns, find_remove by exact H. destruct (N.eqb r r0); reflexivity. Qed.
Lemma distinct_put : forall r k s, distinct s -> distinct (put r k s).
Proof. intros r k s H. unfold distinct, put. cbn. rewrite replace_keys. exact H. Qed.
Lemma distinct_destroy : forall r s, distinct s -> distinct (fst (destroy r s)).
Proof. intros r s H. unfold distinct. rewrite destroy_conns, remove_keys by exact H. apply without_nodup. exact H. Qed.

(** Every client connection after was there before, and is related to what it was. *)
Definition follows (P : N -> client -> client -> Prop) (s s' : net) : Prop :=
  distinct s' /\ forall r k', client_at r s' = Some k' -> exists k, client_at r s = Some k /\ P r k k'.
Lemma follows_same : forall (P : N -> client -> client -> Prop) s s', (forall r k, P r k k) -> distinct s -> t_conns s' = t_conns s -> follows P s s'.
Proof. intros P s s' H D E. split; [unfold distinct; rewrite E; exact D|]. unfold client_at, from_ref. rewrite E. intros r k' X. eauto. Qed.
Lemma follows_put : forall (P : N -> client -> client -> Prop) s r0 k0 k', distinct s -> client_at r0 s = Some k0 -> (forall r k, P r k k) -> P r0 k0 k' -> follows P s (put r0 k' s).
Proof.
  intros P s r0 k0 k' D H R H0. split; [apply distinct_put; auto|]. intros r k1 X. assert (exists c, from_ref r0 s = Some c) as [c Hc] by (unfold client_at in H; destruct (from_ref r0 s); [eauto|discriminate]).
  rewrite (at_put r r0 k' s c Hc) in X. destruct (N.eqb_spec r r0) as [->|E]; [injection X as <-|]; eauto.
Qed.
Lemma follows_destroy : forall (P : N -> client -> client -> Prop) s r0, distinct s -> (forall r k, P r k k) -> follows P s (fst (destroy r0 s)).
Proof. intros P s r0 D R. split; [apply distinct_destroy; auto|]. intros r k' X. rewrite at_destroy in X by auto. destruct (N.eqb r r0); [discriminate|eauto]. Qed.
Lemma follows_trans : forall (P Q S : N -> client -> client -> Prop) s1 s2 s3, (forall r a b c, P r a b -> Q r b c -> S r a c) -> follows P s1 s2 -> follows Q s2 s3 -> follows S s1 s3.
Proof.
  intros P Q S s1 s2 s3 T [_ A] [D B]. split; auto. intros r k' X. destruct (B r k' X) as (k1 & X1 & Y1). destruct (A r k1 X1) as (k0 & X0 & Y0). eauto.
Qed.
Lemma follows_weaken : forall (P Q : N -> client -> client -> Prop) s s', (forall r a b, P r a b -> Q r a b) -> follows P s s' -> follows Q s s'.
Proof. intros P Q s s' H [D A]. split; auto. intros r k' X. destruct (A r k' X) as (k & ? & ?). eauto. Qed.

(** What data does: it can make the alternative channel the current one when it names another channel than the current one. *)
Definition by_data (r0 ch : N) (auth : Prop) (r : N) (k k' : client) : Prop :=
  k_id k' = k_id k /\ k_alt k' = k_alt k /\ k_sent k' = k_sent k /\ k_told k' = k_told k /\
  (k_cur k' = k_cur k \/ r = r0 /\ ch_id (k_cur k) <> ch /\ k_cur k' = k_alt k /\ ch_id (k_alt k) = ch /\ auth).
Lemma by_data_refl : forall r0 ch auth r k, by_data r0 ch auth r k k.
Proof. unfold by_data. intuition. Qed.
Lemma by_data_trans : forall r0 ch auth r a b c, by_data r0 ch auth r a b -> by_data r0 ch auth r b c -> by_data r0 ch auth r a c.
Proof.
  unfold by_data. intros r0 ch auth r a b c (A1 & A2 & A3 & A4 & A5) (B1 & B2 & B3 & B4 & B5). split; [congruence|]. split; [congruence|]. split; [congruence|]. split; [congruence|].
  destruct A5 as [A5|(A0 & A5 & A6 & A7 & A8)], B5 as [B5|(B0 & B5 & B6 & B7 & B8)]; try (left; congruence).
  - right. rewrite <- A5, <- A2. auto.
  - right. rewrite B5. auto.
Qed.
Lemma by_data_mono : forall r0 ch (a b : Prop) r k k', (a -> b) -> by_data r0 ch a r k k' -> by_data r0 ch b r k k'.
Proof. unfold by_data. intros r0 ch a b r k k' H (A1 & A2 & A3 & A4 & [A5|(A5 & A6 & A7 & A8 & A9)]); auto 10. do 4 (split; [auto|]). right. auto 10. Qed.
Lemma client_from : forall r s r0 k, from_ref r s = Some {| n_ref := r0; n_impl := Some k |} -> client_at r s = Some k.
Proof. intros r s r0 k H. unfold client_at. rewrite H. reflexivity. Qed.
Lemma follows_dtls : forall r ch v s, distinct s -> follows (by_data r ch (authentic v = true)) s (fst (handle_dtls r ch v s)).
Proof.
  intros r ch v s D. pose proof (by_data_refl r ch (authentic v = true)) as R. unfold handle_dtls. destruct (from_ref r s) as [[r0 [k|]]|] eqn:E; try (apply follows_same; [exact R|exact D|reflexivity]).
  pose proof (client_from _ _ _ _ E) as K. destruct v; [apply follows_same; [exact R|exact D|reflexivity]| |apply follows_destroy; [exact D|exact R]].
  unfold handle_data. destruct bytes as [|ty bytes]; [apply follows_same; [exact R|exact D|reflexivity]|]. destruct (_ && _); [|apply follows_same; [exact R|exact D|reflexivity]]. cbn [k_cur k_alt with_max].
  destruct (N.eqb_spec (ch_id (k_cur k)) ch) as [F|F]; cbn [negb andb].
  - eapply follows_put; eauto. unfold by_data. cbn. intuition.
  - destruct (N.eqb_spec (ch_id (k_alt k)) ch) as [G|G]; (eapply follows_put; eauto; unfold by_data; cbn; intuition).
Qed.
Lemma follows_all : forall r ch l s, distinct s -> follows (by_data r ch (existsb authentic l = true)) s (fst (handle_all r ch l s)).
Proof.
  intros r ch l. induction l as [|v l IH]; intros s D; [apply follows_same; [apply by_data_refl|exact D|reflexivity]|]. cbn [handle_all].
  pose proof (follows_dtls r ch v s D) as F. destruct (handle_dtls r ch v s) as [s1 a]. cbn [fst] in F. destruct F as [D1 F1]. specialize (IH s1 D1).
  destruct (handle_all r ch l s1) as [s2 b]. cbn [fst] in *.
  eapply follows_trans; [|exact (conj D1 F1)|exact IH]. intros r1 x y z X Y. eapply by_data_trans with (b := y); [revert X|revert Y]; apply by_data_mono; cbn [existsb]; intros ->; auto using orb_true_r.
Qed.

(** ** Ids *)
Lemma bytes_eqb_eq : forall a b, bytes_eqb a b = true <-> a = b.
Proof.
  induction a as [|x a IH]; destruct b as [|y b]; cbn; split; intros H; try discriminate; auto.
  - apply andb_prop in H. destruct H as [H1 H2]. apply N.eqb_eq in H1. apply IH in H2. congruence.
  - injection H as -> ->. rewrite N.eqb_refl. cbn. apply IH. reflexivity.
Qed.
Lemma in_from_ref : forall s c, distinct s -> In c (t_conns s) -> from_ref (n_ref c) s = Some c.
Proof.
  intros s c D I. unfold distinct, from_ref in *. induction (t_conns s) as [|d l IH]; [destruct I|]. unfold keys in *. cbn in *. inversion D; subst.
  destruct I as [->|I]; [rewrite N.eqb_refl; reflexivity|]. destruct (N.eqb_spec (n_ref d) (n_ref c)) as [E|E]; auto. exfalso. apply H1. rewrite E. apply in_map. auto.
Qed.
Lemma from_id_some : forall p s c, distinct s -> from_id p s = Some c -> exists k, c = {| n_ref := n_ref c; n_impl := Some k |} /\ client_at (n_ref c) s = Some k /\ id_of (k_id k) = id_of p.
Proof.
  intros p s c D H. apply find_some in H. destruct H as [I H]. unfold is_id in H. destruct (n_impl c) as [k|] eqn:E; [|discriminate]. apply bytes_eqb_eq in H.
  exists k. split; [destruct c; cbn in *; congruence|]. split; [|unfold id_of; congruence]. unfold client_at. rewrite (in_from_ref s c D I). destruct c as [r i]. cbn in *. subst. reflexivity.
Qed.
Lemma from_id_none : forall p s r k, from_id p s = None -> client_at r s = Some k -> id_of (k_id k) <> id_of p.
Proof.
  intros p s r k H K E. unfold client_at in K. destruct (from_ref r s) as [[r0 i]|] eqn:F; [|discriminate]. destruct i; [|discriminate]. injection K as ->.
  apply find_some in F. destruct F as [F _]. pose proof (find_none _ _ H _ F) as X. unfold is_id in X. cbn [n_impl] in X. unfold id_of in E. rewrite E in X.
  assert (bytes_eqb (firstn 14 (skipn 1 p)) (firstn 14 (skipn 1 p)) = true) by (apply bytes_eqb_eq; reflexivity). congruence.
Qed.

Lemma target_clients : forall (h : handlers) x p, (h_stun h && (N.eqb x 0 || N.eqb x 1)) = false -> (h_attacher h && (N.leb 20 x && N.leb x 64)) = false ->
  (h_clients h && N.eqb x 240) = true -> target_of h (x :: p) = Some Clients.
Proof.
  intros h x p A B C. unfold target_of. apply andb_prop in C. destruct C as [C1 C2]. apply N.eqb_eq in C2. subst x. rewrite C1. cbn. rewrite !andb_false_r. reflexivity.
Qed.

(** What a step makes of a client connection. *)
Definition hit (p : list N) (id : list N) : Prop := (17 <= length p)%nat /\ id_of p = id_of id.
Inductive fate (b : build) (e : env) (s : net) (k k' : client) (r : N) : op -> Prop :=
| Kept : forall o, k_cur k' = k_cur k -> (k_told k' = k_told k \/ k_told k' = match b with ServerBuild => ch_id (k_cur k) | ClientOnlyBuild => 255 end) -> fate b e s k k' r o
| Rebound : forall h sock ep p, target_of h p = Some Clients -> hit p (k_id k) -> nth_error p 15 = Some (ch_id (k_cur k)) ->
    k_cur k' = {| ch_sock := sock; ch_ep := ep; ch_id := ch_id (k_cur k) |} -> k_told k' = match b with ServerBuild => ch_id (k_cur k) | ClientOnlyBuild => 255 end -> fate b e s k k' r (Packet h sock ep p)
| Switched : forall h sock ep p id, b = ClientOnlyBuild -> target_of h p = Some Clients -> hit p (k_id k) -> nth_error p 15 = Some id -> id <> ch_id (k_cur k) -> existsb authentic (a_dtls e) = true ->
    k_cur k' = {| ch_sock := sock; ch_ep := ep; ch_id := id |} -> k_told k' = 255 -> fate b e s k k' r (Packet h sock ep p)
| Later : forall v, authentic v = true -> ch_id (k_cur k) <> k_told k -> k_told k' = k_told k -> k_cur k' = k_alt k -> fate b e s k k' r (DtlsEvent r v).
(** A new one. *)
Definition born (b : build) (s : net) (k : client) (r : N) (o : op) (l : list out) : Prop :=
  exists h sock ep p ch, o = Packet h sock ep p /\ target_of h p = Some Clients /\ (17 <= length p)%nat /\ nth_error p 16 = Some 22 /\ nth_error p 15 = Some ch /\
    from_id p s = None /\ k_id k = firstn 16 p /\ ch_id (k_cur k) = ch /\ k_told k = match b with ServerBuild => ch | ClientOnlyBuild => 255 end /\ In (Created r) l /\ r = t_ref s + 1.
Definition effect (b : build) (e : env) (o : op) (s : net) (x : net * list out) : Prop :=
  distinct (fst x) /\ forall r k', client_at r (fst x) = Some k' ->
    (exists k, client_at r s = Some k /\ k_id k' = k_id k /\ fate b e s k k' r o) \/ born b s k' r o (snd x).
Lemma effect_follows : forall b e o s x (P : N -> client -> client -> Prop), follows P s (fst x) -> (forall r k k', client_at r s = Some k -> P r k k' -> k_id k' = k_id k /\ fate b e s k k' r o) -> effect b e o s x.
Proof. intros b e o s x P [D F] H. split; auto. intros r k' X. left. destruct (F r k' X) as (k & K & Y). exists k. split; auto. Qed.
Definition still (r : N) (k k' : client) : Prop := k_id k' = k_id k /\ k_cur k' = k_cur k /\ k_told k' = k_told k.
Lemma effect_still : forall b e o s x, follows still s (fst x) -> effect b e o s x.
Proof. intros b e o s x F. eapply effect_follows; [exact F|]. intros r k k' _ (A & B & C). split; auto. apply Kept; auto. Qed.
Lemma still_refl : forall r k, still r k k.
Proof. split; auto. Qed.
Lemma effect_same : forall b e o s x, distinct s -> t_conns (fst x) = t_conns s -> effect b e o s x.
Proof. intros. apply effect_still. apply follows_same; auto. apply still_refl. Qed.
Lemma conns_error : forall k ep p s, t_conns (fst (internal_error k ep p s)) = t_conns s.
Proof. intros. unfold internal_error. destruct (t_err s); [reflexivity|]. destruct (Nat.ltb _ _); reflexivity. Qed.
Lemma conns_rv_send : forall m s, t_conns (fst (rv_send m s)) = t_conns s.
Proof. intros. unfold rv_send. destruct (t_busy s); [reflexivity|]. destruct (t_queue s); [reflexivity|]. destruct m; [|reflexivity]. destruct (r_sock r); reflexivity. Qed.
Lemma conns_rv : forall m r s, t_conns (fst (rv_queue m r s)) = t_conns s.
Proof. intros. unfold rv_queue. destruct (Nat.leb _ _); [reflexivity|]. destruct (match r_sock r with Some k => Some k | None => t_default s end); [rewrite conns_rv_send|]; reflexivity. Qed.
Lemma conns_rv_packet : forall e k ep p s, t_conns (fst (rv_packet e k ep p s)) = t_conns s.
Proof.
  intros. unfold rv_packet. destruct (Nat.ltb _ _); [reflexivity|]. destruct (nth_error p 16); [|reflexivity]. destruct (copy 14 (skipn 1 p)); [|reflexivity]. destruct (nth_error p 15); [|reflexivity].
  destruct (N.eqb n 1); [|destruct (N.eqb n 4); [apply conns_rv|reflexivity]]. destruct (copy 14 (skipn 2 p)); [|reflexivity]. destruct (from_id (skipn 1 p) s); [apply conns_rv|reflexivity].
Qed.
Lemma alloc_some : forall m i s r s1, alloc m i s = (s1, Some r) -> t_conns s1 = t_conns s ++ [{| n_ref := r; n_impl := i |}] /\ r = (t_ref s + 1) mod (u64_max + 1).
Proof.
  intros m i s r s1 H. unfold alloc, next_ref in H. cbv zeta in H. destruct (N.leb _ _); [discriminate|]. destruct m; [|discriminate]. destruct (N.ltb _ _); [discriminate|]. injection H as <- <-. split; reflexivity.
Qed.
Lemma alloc_none : forall m i s s1, alloc m i s = (s1, None) -> t_conns s1 = t_conns s.
Proof.
  intros m i s s1 H. unfold alloc, next_ref in H. cbv zeta in H. destruct (N.leb _ _); [injection H as <-; reflexivity|]. destruct m; [|injection H as <-; reflexivity]. destruct (N.ltb _ _); [injection H as <-; reflexivity|discriminate].
Qed.
(** References which are in use are not larger than the last one. *)
Definition fresh (s : net) : Prop := distinct s /\ (forall r, In r (keys (t_conns s)) -> r <= t_ref s) /\ t_ref s < u64_max.
Lemma fresh_alloc : forall m i s r s1, fresh s -> alloc m i s = (s1, Some r) -> distinct s1 /\ r = t_ref s + 1 /\ from_ref r s = None /\
  (forall r1, from_ref r1 s1 = if N.eqb r1 r then Some {| n_ref := r; n_impl := i |} else from_ref r1 s).
Proof.
  intros m i s r s1 (D & L & B) H. destruct (alloc_some _ _ _ _ _ H) as [C R].
  assert (R1 : r = t_ref s + 1) by (rewrite R; apply N.mod_small; unfold u64_max in *; lia).
  assert (NI : ~ In r (keys (t_conns s))) by (intros I; apply L in I; lia).
  split; [|split; [exact R1|split; [apply from_ref_none; exact NI|]]].
  - unfold distinct. rewrite C. unfold keys in *. rewrite map_app. cbn. apply (Permutation.Permutation_NoDup (l := r :: map n_ref (t_conns s))); [apply Permutation.Permutation_cons_append|]. constructor; auto.
  - intros r1. unfold from_ref. rewrite C. clear - NI. unfold keys in NI. induction (t_conns s) as [|c l IH]; cbn.
    + rewrite N.eqb_sym. reflexivity.
    + cbn in NI. destruct (N.eqb_spec (n_ref c) r1) as [E|E].
      * destruct (N.eqb_spec r1 r); [exfalso; apply NI; left; congruence|reflexivity].
      * apply IH. intuition.
Qed.

Lemma packet_nth : forall (p : list N) n, (n < length p)%nat -> exists x, nth_error p n = Some x.
Proof. intros p n H. destruct (nth_error p n) eqn:E; eauto. apply nth_error_None in E. lia. Qed.
Lemma effect_client : forall b e h sock ep p r k s, distinct s -> target_of h p = Some Clients -> hit p (k_id k) -> client_at r s = Some k ->
  effect b e (Packet h sock ep p) s (client_packet b e r k sock ep p s).
Proof.
  intros b e h sock ep p r k s D T H K. destruct (packet_nth p 15 ltac:(destruct H; lia)) as [id I]. unfold client_packet. rewrite I. cbv zeta.
  match goal with |- context [handle_all r ?c ?l (put r ?k1 s)] => set (kk := k1); set (ch := c); pose proof (follows_all r ch l (put r kk s) (distinct_put r kk s D)) as F; destruct (handle_all r ch l (put r kk s)) as [s1 l1] end.
  cbn [fst] in F. destruct F as [D1 F]. split; [exact D1|]. intros r1 k' X. left. destruct (F r1 k' X) as (k1 & X1 & (B1 & B2 & B3 & B4 & B5)).
  assert (exists c, from_ref r s = Some c) as [c Hc] by (unfold client_at in K; destruct (from_ref r s); [eauto|discriminate]).
  rewrite (at_put r1 r kk s c Hc) in X1. destruct (N.eqb_spec r1 r) as [->|E].
  - injection X1 as <-. exists k. split; [exact K|]. unfold kk in *. clear kk. destruct (N.eqb_spec id (ch_id (k_cur k))) as [E|E]; cbn in B1, B2, B3, B4, B5, ch.
    + split; [exact B1|]. subst id. destruct B5 as [B5|(_ & B5 & _)].
      * eapply Rebound; eauto. rewrite B4. unfold ch. destruct b; reflexivity.
      * exfalso. apply B5. unfold ch. destruct b; reflexivity.
    + split; [exact B1|]. destruct B5 as [B5|(_ & B5 & B6 & B7 & B8)]; [apply Kept; auto; right; rewrite B4; unfold ch; destruct b; reflexivity|].
      destruct b; [exfalso; apply B5; reflexivity|]. eapply Switched; eauto.
  - exists k1. split; [exact X1|]. split; [exact B1|]. destruct B5 as [B5|[B5 _]]; [|congruence]. apply Kept; auto.
Qed.
Lemma effect_clients : forall b e h sock ep p s, fresh s -> target_of h p = Some Clients -> effect b e (Packet h sock ep p) s (clients_packet b e sock ep p s).
Proof.
  intros b e h sock ep p s F T. destruct F as (D & F1 & F2). unfold clients_packet. destruct (Nat.ltb_spec (length p) 17) as [L|L]; [apply effect_same; auto|].
  destruct (from_id p s) as [c|] eqn:FI.
  - destruct (from_id_some _ _ _ D FI) as (k & Ec & K & I). rewrite Ec. apply effect_client; auto. split; auto.
  - destruct (packet_nth p 16 ltac:(lia)) as [t N16]. destruct (packet_nth p 15 ltac:(lia)) as [ch N15]. rewrite N16, N15.
    unfold copy. destruct (Nat.leb_spec 16 (length p)); [|lia]. destruct (N.eqb_spec t 22) as [->|E22]; [|apply effect_same; auto]. cbv zeta.
    match goal with |- context [alloc ?m ?i s] => set (k0 := i); destruct (alloc m k0 s) as [s1 [r|]] eqn:A end.
    + destruct (fresh_alloc _ _ _ _ _ (conj D (conj F1 F2)) A) as (D1 & R1 & R2 & R3). destruct (a_init e).
      * pose proof (follows_all r ch (a_dtls e) s1 D1) as G. destruct (handle_all r ch (a_dtls e) s1) as [s2 l2]. cbn [fst snd] in *. destruct G as [D2 G]. split; [exact D2|].
        intros r1 k' X. destruct (G r1 k' X) as (k1 & X1 & B1 & B2 & B3 & B4 & B5). unfold client_at in X1. rewrite R3 in X1. destruct (N.eqb_spec r1 r) as [->|E].
        -- right. unfold k0 in X1. injection X1 as <-. cbn in B1, B2, B3, B4, B5. exists h, sock, ep, p, ch. assert (ch_id (k_cur k') = ch) by (destruct B5 as [->|(_ & B5 & _)]; [reflexivity|congruence]).
           do 8 (split; [solve [auto]|]). split; [exact B4|]. split; [left; reflexivity|exact R1].
        -- left. exists k1. split; [exact X1|]. split; [exact B1|]. destruct B5 as [B5|[B5 _]]; [|congruence]. apply Kept; auto.
      * pose proof (conns_error sock ep p s1) as CE. destruct (internal_error sock ep p s1) as [s2 l1]. cbn [fst] in CE.
        assert (D2 : distinct s2) by (unfold distinct; rewrite CE; exact D1). pose proof (at_destroy) as AD. pose proof (distinct_destroy r s2 D2) as D3.
        assert (X : forall r1 k', client_at r1 (fst (destroy r s2)) = Some k' -> client_at r1 s = Some k').
        { intros r1 k'. rewrite AD by exact D2. destruct (N.eqb_spec r1 r); [discriminate|]. unfold client_at. assert (Q : from_ref r1 s2 = from_ref r1 s1) by (unfold from_ref; rewrite CE; reflexivity).
          rewrite Q, R3. destruct (N.eqb_spec r1 r); [congruence|auto]. }
        destruct (destroy r s2) as [s3 l2]. split; [exact D3|]. intros r1 k' Y. left. exists k'. split; [apply X; exact Y|]. split; [reflexivity|apply Kept; auto].
    + apply alloc_none in A. apply effect_same; [exact D|]. rewrite conns_error. exact A.
Qed.
Lemma effect_close : forall l sync s, distinct s -> follows still s (fst (fst (close_each l sync s))).
Proof.
  induction l as [|[r [k|]] l IH]; intros sync s D; cbn [close_each]; auto; try (apply follows_same; [apply still_refl|exact D|reflexivity]).
  assert (T : forall r a b c, still r a b -> still r b c -> still r a c) by (unfold still; intuition congruence).
  destruct sync as [|[|] sync]; cbn [tl].
  - specialize (IH [] s D). destruct (close_each l [] s) as [[s2 c] x]. exact IH.
  - pose proof (follows_destroy still s r D still_refl) as F. destruct (destroy r s) as [s1 a]. cbn [fst] in F. specialize (IH sync s1 (proj1 F)). destruct (close_each l sync s1) as [[s2 c] x]. eapply follows_trans; eauto.
  - specialize (IH sync s D). destruct (close_each l sync s) as [[s2 c] x]. exact IH.
Qed.
Lemma effect_step : forall b e o s, fresh s -> effect b e o s (step b e o s).
Proof.
  intros b e o s F. pose proof (proj1 F) as D. destruct o; cbn [step].
  - unfold handle_packet. destruct p as [|x p]; [apply effect_same; auto|]. destruct (h_stun h && _) eqn:T1; [apply effect_same; auto|]. destruct (h_attacher h && _) eqn:T2; [apply effect_same; auto|].
    destruct (h_clients h && _) eqn:T3; [apply effect_clients; auto; apply target_clients; auto|]. destruct (h_rendezvous h && _); [|apply effect_same; auto]. apply effect_same; auto. apply conns_rv_packet.
  - unfold with_client. destruct (from_ref ref s) as [[r0 [k|]]|] eqn:E; try solve [apply effect_same; auto].
    pose proof (follows_dtls ref (k_told k) v s D) as [D1 G]. split; [exact D1|]. intros r k' X. left. destruct (G r k' X) as (k1 & X1 & B1 & B2 & B3 & B4 & B5). exists k1. split; [exact X1|]. split; [exact B1|].
    destruct B5 as [B5|(-> & B5 & B6 & B7 & B8)]; [apply Kept; auto|]. rewrite (client_from _ _ _ _ E) in X1. injection X1 as <-. apply Later; auto.
  - unfold with_client. destruct (from_ref ref s) as [[r0 [k|]]|] eqn:E; try solve [apply effect_same; auto]. apply client_from in E. unfold send_to_udp. destruct (k_sent k); [apply effect_same; auto|]. cbv zeta.
    apply effect_still. destruct (_ || _); [|destruct (N.eqb _ _)]; (eapply follows_put; eauto; [apply still_refl|split; auto]).
  - unfold with_client. destruct (from_ref ref s) as [[r0 [k|]]|] eqn:E; try solve [apply effect_same; auto]. apply client_from in E. unfold sent_cb. destruct (k_sent k); [|apply effect_same; auto].
    apply effect_still. eapply follows_put; eauto; [apply still_refl|split; auto].
  - apply effect_same; auto.
  - destruct (t_busy s); apply effect_same; auto. rewrite conns_rv_send. reflexivity.
  - apply effect_same; auto. apply conns_rv.
  - destruct (alloc (a_mem e) None s) as [s1 [r|]] eqn:A.
    + destruct (fresh_alloc _ _ _ _ _ F A) as (D1 & R1 & R2 & R3). split; [exact D1|]. intros r1 k' X. left. unfold client_at in X. cbn [fst] in X. rewrite R3 in X. destruct (N.eqb_spec r1 r); [discriminate|].
      exists k'. split; [exact X|]. split; [reflexivity|apply Kept; auto].
    + apply alloc_none in A. apply effect_same; auto.
  - destruct (from_ref ref s) as [[r0 [k|]]|] eqn:E; try solve [apply effect_same; auto]. apply effect_still. apply follows_destroy; auto. apply still_refl.
  - apply effect_same; auto.
  - unfold close_all. pose proof (effect_close (t_conns s) (a_sync e) (set_closing true (t_cb s) s) D) as G. destruct (close_each (t_conns s) (a_sync e) (set_closing true (t_cb s) s)) as [[s1 l] [|]]; cbn [fst] in G; apply effect_still; exact G.
  - apply effect_same; auto.
Qed.
