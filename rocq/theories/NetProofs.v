(** Proofs for the property C42. *)
From Coq Require Import List NArith Bool Lia.
From Verif Require Import NetModel NetSpec.
Import ListNotations.
Local Open Scope N_scope.

Definition keys (l : list conn) : list N := map n_ref l.
Definition without (r : N) (l : list N) : list N := filter (fun y => negb (N.eqb y r)) l.

Lemma without_none : forall r l, ~ In r l -> without r l = l.
Proof.
  intros r l. induction l as [|x l IH]; intros H; [reflexivity|]. unfold without in *. cbn in *. destruct (N.eqb_spec x r); [subst; tauto|]. cbn. rewrite IH; tauto.
Qed.
Lemma remove_keys : forall r l, NoDup (keys l) -> keys (remove r l) = without r (keys l).
Proof.
  intros r l. induction l as [|c l IH]; intros H; [reflexivity|]. unfold keys, without in *. cbn in *. inversion H; subst. destruct (N.eqb_spec (n_ref c) r) as [E|E]; cbn.
  - subst. symmetry. apply without_none. auto.
  - rewrite IH; auto.
Qed.
Lemma replace_keys : forall r k l, keys (replace r k l) = keys l.
Proof. intros r k l. unfold keys. induction l as [|c l IH]; [reflexivity|]. cbn. destruct (N.eqb_spec (n_ref c) r); cbn; congruence. Qed.
Lemma replace_length : forall r k l, length (replace r k l) = length l.
Proof. intros r k l. induction l as [|c l IH]; [reflexivity|]. cbn. destruct (N.eqb (n_ref c) r); cbn; congruence. Qed.
Lemma remove_length : forall r l, In r (keys l) -> length l = S (length (remove r l)).
Proof.
  intros r l. induction l as [|c l IH]; intros H; [destruct H|]. cbn in *. destruct (N.eqb_spec (n_ref c) r); [reflexivity|]. cbn. rewrite <- IH; auto. intuition.
Qed.
Lemma without_in : forall r x l, In x (without r l) <-> In x l /\ x <> r.
Proof. intros r x l. unfold without. rewrite filter_In. destruct (N.eqb_spec x r); cbn; intuition congruence. Qed.
Lemma without_nodup : forall r l, NoDup l -> NoDup (without r l).
Proof. intros. apply NoDup_filter. auto. Qed.
Lemma from_ref_key : forall r s c, from_ref r s = Some c -> n_ref c = r /\ In c (t_conns s) /\ In r (keys (t_conns s)).
Proof.
  intros r s c H. apply find_some in H. destruct H as [H1 H2]. apply N.eqb_eq in H2. repeat split; auto. subst. apply in_map. auto.
Qed.
Lemma from_ref_none : forall r s, from_ref r s = None <-> ~ In r (keys (t_conns s)).
Proof.
  intros r s. split.
  - intros H I. unfold keys in I. apply in_map_iff in I. destruct I as (c & <- & I). pose proof (find_none _ _ H c I) as X. cbn in X. rewrite N.eqb_refl in X. discriminate.
  - intros H. destruct (from_ref r s) as [c|] eqn:E; auto. apply from_ref_key in E. tauto.
Qed.

Record inv (s : net) (o a : list N) : Prop := {
  i_map : keys (t_conns s) = o; i_all : NoDup a; i_nd : NoDup o; i_incl : incl o a;
  i_le : forall r, In r a -> r <= t_ref s; i_count : t_count s = N.of_nat (length (t_conns s)) }.

(** What does not touch the connections. *)
Definition same (s s' : net) : Prop := keys (t_conns s') = keys (t_conns s) /\ t_ref s' = t_ref s /\ t_count s' = t_count s /\ length (t_conns s') = length (t_conns s).
Lemma same_inv : forall s s' o a, same s s' -> inv s o a -> inv s' o a.
Proof. intros s s' o a (E1 & E2 & E3 & E4) [H1 H2 H3 H4 H5 H6]. split; [congruence|auto|auto|auto|rewrite E2; auto|congruence]. Qed.
Lemma same_refl : forall s, same s s.
Proof. repeat split. Qed.
Lemma same_trans : forall a b c, same a b -> same b c -> same a c.
Proof. unfold same. intuition congruence. Qed.
Lemma put_same : forall r k s, same s (put r k s).
Proof. intros. unfold same, put. cbn. rewrite replace_keys, replace_length. auto. Qed.

Lemma destroy_inv : forall r s o a, inv s o a -> In r o -> inv (fst (destroy r s)) (without r o) a.
Proof.
  intros r s o a [H1 H2 H3 H4 H5 H6] I.
  assert (X : inv (set_conns (remove r (t_conns s)) (t_count s - 1) s) (without r o) a).
  { split; cbn; auto.
    - rewrite remove_keys; congruence.
    - apply without_nodup. auto.
    - intros x Y. apply without_in in Y. apply H4. tauto.
    - rewrite H6. rewrite (remove_length r (t_conns s)) by congruence. lia. }
  unfold destroy, free_conn. cbv zeta. destruct (_ && _); [destruct (t_cb _)|]; cbn [fst]; auto; (eapply same_inv; [|exact X]; repeat split).
Qed.
Lemma destroy_outs : forall r s, snd (destroy r s) = [Gone r] \/ snd (destroy r s) = [Gone r; CloseCb].
Proof. intros r s. unfold destroy, free_conn. cbv zeta. destruct (_ && _); [destruct (t_cb _)|]; cbn; auto. Qed.
Lemma destroy_change : forall r s o, fold_left change (snd (destroy r s)) o = without r o.
Proof. intros r s o. destruct (destroy_outs r s) as [-> | ->]; reflexivity. Qed.
Lemma destroy_ref : forall r s, t_ref (fst (destroy r s)) = t_ref s.
Proof. intros r s. unfold destroy, free_conn. cbv zeta. destruct (_ && _); reflexivity. Qed.

Definition plain (x : out) : bool := match x with Created _ | Ref (Some _) | Gone _ => false | _ => true end.
Lemma plain_change : forall l o, forallb plain l = true -> fold_left change l o = o /\ flat_map new_ref l = [].
Proof.
  induction l as [|x l IH]; intros o H; [auto|]. cbn in H. apply andb_prop in H. destruct H as [H1 H2]. destruct x; try discriminate; cbn; auto.
  destruct r; try discriminate; cbn; auto.
Qed.
(** A part of a step keeps the invariant and gives no new reference. *)
Definition quiet (s : net) (r : net * list out) : Prop :=
  flat_map new_ref (snd r) = [] /\ t_ref (fst r) = t_ref s /\ forall o a, inv s o a -> inv (fst r) (fold_left change (snd r) o) a.
Lemma quiet_same : forall s s' l, same s s' -> forallb plain l = true -> quiet s (s', l).
Proof.
  intros s s' l H P. split; [apply (plain_change l []); auto|]. split; [apply H|]. intros o a I. cbn. destruct (plain_change l o P) as [-> _]. eapply same_inv; eauto.
Qed.
Lemma quiet_app : forall s s1 l1 s2 l2, quiet s (s1, l1) -> quiet s1 (s2, l2) -> quiet s (s2, l1 ++ l2).
Proof.
  intros s s1 l1 s2 l2 (A1 & A2 & A3) (B1 & B2 & B3). cbn in *. split; cbn; [rewrite flat_map_app, A1, B1; auto|]. split; [congruence|].
  intros o a I. rewrite fold_left_app. auto.
Qed.
Lemma quiet_destroy : forall r s, (forall o a, inv s o a -> In r o) -> quiet s (destroy r s).
Proof.
  intros r s H. split; [destruct (destroy_outs r s) as [-> | ->]; reflexivity|]. split; [apply destroy_ref|].
  intros o a I. rewrite destroy_change. apply destroy_inv; eauto.
Qed.
Lemma known_key : forall r s c, from_ref r s = Some c -> forall o a, inv s o a -> In r o.
Proof. intros r s c H o a I. rewrite <- (i_map _ _ _ I). eapply from_ref_key; eauto. Qed.

Lemma quiet_data : forall r k ch seq bytes s, quiet s (handle_data r k ch seq bytes s).
Proof.
  intros. unfold handle_data. destruct bytes; [apply quiet_same; auto; apply same_refl|].
  destruct (_ && _); [destruct (_ && _)|]; apply quiet_same; auto; try apply put_same; apply same_refl.
Qed.
Lemma quiet_dtls : forall r ch v s, quiet s (handle_dtls r ch v s).
Proof.
  intros. unfold handle_dtls. destruct (from_ref r s) as [[r0 [k|]]|] eqn:E; try (apply quiet_same; auto; apply same_refl).
  destruct v; [apply quiet_same; auto; apply same_refl|apply quiet_data|apply quiet_destroy; eapply known_key; eauto].
Qed.
Lemma quiet_all : forall r ch l s, quiet s (handle_all r ch l s).
Proof.
  intros r ch l. induction l as [|v l IH]; intros s; [apply quiet_same; auto; apply same_refl|]. cbn [handle_all].
  pose proof (quiet_dtls r ch v s) as Q. destruct (handle_dtls r ch v s) as [s1 a]. specialize (IH s1). destruct (handle_all r ch l s1) as [s2 b]. eapply quiet_app; eauto.
Qed.
Lemma quiet_cons : forall s x r, plain x = true -> quiet s r -> quiet s (fst r, x :: snd r).
Proof.
  intros s x [s1 l] P Q. change (x :: snd (s1, l)) with ([x] ++ l). eapply quiet_app; [|exact Q]. apply quiet_same; [apply same_refl|]. cbn. rewrite P. auto.
Qed.
Lemma quiet_client : forall b e r k sock ep p s, quiet s (client_packet b e r k sock ep p s).
Proof.
  intros. unfold client_packet. destruct (nth_error p 15); [|apply quiet_same; auto; apply same_refl]. cbv zeta.
  match goal with |- context [handle_all r ?c ?l (put r ?k1 s)] => pose proof (quiet_all r c l (put r k1 s)) as Q; set (s1 := put r k1 s) in *;
    assert (S : same s s1) by apply put_same; destruct (handle_all r c l s1) as [s2 l2] end.
  apply (quiet_cons s (ToDtls _ _ _) (s2, l2)); [reflexivity|]. change l2 with ([] ++ l2). eapply quiet_app; [|exact Q]. apply quiet_same; auto.
Qed.
Lemma quiet_error : forall sock ep p s, quiet s (internal_error sock ep p s).
Proof. intros. unfold internal_error. destruct (t_err s); [|destruct (Nat.ltb _ _)]; apply quiet_same; auto; repeat split. Qed.

(** A new connection. *)
Lemma alloc_inv : forall mem impl s o a, inv s o a -> t_ref s < u64_max ->
  match alloc mem impl s with
  | (s', Some r) => inv s' (o ++ [r]) (a ++ [r]) /\ t_ref s' = t_ref s + 1 /\ N.of_nat (length o) < t_limit s /\ ~ In r a
  | (s', None) => same (set_ref (t_ref s') s) s' /\ t_ref s' = t_ref s
  end.
Proof.
  intros mem impl s o a I L. unfold alloc. destruct (N.leb_spec (t_limit s) (t_count s)) as [X|X]; [repeat split|].
  destruct mem; [|repeat split]. unfold next_ref.
  assert (E : (t_ref s + 1) mod (u64_max + 1) = t_ref s + 1) by (apply N.mod_small; lia). rewrite E.
  destruct (N.ltb_spec (t_ref s + 1) (t_ref s)) as [Y|Y]; [lia|]. destruct I as [H1 H2 H3 H4 H5 H6].
  assert (F : ~ In (t_ref s + 1) a) by (intros Z; apply H5 in Z; lia).
  assert (ND : forall l : list N, NoDup l -> ~ In (t_ref s + 1) l -> NoDup (l ++ [t_ref s + 1])).
  { intros l N1 N2. apply NoDup_rev in N1. rewrite <- (rev_involutive (l ++ _)), rev_unit. apply NoDup_rev. constructor; auto. rewrite <- in_rev. auto. }
  split; [split|split; [reflexivity|split; [|exact F]]].
  - cbn. unfold keys in *. rewrite map_app, H1. reflexivity.
  - auto.
  - auto.
  - intros x Z. apply in_app_iff in Z. apply in_or_app. destruct Z; auto.
  - cbn. intros x Z. apply in_app_iff in Z. destruct Z as [Z|[<-|[]]]; [apply H5 in Z; lia|lia].
  - cbn. rewrite H6, app_length. cbn. lia.
  - rewrite <- H1. unfold keys. rewrite map_length, <- H6. exact X.
Qed.

Definition good_step (s : net) (r : net * list out) : Prop :=
  forall o a, inv s o a -> t_ref s < u64_max ->
    inv (fst r) (fold_left change (snd r) o) (a ++ flat_map new_ref (snd r)) /\ t_ref (fst r) <= t_ref s + 1 /\
    (flat_map new_ref (snd r) <> [] -> N.of_nat (length o) < t_limit s).
Lemma quiet_good : forall s r, quiet s r -> good_step s r.
Proof. intros s r (Q1 & Q2 & Q3) o a I L. rewrite Q1, app_nil_r. split; auto. split; [lia|]. congruence. Qed.

Lemma good_clients : forall b e sock ep p s, good_step s (clients_packet b e sock ep p s).
Proof.
  intros b e sock ep p s. unfold clients_packet. destruct (Nat.ltb _ _); [apply quiet_good, quiet_same; auto; apply same_refl|].
  destruct (from_id p s) as [[r [k|]]|] eqn:F; [apply quiet_good, quiet_client|apply quiet_good, quiet_same; auto; apply same_refl|].
  destruct (nth_error p 16) as [t|]; [|apply quiet_good, quiet_same; auto; apply same_refl].
  destruct (nth_error p 15) as [ch|]; [|apply quiet_good, quiet_same; auto; apply same_refl].
  destruct (copy 16 p) as [id|]; [|apply quiet_good, quiet_same; auto; apply same_refl].
  destruct (N.eqb t 22); [|apply quiet_good, quiet_same; auto; apply same_refl].
  cbv zeta. match goal with |- context [alloc ?m ?i s] => set (im := i); pose proof (alloc_inv m im s) as A; destruct (alloc m im s) as [s1 [r|]] end.
  - intros o a I L. destruct (A o a I L) as (I1 & A2 & A3 & A4). destruct (a_init e).
    + destruct (quiet_all r ch (a_dtls e) s1) as (Q1 & Q2 & Q3). destruct (handle_all r ch (a_dtls e) s1) as [s2 l]. cbn [fst snd] in *.
      assert (X : flat_map new_ref (Created r :: match b with ServerBuild => [ToDtls r ch (skipn 16 p)] | ClientOnlyBuild => [] end ++ l) = [r]).
      { destruct b; cbn; rewrite Q1; reflexivity. }
      rewrite X. split; [|split; [lia|auto]]. destruct b; cbn; apply Q3; auto.
    + pose proof (quiet_error sock ep p s1) as (Q1 & Q2 & Q3). destruct (internal_error sock ep p s1) as [s2 l1] eqn:EE. cbn [fst snd] in *.
      assert (PL : forallb plain l1 = true).
      { unfold internal_error in EE. destruct (t_err s1); [|destruct (Nat.ltb _ _)]; injection EE as <- <-; reflexivity. }
      assert (I2 : inv s2 (o ++ [r]) (a ++ [r])) by (destruct (plain_change l1 (o ++ [r]) PL) as [E _]; rewrite <- E; apply Q3; auto).
      pose proof (destroy_inv r s2 _ _ I2 ltac:(apply in_or_app; right; left; auto)) as D. pose proof (destroy_change r s2) as DC.
      pose proof (destroy_outs r s2) as DO. pose proof (destroy_ref r s2) as DR. destruct (destroy r s2) as [s3 l2]. cbn [fst snd] in *.
      assert (N1 : flat_map new_ref (l1 ++ l2) = []) by (rewrite flat_map_app, Q1; destruct DO as [-> | ->]; reflexivity).
      rewrite N1, app_nil_r. split; [|split; [lia|congruence]]. rewrite fold_left_app. destruct (plain_change l1 o PL) as [-> _]. rewrite DC.
      assert (NI : ~ In r o) by (intros Z; apply A4; apply I; auto).
      replace (without r o) with (without r (o ++ [r])).
      * destruct D as [D1 D2 D3 D4 D5 D6]. split; auto; [apply I| |].
        -- intros x Z. apply without_in in Z. destruct Z as [Z1 Z2]. apply in_app_iff in Z1. destruct Z1 as [Z1|[Z1|[]]]; [apply I; auto|congruence].
        -- intros x Z. rewrite DR, Q2, A2. apply (i_le _ _ _ I) in Z. lia.
      * unfold without. rewrite filter_app. cbn. rewrite N.eqb_refl. cbn. apply app_nil_r.
  - intros o a I L. destruct (A o a I L) as [A1 A2].
    assert (I1 : inv s1 o a). { eapply same_inv; [exact A1|]. eapply same_inv; [|exact I]. rewrite A2. repeat split. }
    assert (L1 : t_ref s1 < u64_max) by lia.
    destruct (quiet_good _ _ (quiet_error sock ep p s1) o a I1 L1) as (G1 & G2 & G3).
    split; [exact G1|]. split; [lia|]. pose proof (quiet_error sock ep p s1) as (Q1 & _). rewrite Q1. congruence.
Qed.
Lemma quiet_rv_send : forall mem s, quiet s (rv_send mem s).
Proof.
  intros. unfold rv_send. destruct (t_busy s); [apply quiet_same; auto; apply same_refl|]. destruct (t_queue s) as [|r q]; [apply quiet_same; auto; apply same_refl|].
  destruct mem; [destruct (r_sock r)|]; apply quiet_same; auto; repeat split.
Qed.
Lemma quiet_first : forall s s1 r, same s s1 -> quiet s1 r -> quiet s r.
Proof. intros s s1 [s2 l] S Q. change l with ([] ++ l). eapply quiet_app; [|exact Q]. apply quiet_same; auto. Qed.
Lemma quiet_rv_queue : forall mem r s, quiet s (rv_queue mem r s).
Proof.
  intros. unfold rv_queue. destruct (Nat.leb _ _); [apply quiet_same; auto; apply same_refl|].
  destruct (match r_sock r with Some k => Some k | None => t_default s end); [|apply quiet_same; auto; apply same_refl].
  eapply quiet_first; [|apply quiet_rv_send]. repeat split.
Qed.
Lemma quiet_rv : forall e sock ep p s, quiet s (rv_packet e sock ep p s).
Proof.
  intros. unfold rv_packet. destruct (Nat.ltb _ _); [apply quiet_same; auto; apply same_refl|].
  destruct (nth_error p 16); [|apply quiet_same; auto; apply same_refl].
  destruct (copy 14 (skipn 1 p)); [|apply quiet_same; auto; apply same_refl].
  destruct (nth_error p 15); [|apply quiet_same; auto; apply same_refl].
  destruct (N.eqb n 1); [|destruct (N.eqb n 4)]; try apply quiet_rv_queue; try (apply quiet_same; auto; apply same_refl).
  destruct (copy 14 (skipn 2 p)); [|apply quiet_same; auto; apply same_refl].
  destruct (from_id (skipn 1 p) s); [apply quiet_rv_queue|apply quiet_same; auto; apply same_refl].
Qed.
Lemma close_each_inv : forall l sync s o a, inv s o a -> NoDup (keys l) -> incl (keys l) o ->
  let r := fst (close_each l sync s) in
  flat_map new_ref (snd r) = [] /\ t_ref (fst r) = t_ref s /\ inv (fst r) (fold_left change (snd r) o) a.
Proof.
  induction l as [|[r [k|]] l IH]; intros sync s o a I ND H; cbv zeta; cbn [close_each]; [auto| |].
  - inversion ND; subst. assert (In r o) by (apply H; left; auto). destruct sync as [|[|] sync]; cbn [tl].
    + destruct (IH [] s o a I H3 (fun x X => H x (or_intror X))) as (A & B & C). destruct (close_each l [] s) as [[s2 b] x]. auto.
    + pose proof (destroy_inv r s o a I H0) as D. pose proof (destroy_change r s o) as DC. pose proof (destroy_outs r s) as DO. pose proof (destroy_ref r s) as DR.
      destruct (destroy r s) as [s1 a1]. cbn [fst snd] in *.
      assert (X : incl (keys l) (without r o)).
      { intros x X. apply without_in. split; [apply H; right; auto|]. intros ->. cbn in H2. auto. }
      destruct (IH sync s1 (without r o) a D H3 X) as (A & B & C). destruct (close_each l sync s1) as [[s2 b] x]. cbn [fst snd] in *.
      rewrite flat_map_app, A, fold_left_app, DC. split; [destruct DO as [-> | ->]; reflexivity|]. split; [congruence|auto].
    + destruct (IH sync s o a I H3 (fun x X => H x (or_intror X))) as (A & B & C). destruct (close_each l sync s) as [[s2 b] x]. auto.
  - inversion ND; subst. apply IH; auto. intros x X. apply H. right. auto.
Qed.
Lemma good_close_all : forall cb sync s, good_step s (close_all cb sync s).
Proof.
  intros cb sync s o a I L. unfold close_all.
  assert (I1 : inv (set_closing true (t_cb s) s) o a) by (eapply same_inv; [|exact I]; repeat split).
  pose proof (close_each_inv (t_conns s) sync _ o a I1) as C. cbv zeta in C. destruct I as [H1 H2 H3 H4 H5 H6]. rewrite H1 in C.
  specialize (C H3 (incl_refl o)). destruct (close_each (t_conns s) sync (set_closing true (t_cb s) s)) as [[s1 l] act]. cbn [fst snd] in C. destruct C as (C1 & C2 & C3).
  cbn in C2. assert (X : forall c, flat_map new_ref (l ++ [Return c]) = []) by (intros c; rewrite flat_map_app, C1; reflexivity).
  destruct act; cbn [fst snd]; rewrite X, app_nil_r, fold_left_app; cbn; (split; [|split; [lia|congruence]]); auto.
  eapply same_inv; [|exact C3]. repeat split.
Qed.
Lemma quiet_with : forall r f s, (forall k, quiet s (f k s)) -> quiet s (with_client r f s).
Proof. intros r f s H. unfold with_client. destruct (from_ref r s) as [[r0 [k|]]|]; auto; apply quiet_same; auto; apply same_refl. Qed.
Lemma good : forall b e o s, good_step s (step b e o s).
Proof.
  intros b e o s. destruct o; cbn [step].
  - unfold handle_packet. destruct p as [|x p]; [apply quiet_good, quiet_same; auto; apply same_refl|].
    destruct (_ && _); [apply quiet_good, quiet_same; auto; apply same_refl|]. destruct (_ && _); [apply quiet_good, quiet_same; auto; apply same_refl|].
    destruct (_ && _); [apply good_clients|]. destruct (_ && _); [apply quiet_good, quiet_rv|apply quiet_good, quiet_same; auto; apply same_refl].
  - apply quiet_good, quiet_with. intros k. apply quiet_dtls.
  - apply quiet_good, quiet_with. intros k. unfold send_to_udp. destruct (k_sent k); [apply quiet_same; auto; apply same_refl|]. cbv zeta.
    destruct (_ || _); [|destruct (N.eqb _ _)]; apply quiet_same; auto; apply put_same.
  - apply quiet_good, quiet_with. intros k. unfold sent_cb. destruct (k_sent k); apply quiet_same; auto; try apply put_same; apply same_refl.
  - apply quiet_good, quiet_same; auto; repeat split.
  - destruct (t_busy s); [|apply quiet_good, quiet_same; auto; apply same_refl]. apply quiet_good. eapply quiet_first; [|apply quiet_rv_send]. repeat split.
  - apply quiet_good, quiet_rv_queue.
  - intros o a I L. pose proof (alloc_inv (a_mem e) None s o a I L) as A. destruct (alloc (a_mem e) None s) as [s1 [r|]]; cbn [fst snd flat_map new_ref fold_left change app].
    + destruct A as (A1 & A2 & A3 & A4). split; [exact A1|]. split; [lia|auto].
    + destruct A as (A1 & A2). rewrite app_nil_r. split; [|split; [lia|congruence]]. eapply same_inv; [exact A1|]. eapply same_inv; [|exact I]. rewrite A2. repeat split.
  - apply quiet_good. destruct (from_ref ref s) as [[r0 [k|]]|] eqn:E; try (apply quiet_same; auto; apply same_refl). apply quiet_destroy. eapply known_key; eauto.
  - apply quiet_good, quiet_same; auto; repeat split.
  - apply good_close_all.
  - apply quiet_good, quiet_same; auto; repeat split.
Qed.

(** ** Histories *)
Lemma run_app : forall b h1 h2 s, run b s (h1 ++ h2) = let (s1, t1) := run b s h1 in let (s2, t2) := run b s1 h2 in (s2, t1 ++ t2).
Proof.
  intros b. induction h1 as [|m h1 IH]; intros h2 s; cbn; [destruct (run b s h2); reflexivity|].
  destruct (step b (snd m) (fst m) s) as [s1 l]. rewrite IH. destruct (run b s1 h1) as [s2 t1]. destruct (run b s2 h2). reflexivity.
Qed.
Lemma last_run : forall b (h : list move) m s, run b s (h ++ [m]) =
  (fst (step b (snd m) (fst m) (fst (run b s h))), snd (run b s h) ++ [(m, snd (step b (snd m) (fst m) (fst (run b s h))))]).
Proof. intros. rewrite run_app. destruct (run b s h) as [s1 t]. cbn. destruct (step b (snd m) (fst m) s1). reflexivity. Qed.
Lemma run_split : forall b (h : list move) s t1 m l t2, snd (run b s h) = t1 ++ (m, l) :: t2 ->
  exists h1 h2, h = h1 ++ m :: h2 /\ snd (run b s h1) = t1 /\ l = snd (step b (snd m) (fst m) (fst (run b s h1))).
Proof.
  intros b. induction h as [|m0 h IH]; intros s t1 m l t2 H; [destruct t1; discriminate|].
  cbn in H. destruct (step b (snd m0) (fst m0) s) as [s1 l0] eqn:ST. destruct (run b s1 h) as [s2 t] eqn:R. cbn in H.
  destruct t1 as [|x t1]; cbn in H.
  - injection H as -> -> ->. exists [], h. cbn. rewrite ST. auto.
  - injection H as <- H. specialize (IH s1 t1 m l t2). rewrite R in IH. destruct (IH H) as (h1 & h2 & -> & E1 & E2).
    exists (m0 :: h1), h2. cbn. rewrite ST. destruct (run b s1 h1) as [s3 t3]. cbn in *. subst. auto.
Qed.
Lemma outs_app : forall t1 t2 : trace, outs (t1 ++ t2) = outs t1 ++ outs t2.
Proof. intros. apply flat_map_app. Qed.
Lemma run_length : forall b h s, length (snd (run b s h)) = length h.
Proof. intros b. induction h as [|m h IH]; intros s; [reflexivity|]. cbn. destruct (step b (snd m) (fst m) s) as [s1 l]. specialize (IH s1). destruct (run b s1 h). cbn in *. congruence. Qed.
Lemma reach : forall b h, N.of_nat (length h) <= u64_max ->
  inv (fst (run b init h)) (opened (snd (run b init h))) (refs (snd (run b init h))) /\ t_ref (fst (run b init h)) <= N.of_nat (length h).
Proof.
  intros b h. induction h as [|m h IH] using rev_ind; intros L.
  - cbn. split; [|lia]. split; cbn; auto; try constructor; try (intros x X; destruct X); try tauto.
  - rewrite app_length in L. cbn in L. destruct IH as [I R]; [lia|]. rewrite last_run. cbn [fst snd].
    destruct (good b (snd m) (fst m) (fst (run b init h)) _ _ I ltac:(lia)) as (G1 & G2 & _).
    split; [|rewrite app_length; cbn; lia]. unfold opened, refs in *. rewrite outs_app, fold_left_app, flat_map_app. unfold outs at 2 4. cbn. rewrite app_nil_r. exact G1.
Qed.
(** What stays the same: the limit. *)
Ltac brk := repeat (match goal with |- context [match ?x with _ => _ end] => lazymatch x with context [match _ with _ => _ end] => fail | _ => destruct x end end; cbn [fst snd]).
Lemma lim_free : forall r s, t_limit (fst (destroy r s)) = t_limit s.
Proof. intros. unfold destroy, free_conn. cbv zeta. brk; reflexivity. Qed.
Lemma lim_dtls : forall r ch v s, t_limit (fst (handle_dtls r ch v s)) = t_limit s.
Proof. intros. unfold handle_dtls. destruct (from_ref r s) as [[r0 [k|]]|]; auto. destruct v; auto; [|apply lim_free]. unfold handle_data. cbv zeta. brk; reflexivity. Qed.
Lemma lim_all : forall r ch l s, t_limit (fst (handle_all r ch l s)) = t_limit s.
Proof.
  intros r ch l. induction l as [|v l IH]; intros s; [reflexivity|]. cbn [handle_all]. pose proof (lim_dtls r ch v s) as L. destruct (handle_dtls r ch v s) as [s1 a].
  specialize (IH s1). destruct (handle_all r ch l s1) as [s2 c]. cbn in *. congruence.
Qed.
Lemma lim_close_each : forall l sync s, t_limit (fst (fst (close_each l sync s))) = t_limit s.
Proof.
  induction l as [|[r [k|]] l IH]; intros sync s; cbn [close_each]; auto. destruct sync as [|[|] sync]; cbn [tl].
  - specialize (IH [] s). destruct (close_each l [] s) as [[s2 c] x]. exact IH.
  - pose proof (lim_free r s) as L. destruct (destroy r s) as [s1 a]. specialize (IH sync s1). destruct (close_each l sync s1) as [[s2 c] x]. cbn in *. congruence.
  - specialize (IH sync s). destruct (close_each l sync s) as [[s2 c] x]. exact IH.
Qed.
Lemma lim_error : forall k ep p s, t_limit (fst (internal_error k ep p s)) = t_limit s.
Proof. intros. unfold internal_error. brk; reflexivity. Qed.
Lemma lim_alloc : forall m i s, t_limit (fst (alloc m i s)) = t_limit s.
Proof. intros. unfold alloc, next_ref. cbv zeta. destruct (N.leb _ _); [reflexivity|]. destruct m; [|reflexivity]. destruct (N.ltb _ _); reflexivity. Qed.
Lemma lim_clients : forall b e k ep p s, t_limit (fst (clients_packet b e k ep p s)) = t_limit s.
Proof.
  intros. unfold clients_packet. destruct (Nat.ltb _ _); [reflexivity|]. destruct (from_id p s) as [[r [c|]]|]; [|reflexivity|].
  - unfold client_packet. destruct (nth_error p 15); [|reflexivity]. cbv zeta.
    match goal with |- context [handle_all r ?c ?l ?s1] => pose proof (lim_all r c l s1) as L; destruct (handle_all r c l s1) end. exact L.
  - destruct (nth_error p 16); [|reflexivity]. destruct (nth_error p 15); [|reflexivity]. destruct (copy 16 p); [|reflexivity]. destruct (N.eqb _ _); [|reflexivity]. cbv zeta.
    match goal with |- context [alloc ?m ?i s] => pose proof (lim_alloc m i s) as A; destruct (alloc m i s) as [s1 [r|]] end; cbn in A; [|rewrite lim_error; exact A].
    destruct (a_init e).
    + match goal with |- context [handle_all r ?c ?l ?s1] => pose proof (lim_all r c l s1) as L; destruct (handle_all r c l s1) end. cbn in *. congruence.
    + pose proof (lim_error k ep p s1) as L. destruct (internal_error k ep p s1) as [s2 l1]. pose proof (lim_free r s2) as F. destruct (destroy r s2). cbn in *. congruence.
Qed.
Lemma lim_rv : forall m r s, t_limit (fst (rv_queue m r s)) = t_limit s.
Proof. intros. unfold rv_queue, rv_send. destruct (Nat.leb _ _); [reflexivity|]. destruct (match r_sock r with Some k => Some k | None => t_default s end); [|reflexivity]. cbn. destruct (t_busy s); [reflexivity|]. destruct m; reflexivity. Qed.
Lemma lim_step : forall b e o s, t_limit (fst (step b e o s)) = match o with Limit n => n | _ => t_limit s end.
Proof.
  intros b e o s. destruct o; cbn [step]; try reflexivity.
  - unfold handle_packet. destruct p as [|x p]; [reflexivity|]. destruct (_ && _); [reflexivity|]. destruct (_ && _); [reflexivity|].
    destruct (_ && _); [apply lim_clients|]. destruct (_ && _); [|reflexivity]. unfold rv_packet. destruct (Nat.ltb _ _); [reflexivity|].
    destruct (nth_error _ 16); [|reflexivity]. destruct (copy 14 _); [|reflexivity]. destruct (nth_error _ 15); [|reflexivity].
    destruct (N.eqb n 1); [|destruct (N.eqb n 4); [apply lim_rv|reflexivity]]. destruct (copy 14 _); [|reflexivity]. destruct (from_id _ s); [apply lim_rv|reflexivity].
  - unfold with_client. destruct (from_ref ref s) as [[r0 [k|]]|]; auto. apply lim_dtls.
  - unfold with_client. destruct (from_ref ref s) as [[r0 [k|]]|]; auto. unfold send_to_udp. cbv zeta. brk; reflexivity.
  - unfold with_client. destruct (from_ref ref s) as [[r0 [k|]]|]; auto. unfold sent_cb. brk; reflexivity.
  - destruct (t_busy s); [|reflexivity]. unfold rv_send. cbn. destruct (t_queue s) as [|r q]; [reflexivity|]. destruct (a_buf e); [|reflexivity]. destruct (r_sock r); reflexivity.
  - apply lim_rv.
  - pose proof (lim_alloc (a_mem e) None s) as A. destruct (alloc (a_mem e) None s) as [s1 [r|]]; exact A.
  - destruct (from_ref ref s) as [[r0 [k|]]|]; auto. apply lim_free.
  - unfold close_all. pose proof (lim_close_each (t_conns s) (a_sync e) (set_closing true (t_cb s) s)) as C.
    destruct (close_each (t_conns s) (a_sync e) (set_closing true (t_cb s) s)) as [[s1 l] [|]]; exact C.
Qed.
Lemma is_limit : forall b h, t_limit (fst (run b init h)) = limit (snd (run b init h)).
Proof.
  intros b h. induction h as [|m h IH] using rev_ind; [reflexivity|]. rewrite last_run. cbn [fst snd]. rewrite lim_step, IH. unfold limit. rewrite fold_left_app. reflexivity.
Qed.
