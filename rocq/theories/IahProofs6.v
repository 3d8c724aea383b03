(** * Decisions when memory is short (C97) *)
From Coq Require Import String List Bool Arith Lia.
From Verif Require Import IamPolicyModel IamPolicySpec IamPolicyProofs IamStateModel IamStateSpec IamStateInv IahModel IahSpec.
From Verif Require Import IahProofs5.
Import ListNotations.
Open Scope string_scope.
Open Scope list_scope.
Open Scope nat_scope.

Definition sub (m m' : attrs) : Prop := forall k v, attr_get k m = Some v -> attr_get k m' = Some v.

Lemma sub_denotes : forall m m' v x, sub m m' -> denotes m v x -> denotes m' v x.
Proof. intros m m' v x S H. destruct H; [apply den_var; now apply S|now apply den_lit]. Qed.

Lemma sub_cond : forall L c m m', (c_op c = StringEquals \/ c_op c = StringNotEquals) -> sub m m' -> cond_holds L c m -> cond_holds L c m'.
Proof.
  intros L c m m' Hc S H. apply cond_match_spec. apply well_typed_match; [now apply string_well_typed|].
  destruct H as (a & pre & v & post & x & H1 & H2 & _ & H4 & H5). exists a, v, x.
  split; [now apply S|]. split; [rewrite H2; apply in_or_app; right; now left|]. split; [eapply sub_denotes; eauto|exact H5].
Qed.

Lemma sub_grants : forall L c r a m m', mild c -> sub m m' -> grants L c r a m -> grants L c r a m'.
Proof.
  intros L c r a m m' M S (G1 & G2 & G3). split; [exact G1|]. split.
  - intros s Hs. assert (K := M s). destruct Hs as (n & p & Hn & (l1 & l2 & Hp & _) & Hin).
    destruct (K p) as (K1 & K2); [rewrite Hp; apply in_or_app; right; now left|exact Hin|]. split.
    + intros (_ & pre & k & post & Hk & _ & He).
      assert (Hk' : In k (s_conds s)) by (rewrite Hk; apply in_or_app; right; now left).
      rewrite Forall_forall in K2. apply cond_err_spec in He.
      exact (well_typed_no_error L k m' (string_well_typed L k m' (K2 k Hk')) He).
    + intros _. rewrite K1. split; discriminate.
  - destruct G3 as (s & Hs & (Ha & Hc) & He). exists s. split; [exact Hs|]. split; [|exact He]. split; [exact Ha|].
    destruct Hs as (n & p & Hn & (l1 & l2 & Hp & _) & Hin).
    destruct (M s p) as (_ & K2); [rewrite Hp; apply in_or_app; right; now left|exact Hin|].
    rewrite Forall_forall in *. intros k Hk. eapply sub_cond; [now apply K2|exact S|now apply Hc].
Qed.
Lemma sub_decide : forall L c rs a m m', mild c -> sub m m' -> decide L c rs a m = true -> decide L c rs a m' = true.
Proof.
  intros L c rs a m m' M S H. apply decide_spec in H. destruct H as (n & r & H1 & H2 & H3).
  apply decide_spec. exists n, r. split; [exact H1|]. split; [exact H2|]. eapply sub_grants; eauto.
Qed.

Lemma replace_get : forall k v m j x, attr_get j (map_replace k v m) = Some x -> (j = k /\ x = v) \/ attr_get j m = Some x.
Proof.
  intros k v. induction m as [|[k' v'] m IH]; intros j x H; cbn in *; [discriminate|].
  destruct (String.eqb k k') eqn:Ek; cbn in H.
  - apply String.eqb_eq in Ek. subst k'. destruct (String.eqb_spec j k) as [->|]; [left; split; congruence|auto].
  - destruct (String.eqb j k'); auto.
Qed.
Lemma insert_get : forall ok E k v m j x, attr_get j (insert ok E k v m) = Some x -> (j = k /\ x = v) \/ attr_get j m = Some x.
Proof.
  intros ok E k v m j x H. unfold insert in H. destruct ok; [|auto]. unfold map_insert in H.
  destruct (attr_get k m) eqn:Hk.
  - destruct (e_overwrite E); [now apply replace_get in H|auto].
  - rewrite attr_get_app_new in H by exact Hk. destruct (string_dec j k); [left; split; [exact e|congruence]|auto].
Qed.
Lemma inserts_get : forall E ok l n m j x, attr_get j (inserts E ok n l m) = Some x -> In (j, x) l \/ attr_get j m = Some x.
Proof.
  intros E ok. induction l as [|[k v] l IH]; intros n m j x H; cbn in *; [auto|].
  apply IH in H. destruct H as [H|H]; [auto|]. apply insert_get in H. destruct H as [(-> & ->)|H]; auto.
Qed.
Lemma adds_in : forall q j x, In (j, x) (rev (adds_of q)) -> attr_get j (rev (adds_of q)) = Some x.
Proof.
  intros q j x H. destruct q as [|u t|u t]; cbn in H; [destruct H| |]; destruct H as [H|[H|[]]]; injection H as <- <-; reflexivity.
Qed.

Lemma inserts_in : forall E ok l n m j x, In (j, x) (inserts E ok n l m) -> In (j, x) l \/ In (j, x) m.
Proof.
  intros E ok. induction l as [|[k v] l IH]; intros n m j x H; cbn in *; [auto|].
  apply IH in H. destruct H as [H|H]; [auto|].
  assert (K : (j = k /\ x = v) \/ In (j, x) m).
  { unfold insert in H. destruct (ok n); [|auto]. unfold map_insert in H. destruct (attr_get k m).
    - destruct (e_overwrite E); [|auto]. clear - H. induction m as [|[k' v'] m IHm]; cbn in *; [destruct H|].
      destruct (String.eqb k k') eqn:Ek; cbn in H; destruct H as [H|H]; try (right; now right).
      + injection H as <- <-. left. auto.
      + right. left. exact H.
      + destruct (IHm H) as [K|K]; auto.
    - apply in_app_iff in H. destruct H as [H|[H|[]]]; [auto|]. injection H as <- <-. auto. }
  destruct K as [(-> & ->)|K]; auto.
Qed.

Lemma short_sub : forall E x q, sub (inserts E (m_copy x) 0 (inserts E (m_take x) 0 (rev (adds_of q)) []) []) (rev (adds_of q)).
Proof.
  intros E x q k v H. apply inserts_get in H. destruct H as [H|H]; [|discriminate]. apply inserts_in in H.
  destruct H as [H|[]]. now apply adds_in.
Qed.

Lemma short_decision : forall E y j look ref q, mild (i_conf j) -> m_fp y = true -> m_name y = true ->
  verdict E y j look {| k_ref := ref; k_action := action_of q; k_attrs := rev (adds_of q) |} = Some true ->
  Decision E j (look ref) q true.
Proof.
  intros E y j look ref q M P1 P2 V. rewrite verdict_full in V.
  unfold check_access_mem in V. cbv zeta in V. rewrite blur_plenty in V by assumption.
  assert (S := short_sub E y q). set (m0 := inserts E (m_copy y) 0 _ []) in *.
  assert (S1 : sub (insert (m_local y) E "Connection:IsLocal" (if cn_local (look ref) then "true" else "false") m0)
                   (map_insert E "Connection:IsLocal" (if cn_local (look ref) then "true" else "false") (rev (adds_of q)))).
  { destruct (service_reserved q) as (R1 & R2). intros k v H. rewrite map_insert_new by exact R1. apply insert_get in H.
    destruct H as [(-> & ->)|H]; [now destruct (string_dec _ _)|]. apply S in H.
    destruct (string_dec k "Connection:IsLocal") as [->|]; [congruence|exact H]. }
  set (m1 := insert (m_local y) _ _ _ m0) in *. set (m2 := map_insert E "Connection:IsLocal" _ _) in *.
  assert (R3 : attr_get "Connection:Username" m2 = None).
  { unfold m2. rewrite map_insert_new; [|apply service_reserved]. destruct (string_dec _ _); [discriminate|]. apply service_reserved. }
  assert (S2 : forall u, sub (insert (m_user y) E "Connection:Username" (u_name u) m1) (map_insert E "Connection:Username" (u_name u) m2)).
  { intros u k v H. rewrite map_insert_new by exact R3. apply insert_get in H.
    destruct H as [(-> & ->)|H]; [now destruct (string_dec _ _)|]. apply S1 in H.
    destruct (string_dec k "Connection:Username") as [->|]; [congruence|exact H]. }
  assert (C : check_access E j (look ref) (action_of q) (rev (adds_of q)) = Some true).
  { unfold check_access. cbv zeta. fold m2.
    destruct (cn_fp (look ref)), (cn_virtual (look ref)); try discriminate V;
      destruct (resolve_user j (look ref)) as [[u|]|]; try discriminate V; injection V as V; f_equal;
      (eapply sub_decide; [exact M| |exact V]); auto. }
  apply access_identity in C; [|apply service_reserved].
  destruct C as [C|(C1 & who & m' & C2 & C3 & C4)]; [left; exact C|].
  right. split; [exact C1|]. exists who, (rev (adds_of q)), m'. split; [exact C2|]. split; [apply service_full|]. split; [exact C3|]. rewrite C4. apply named_action.
Qed.

