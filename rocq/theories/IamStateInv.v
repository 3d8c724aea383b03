(** Frame lemmas and invariants of the IAM state. *)
From Coq Require Import String Ascii List Bool Arith NArith Lia.
From Verif Require Import IamPolicyModel IamPolicySpec IamPolicyProofs IamStateModel IamStateSpec IamStateProofs.
Import ListNotations.
Open Scope string_scope.
Set Implicit Arguments.
Unset Strict Implicit.

(** ** C06 *)

Lemma attr_get_app_new : forall m k v j, attr_get k m = None ->
  attr_get j (m ++ [(k, v)])%list = if string_dec j k then Some v else attr_get j m.
Proof.
  induction m as [|[a b] m IH]; intros k v j H; simpl in *.
  - destruct (string_dec j k) as [->|Hn]; [now rewrite String.eqb_refl|].
    apply String.eqb_neq in Hn. now rewrite Hn.
  - destruct (String.eqb k a) eqn:Hk; [discriminate|]. rewrite IH by auto.
    destruct (string_dec j k) as [->|Hn]; [now rewrite Hk|reflexivity].
Qed.

Lemma map_insert_new : forall E k v m j, attr_get k m = None ->
  attr_get j (map_insert E k v m) = if string_dec j k then Some v else attr_get j m.
Proof. intros. unfold map_insert. rewrite H. now apply attr_get_app_new. Qed.

Lemma deref_in : forall us id u, deref us id = Some u -> In u us /\ u_id u = id.
Proof. intros us id u H. apply find_some in H. rewrite Nat.eqb_eq in H. auto. Qed.

Lemma resolve_identity : forall i c who, resolve_user i c = Some who -> identity i c who.
Proof.
  intros i c who H. unfold resolve_user in H.
  destruct (cn_fp c) as [f|] eqn:Hf.
  - destruct (find_user_fp (users i) (Some f)) as [u|] eqn:Hu.
    + injection H as <-. apply find_fp_first in Hu. eapply id_fingerprint; eauto.
    + apply find_fp_none in Hu.
      assert (NF : no_fp_user i c) by (intros g Hg; rewrite Hf in Hg; injection Hg as <-; auto).
      revert H. destruct (cn_pwauth c) eqn:Hp.
      * destruct (cn_pwname c) as [n|] eqn:Hn.
        -- destruct (find_user (users i) (Some n)) as [u|] eqn:Hfn.
           ++ intros [= <-]. eapply id_password; eauto. now apply find_user_first.
           ++ apply find_user_none in Hfn. intros H.
              assert (NP : no_pw_user i c) by (intros m _ Hm; rewrite Hn in Hm; injection Hm as <-; auto).
              destruct (find _ (i_auth i)) as [[r id]|] eqn:Ha.
              ** destruct (deref (users i) id) as [u|] eqn:Hd; [|discriminate]. injection H as <-.
                 apply deref_in in Hd. destruct Hd as [Hin <-].
                 apply (find_first (P := fun a => fst a = cn_ref c)) in Ha; [|intros; apply Nat.eqb_eq].
                 assert (r = cn_ref c) by (destruct Ha as (? & ? & _ & Hr & _); exact Hr). subst r.
                 eapply id_token; eauto.
              ** injection H as <-. apply id_nobody; auto. intros z Hz.
                 apply (find_none _ _ Ha) in Hz. simpl in Hz. now rewrite Nat.eqb_refl in Hz.
        -- cbn [find_user]. intros H.
           assert (NP : no_pw_user i c) by (intros m _ Hm; congruence).
           destruct (find _ (i_auth i)) as [[r id]|] eqn:Ha.
              ** destruct (deref (users i) id) as [u|] eqn:Hd; [|discriminate]. injection H as <-.
                 apply deref_in in Hd. destruct Hd as [Hin <-].
                 apply (find_first (P := fun a => fst a = cn_ref c)) in Ha; [|intros; apply Nat.eqb_eq].
                 assert (r = cn_ref c) by (destruct Ha as (? & ? & _ & Hr & _); exact Hr). subst r.
                 eapply id_token; eauto.
              ** injection H as <-. apply id_nobody; auto. intros z Hz.
                 apply (find_none _ _ Ha) in Hz. simpl in Hz. now rewrite Nat.eqb_refl in Hz.
      * intros H. assert (NP : no_pw_user i c) by (intros m Hm; congruence).
        destruct (find _ (i_auth i)) as [[r id]|] eqn:Ha.
              ** destruct (deref (users i) id) as [u|] eqn:Hd; [|discriminate]. injection H as <-.
                 apply deref_in in Hd. destruct Hd as [Hin <-].
                 apply (find_first (P := fun a => fst a = cn_ref c)) in Ha; [|intros; apply Nat.eqb_eq].
                 assert (r = cn_ref c) by (destruct Ha as (? & ? & _ & Hr & _); exact Hr). subst r.
                 eapply id_token; eauto.
              ** injection H as <-. apply id_nobody; auto. intros z Hz.
                 apply (find_none _ _ Ha) in Hz. simpl in Hz. now rewrite Nat.eqb_refl in Hz.
  - cbn [find_user_fp] in H.
    assert (NF : no_fp_user i c) by (intros g Hg; congruence).
    destruct (if cn_pwauth c then find_user (users i) (cn_pwname c) else None) as [u|] eqn:Hp.
    + injection H as <-. destruct (cn_pwauth c) eqn:Hpa; [|discriminate].
      destruct (cn_pwname c) as [n|] eqn:Hn; [|discriminate]. apply find_user_first in Hp.
      eapply id_password; eauto.
    + assert (NP : no_pw_user i c).
      { intros n Ha Hn. rewrite Ha, Hn in Hp. now apply find_user_none. }
      destruct (find _ (i_auth i)) as [[r id]|] eqn:Ha.
      * destruct (deref (users i) id) as [u|] eqn:Hd; [|discriminate]. injection H as <-.
        apply deref_in in Hd. destruct Hd as [Hin <-].
        apply (find_first (P := fun a => fst a = cn_ref c)) in Ha; [|intros; apply Nat.eqb_eq].
        assert (r = cn_ref c) by (destruct Ha as (? & ? & _ & Hr & _); exact Hr). subst r.
        eapply id_token; eauto.
      * injection H as <-. apply id_nobody; auto. intros z Hz.
        apply (find_none _ _ Ha) in Hz. simpl in Hz. now rewrite Nat.eqb_refl in Hz.
Qed.

Lemma access_identity : forall E i c action m b, no_reserved m -> check_access E i c action m = Some b ->
  (cn_fp c = None /\ cn_virtual c = false /\ b = false) \/
  ((cn_fp c <> None \/ cn_virtual c = true) /\
   exists who m', identity i c who /\ sees c who m m' /\
   (b = true <-> exists n r, role_name i who = Some n /\ names_role (i_conf i) n r /\
                             grants (e_num E) (i_conf i) r action m')).
Proof.
  intros E i c action m b [R1 R2] H. unfold check_access in H.
  assert (S : forall who, resolve_user i c = Some who -> forall m', sees c who m m' ->
     b = decide (e_num E) (i_conf i) (role_name i who) action m' ->
     exists who m', identity i c who /\ sees c who m m' /\
   (b = true <-> exists n r, role_name i who = Some n /\ names_role (i_conf i) n r /\
                             grants (e_num E) (i_conf i) r action m')).
  { intros who Hw m' Hs ->. exists who, m'. split; [now apply resolve_identity|]. split; auto. apply decide_spec. }
  assert (V : match resolve_user i c with
      | Some (Some u) => sees c (Some u) m (map_insert E "Connection:Username" (u_name u) (map_insert E "Connection:IsLocal" (if cn_local c then "true" else "false") m))
      | Some None => sees c None m (map_insert E "Connection:IsLocal" (if cn_local c then "true" else "false") m)
      | None => True end).
  { destruct (resolve_user i c) as [[u|]|]; auto; intros k.
    - rewrite map_insert_new; [|rewrite map_insert_new by auto; destruct (string_dec _ _); [discriminate|auto]].
      rewrite map_insert_new by auto.
      destruct (string_dec k "Connection:Username") as [->|]; [|reflexivity].
      destruct (string_dec "Connection:Username" "Connection:IsLocal"); [discriminate|reflexivity].
    - rewrite map_insert_new by auto. destruct (string_dec k "Connection:IsLocal"); auto.
      destruct (string_dec k "Connection:Username") as [->|]; auto. }
  assert (W : (cn_fp c <> None \/ cn_virtual c = true) ->
     match resolve_user i c with
      | None => None
      | Some None => Some (decide (e_num E) (i_conf i) (conf_unpaired (i_conf i)) action (map_insert E "Connection:IsLocal" (if cn_local c then "true" else "false") m))
      | Some (Some u) =>
          Some (decide (e_num E) (i_conf i) (u_role u) action (map_insert E "Connection:Username" (u_name u) (map_insert E "Connection:IsLocal" (if cn_local c then "true" else "false") m)))
      end = Some b ->
     (cn_fp c <> None \/ cn_virtual c = true) /\
   exists who m', identity i c who /\ sees c who m m' /\
   (b = true <-> exists n r, role_name i who = Some n /\ names_role (i_conf i) n r /\
                             grants (e_num E) (i_conf i) r action m')).
  { intros Hc HH. split; auto. destruct (resolve_user i c) as [[u|]|] eqn:Hr; [| |discriminate].
    - injection HH as HH. eapply S; eauto.
    - injection HH as HH. eapply S; eauto. }
  destruct (cn_fp c) as [f|] eqn:Hf; [|destruct (cn_virtual c) eqn:Hv].
  - right. apply W; auto. left. discriminate.
  - right. apply W; auto.
  - left. injection H as <-. auto.
Qed.

Lemma identity_functional : forall i c a b, identity i c a -> identity i c b ->
  NoDup (map u_id (users i)) -> a = b.
Proof.
  assert (FU : forall A (P : A -> Prop) l x y, first_such P l x -> first_such P l y -> x = y).
  { intros A P l x y (p1 & q1 & -> & H1 & F1) (p2 & q2 & He & H2 & F2).
    revert p2 He F2. induction p1 as [|z p1 IH]; intros [|w p2] He F2; simpl in He.
    - now injection He.
    - injection He as -> He. inversion F2; subst. contradiction.
    - injection He as -> He. inversion F1; subst. contradiction.
    - injection He as -> He. inversion F1; inversion F2; subst. eapply IH; eauto. }
  assert (NF : forall A (P : A -> Prop) l x, first_such P l x -> Forall (fun y => ~ P y) l -> False).
  { intros A P l x (p & q & -> & Hx & _) F. rewrite Forall_app in F. destruct F as [_ F]. inversion F; auto. }
  intros i c a b Ha Hb ND. destruct Ha; inversion Hb; subst; try congruence; auto;
  try (match goal with H1 : cn_fp c = Some ?f, N : no_fp_user i c, F : first_such (owns ?f) _ _ |- _ => destruct (NF _ _ _ _ F (N _ H1)) end);
  try (match goal with H0 : cn_pwauth c = true, H1 : cn_pwname c = Some ?n, N : no_pw_user i c, F : first_such (fun _ => u_name _ = ?n) _ _ |- _ => destruct (NF _ _ _ _ F (N _ H0 H1)) end).
  - f_equal. assert (f = f0) by congruence. subst. eapply FU; eauto.
  - f_equal. assert (n = n0) by congruence. subst. eapply FU; eauto.
  - f_equal. assert (He : (cn_ref c, u_id u) = (cn_ref c, u_id u0)) by (eapply FU; eauto).
    injection He as He. clear - H2 H6 He ND.
    revert H2 H6. induction (users i) as [|v l IH]; simpl; [tauto|]. inversion ND; subst.
    intros [->|H] [->|H']; auto.
    + exfalso. apply H1. rewrite He. now apply in_map.
    + exfalso. apply H1. rewrite <- He. now apply in_map.
  - match goal with F : first_such (fun a => fst a = cn_ref c) _ _, N : forall x, ~ In _ _ |- _ =>
      destruct F as (p & q & Hpq & _); exfalso; eapply N; rewrite Hpq; apply in_or_app; right; left; reflexivity end.
  - match goal with F : first_such (fun a => fst a = cn_ref c) _ _, N : forall x, ~ In _ _ |- _ =>
      destruct F as (p & q & Hpq & _); exfalso; eapply N; rewrite Hpq; apply in_or_app; right; left; reflexivity end.
Qed.

(** ** What a step does to the users *)

Lemma upd_users : forall n u' i, users (upd n u' i) = update_user n (fun _ => u') (users i).
Proof. reflexivity. Qed.
Lemma addu_users : forall u t i, users (addu u t i) = (users i ++ [u])%list.
Proof. reflexivity. Qed.
Lemma dc_users : forall i, users (do_callbacks i) = users i.
Proof. reflexivity. Qed.

Lemma find_split : forall us n u, find_user us (Some n) = Some u ->
  exists pre post, us = (pre ++ u :: post)%list /\ u_name u = n /\ Forall (fun v => u_name v <> n) pre.
Proof. intros us n u H. apply find_user_first in H. destruct H as (pre & post & -> & Hn & Hp). eauto 6. Qed.

Lemma set_fp_owned : forall v u u' f, user_set_fp v u = Some u' -> owns f u' -> owns f u \/ v = Some f.
Proof.
  intros v u u' f H Ho. unfold user_set_fp in H. unfold owns, fp_values in *.
  destruct v as [s|]; destruct (u_fps u) as [|g l]; try discriminate H; injection H as <-; simpl in *.
  - destruct Ho as [->|[]]; auto.
  - destruct Ho as [->|Ho]; auto.
  - auto.
Qed.

Lemma remove_first_in : forall s l l' f, remove_first_fp s l = Some l' -> In f (map fp_val l') -> In f (map fp_val l).
Proof.
  intros s l. induction l as [|g l IH]; intros l' f H Hf; simpl in *; [discriminate|].
  destruct (String.eqb (fp_val g) s); [injection H as <-; auto|].
  destruct (remove_first_fp s l); [|discriminate]. injection H as <-. simpl in Hf. destruct Hf; eauto.
Qed.

Lemma add_fp_owned : forall s nm u f, owns f (user_add_fp s nm u) -> owns f u \/ f = s.
Proof.
  intros s nm u f H. unfold owns, fp_values, user_add_fp in *. simpl in H. rewrite map_app, in_app_iff in H.
  simpl in H. intuition.
Qed.

(** A user is replaced by one with the same allocation. *)
Record upd_ok (i : iam) (o : ext * op) (u u' : user) : Prop := {
  uo_id : u_id u' = u_id u;
  uo_name : u_name u' = u_name u \/ (validate_username (u_name u') = true /\ Forall (fun v => u_name v <> u_name u') (users i));
  uo_fp : fp_checked i o -> forall f, owns f u' -> owns f u \/ fp_unused i f
}.

Inductive uch (i i' : iam) (x : ext) (o : op) : Prop :=
| uc_same : users i' = users i -> i_next i <= i_next i' -> uch i i' x o
| uc_add : forall u, users i' = (users i ++ [u])%list -> u_id u = i_next i -> i_next i' = S (i_next i) ->
    validate_username (u_name u) = true -> Forall (fun v => u_name v <> u_name u) (users i) ->
    (forall f, owns f u -> fp_unused i f) ->
    ((N.of_nat (length (users i)) < l_max_users (i_lim i))%N \/
     match o with OpCoap _ (RqPairLocalOpen _) | OpCoap _ (RqPairPasswordOpen _) => True | _ => False end) ->
    uch i i' x o
| uc_upd : forall pre u u' post, users i = (pre ++ u :: post)%list -> users i' = (pre ++ u' :: post)%list ->
    i_next i' = i_next i -> upd_ok i (x, o) u u' -> uch i i' x o
| uc_rem : forall pre u post, users i = (pre ++ u :: post)%list -> users i' = (pre ++ post)%list ->
    i_next i' = i_next i ->
    match o with OpApi (ApDeleteUser (Some n)) | OpCoap _ (RqDeleteUser n) => u_name u = n | _ => False end -> uch i i' x o
| uc_load : forall s, o = OpLoadState s -> users i' = renumber (i_next i) (st_users s) ->
    i_next i' = i_next i + length (st_users s) -> validate_state (i_lim i) (i_cats i) s = true -> uch i i' x o.

Lemma upd_uch : forall i n u u' x o i', find_user (users i) (Some n) = Some u ->
  users i' = update_user n (fun _ => u') (users i) -> i_next i' = i_next i -> upd_ok i (x, o) u u' -> uch i i' x o.
Proof.
  intros i n u u' x o i' Hu Hus Hnx Hok. apply find_split in Hu. destruct Hu as (pre & post & He & Hn & Hp).
  rewrite He, update_user_app in Hus by auto. eapply uc_upd; eauto.
Qed.

Lemma paired_uch : forall c x i i' r, paired c x i i' ->
  match r with RqPairLocalOpen _ | RqPairPasswordOpen _ => True | _ => False end ->
  uch i (do_callbacks i') x (OpCoap c r).
Proof.
  intros c x i i' r (n & f & fn & ro & t & u & Hc & Hv & Hl & Hn & Hf & Hr & Ht & Hu & ->) Hr2.
  apply user_new_spec in Hu. destruct Hu as [_ ->].
  eapply uc_add; try reflexivity; simpl; auto.
  - now apply find_user_none.
  - intros g Hg. apply find_fp_none in Hf. unfold owns, fp_values in Hg. simpl in Hg. destruct Hg as [<-|[]]. exact Hf.
Qed.

Lemma fp_unused_of : forall i f, find_user_fp (users i) (Some f) = None -> fp_unused i f.
Proof. intros. now apply find_fp_none. Qed.

Lemma coap_uch : forall E x c i r i' code, coap E x c i r = Resp i' code -> uch i i' x (OpCoap c r).
Proof.
  intros E x c i r i' code H. unfold coap in H.
  destruct (handle E x c i r) as [i1 k|] eqn:Hh; [|discriminate]. injection H as <- <-.
  apply handle_inv in Hh. destruct Hh as [[[->| ->] _]|[_ T]].
  1,2: apply uc_same; simpl; auto.
  destruct r; cbn [trans] in T.
  - destruct T as (n & t & u & _ & Hv & Hl & Hm & Hn & Hs & Hsl & Hu & Ha & -> & _).
    apply user_new_spec in Hu. destruct Hu as [_ ->].
    eapply uc_add; try reflexivity; simpl; auto.
    + now apply find_user_none.
    + intros f [].
  - destruct T as (u & Hu & -> & _). apply find_split in Hu. destruct Hu as (pre & post & He & Hn & Hp).
    eapply uc_rem; try reflexivity; simpl; eauto.
    rewrite dc_users. unfold users. simpl. fold (users i). rewrite He. now apply remove_user_app.
  - destruct T as (u & nm & _ & Hu & Hf & -> & _).
    eapply upd_uch; try reflexivity; eauto. constructor; simpl; auto.
    intros _ g Hg. apply add_fp_owned in Hg. destruct Hg as [Hg| ->]; auto. right. now apply fp_unused_of.
  - destruct T as (u & u' & Hu & Hr & -> & _). unfold user_remove_fp in Hr.
    destruct (remove_first_fp fp (u_fps u)) eqn:Hrf; [|discriminate]. injection Hr as <-.
    eapply upd_uch; try reflexivity; eauto. constructor; simpl; auto.
    intros _ g Hg. left. eapply remove_first_in; eauto.
  - destruct T as (u & n' & _ & Hu & Hn & Hv & Hl & -> & _).
    eapply upd_uch; try reflexivity; eauto. constructor; simpl; auto.
    right. split; auto. now apply find_user_none.
  - destruct T as (u & s & _ & Hu & _ & -> & _). eapply upd_uch; try reflexivity; eauto. constructor; simpl; auto.
  - destruct T as (u & s & _ & Hu & _ & -> & _). eapply upd_uch; try reflexivity; eauto. constructor; simpl; auto.
  - destruct T as (u & s & u' & _ & Hu & Hf & _ & Hs & -> & _). eapply upd_uch; try reflexivity; eauto.
    assert (Hid : u_id u' = u_id u /\ u_name u' = u_name u).
    { unfold user_set_fp in Hs. destruct s, (u_fps u); try discriminate Hs; injection Hs as <-; auto. }
    destruct Hid. constructor; auto.
    intros _ g Hg. destruct (set_fp_owned Hs Hg) as [Hg'| ->]; auto. right. now apply fp_unused_of.
  - destruct T as (u & s & _ & Hu & _ & -> & _). eapply upd_uch; try reflexivity; eauto. constructor; simpl; auto.
  - destruct T as (u & t & p & _ & Hu & _ & _ & -> & _). eapply upd_uch; try reflexivity; eauto. constructor; simpl; auto.
  - destruct T as (u & s & _ & Hu & _ & -> & _).
    destruct (x_add x s); eapply upd_uch; try reflexivity; eauto; constructor; simpl; auto.
  - destruct T as (u & s & _ & Hu & _ & -> & _). eapply upd_uch; try reflexivity; eauto. constructor; simpl; auto.
  - destruct T as (u & s & _ & Hu & _ & -> & _). eapply upd_uch; try reflexivity; eauto. constructor; simpl; auto.
  - destruct T as (n & u & f & nm & _ & _ & _ & Hu & _ & Hf & -> & _).
    eapply upd_uch; try reflexivity; eauto. constructor; simpl; auto.
    intros Hc g Hg. apply add_fp_owned in Hg. destruct Hg as [Hg| ->]; auto.
  - destruct T as (_ & _ & T & _). eapply paired_uch; eauto.
  - destruct T as (n & u & f & nm & _ & _ & _ & Hu & Hf & Hff & -> & _).
    eapply upd_uch; try reflexivity; eauto. constructor; simpl; auto.
    intros _ g Hg. apply (@add_fp_owned f nm u g) in Hg. destruct Hg as [Hg| ->]; auto. right. now apply fp_unused_of.
  - destruct T as (_ & _ & _ & T & _). eapply paired_uch; eauto.
  - destruct T as (m & b & _ & _ & _ & -> & _). apply uc_same; simpl; auto. destruct m; reflexivity.
  - destruct T as (s & _ & _ & _ & -> & _). apply uc_same; simpl; auto.
Qed.

Lemma api_uch : forall x i a i' e, run_api x i a = Done i' e -> uch i i' x (OpApi a).
Proof.
  intros x i a i' e H. apply api_inv in H.
  destruct H as [[_ [->|[->| ->]]]|[[_ H]|[_ T]]].
  1-3: apply uc_same; simpl; auto.
  - destruct a; try contradiction. subst. apply uc_same; simpl; auto.
  - destruct a; cbn [atrans] in T.
    + destruct T as (n & t & u & _ & Hv & Hl & Hm & Hn & Hs & Hu & Ha & ->).
      apply user_new_spec in Hu. destruct Hu as [_ ->].
      eapply uc_add; try reflexivity; simpl; auto.
      * now apply find_user_none.
      * intros f [].
    + destruct T as (m & f & u & u' & -> & -> & _ & Hu & Hs & ->). eapply upd_uch; try reflexivity; eauto.
      assert (Hid : u_id u' = u_id u /\ u_name u' = u_name u).
      { unfold user_set_fp in Hs. destruct (u_fps u); injection Hs as <-; auto. }
      destruct Hid. constructor; auto.
      intros Hc g Hg. destruct (set_fp_owned Hs Hg) as [Hg'|[= ->]]; auto.
    + destruct T as (m & f & nm & u & -> & -> & -> & _ & _ & Hu & ->). eapply upd_uch; try reflexivity; eauto.
      constructor; simpl; auto. intros Hc g Hg. apply add_fp_owned in Hg. destruct Hg as [Hg| ->]; auto.
    + destruct T as (m & f & u & u' & -> & -> & Hu & Hr & ->). unfold user_remove_fp in Hr.
      destruct (remove_first_fp f (u_fps u)) eqn:Hrf; [|discriminate]. injection Hr as <-.
      eapply upd_uch; try reflexivity; eauto. constructor; simpl; auto.
      intros _ g Hg. left. eapply remove_first_in; eauto.
    + destruct T as (m & s & u & -> & -> & _ & Hu & ->). eapply upd_uch; try reflexivity; eauto. constructor; simpl; auto.
    + destruct T as (m & s & u & -> & -> & _ & Hu & ->). eapply upd_uch; try reflexivity; eauto. constructor; simpl; auto.
    + destruct T as (m & s & u & -> & -> & _ & Hu & ->). eapply upd_uch; try reflexivity; eauto. constructor; simpl; auto.
    + destruct T as (m & s & u & -> & -> & _ & Hu & ->). eapply upd_uch; try reflexivity; eauto. constructor; simpl; auto.
    + destruct T as (m & s & u & -> & -> & _ & Hu & ->). eapply upd_uch; try reflexivity; eauto. constructor; simpl; auto.
    + destruct T as (m & s & u & -> & -> & _ & Hu & ->). eapply upd_uch; try reflexivity; eauto. constructor; simpl; auto.
    + destruct T as (m & u & -> & _ & Hu & ->). eapply upd_uch; try reflexivity; eauto. constructor; simpl; auto.
    + destruct T as (m & s & u & -> & -> & _ & Hu & ->). eapply upd_uch; try reflexivity; eauto. constructor; simpl; auto.
    + destruct T as (m & u & -> & Hu & ->). apply find_split in Hu. destruct Hu as (pre & post & He & Hn & Hp).
      eapply uc_rem; try reflexivity; simpl; eauto.
      unfold users. simpl. fold (users i). rewrite He. now apply remove_user_app.
    + destruct T as (u & m & -> & Hu & ->). apply uc_same; simpl; auto.
    + subst. apply uc_same; simpl; auto. destruct m; reflexivity.
Qed.

Lemma add_tokens_frame : forall x ts i i' b, add_tokens x ts i = (i', b) ->
  i_state i' = i_state i /\ i_conf i' = i_conf i /\ i_lim i' = i_lim i /\ i_cats i' = i_cats i /\
  i_auth i' = i_auth i /\ i_changed i' = i_changed i /\ i_callbacks i' = i_callbacks i /\ i_next i' = i_next i /\
  incl (i_tokens i) (i_tokens i') /\ (b = true -> forall t, In (Some t) ts -> In t (i_tokens i')).
Proof.
  intros x ts. induction ts as [|[t|] ts IH]; intros i i' b H; simpl in H.
  - injection H as <- <-. repeat split; auto. apply incl_refl. intros _ t [].
  - destruct (x_add x t) eqn:Ha.
    + apply IH in H. destruct H as (H1 & H2 & H3 & H4 & H5 & H6 & H7 & H8 & H9 & H10). simpl in *.
      repeat split; auto.
      * intros z Hz. apply H9. now right.
      * intros Hb z [[= ->]|Hz]; auto. apply H9. now left.
    + injection H as <- <-. repeat split; auto. apply incl_refl. discriminate.
  - apply IH in H. destruct H as (H1 & H2 & H3 & H4 & H5 & H6 & H7 & H8 & H9 & H10). repeat split; auto.
    intros Hb z [Hz|Hz]; [discriminate|auto].
Qed.

Lemma load_inv : forall x i s i' b, load_state x i s = (i', b) ->
  i_conf i' = i_conf i /\ i_lim i' = i_lim i /\ i_cats i' = i_cats i /\ i_auth i' = i_auth i /\
  i_changed i' = i_changed i /\ i_callbacks i' = i_callbacks i /\ incl (i_tokens i) (i_tokens i') /\
  ((b = false /\ i_state i' = i_state i /\ i_next i' = i_next i) \/
   (b = true /\ validate_state (i_lim i) (i_cats i) s = true /\
    i_state i' = with_users (renumber (i_next i) (st_users s)) s /\ i_next i' = i_next i + length (st_users s) /\
    (forall t, In (Some t) (map u_sct (st_users s)) -> In t (i_tokens i')))).
Proof.
  intros x i s i' b H. unfold load_state in H.
  destruct (negb (validate_state _ _ s)) eqn:Hv.
  { injection H as <- <-. repeat split; auto. apply incl_refl. }
  nb. destruct (add_tokens x [st_pw_open_sct s] i) as [i1 ok1] eqn:H1.
  apply add_tokens_frame in H1. destruct H1 as (A1 & A2 & A3 & A4 & A5 & A6 & A7 & A8 & A9 & A10).
  destruct ok1; cbn [negb] in H.
  2: { injection H as <- <-. repeat split; auto. }
  match type of H with (if ?b then _ else _) = _ => destruct b eqn:Hm end.
  { injection H as <- <-. repeat split; auto. }
  destruct (add_tokens x (map u_sct (st_users s)) i1) as [i2 ok2] eqn:H2.
  apply add_tokens_frame in H2. destruct H2 as (B1 & B2 & B3 & B4 & B5 & B6 & B7 & B8 & B9 & B10).
  destruct ok2; cbn [negb] in H; injection H as <- <-; simpl.
  - repeat split; try congruence; auto. intros z Hz. now apply B9, A9. right. repeat split; auto.
  - repeat split; try congruence; auto. intros z Hz. now apply B9, A9. left. repeat split; congruence.
Qed.

Lemma load_conf_inv : forall i c i' b, load_conf i c = (i', b) -> i' = i \/ i' = set_conf c i.
Proof. intros i c i' b. unfold load_conf. destruct (conf_unpaired c); [destruct (existsb _ _)|]; intros [= <- <-]; auto. Qed.

Lemma step_uch : forall E i x o i', step E i (x, o) = Some i' -> uch i i' x o.
Proof.
  intros E i x o i' H. destruct o; simpl in H.
  - destruct (run_api x i a) eqn:Ha; [|discriminate]. injection H as <-. eapply api_uch; eauto.
  - destruct (coap E x c i r) eqn:Ha; [|discriminate]. injection H as <-. eapply coap_uch; eauto.
  - destruct (check_access E i c action m); [|discriminate]. injection H as <-. apply uc_same; auto.
  - injection H as <-. apply uc_same; simpl; auto.
  - injection H as <-. destruct (load_state x i s) as [i1 b] eqn:Hl. simpl.
    apply load_inv in Hl. destruct Hl as (_ & _ & _ & _ & _ & _ & _ & [(_ & H1 & H2)|(_ & Hv & H1 & H2 & _)]).
    + apply uc_same; [unfold users; congruence|lia].
    + eapply uc_load; eauto. unfold users. rewrite H1. reflexivity.
  - injection H as <-. destruct (load_conf i c) as [i1 b] eqn:Hl. simpl.
    apply load_conf_inv in Hl. destruct Hl as [-> | ->]; apply uc_same; simpl; auto.
  - injection H as <-. apply uc_same; simpl; auto.
  - injection H as <-. apply uc_same; simpl; auto.
Qed.

(** ** Induction over histories *)
Lemma run_inv : forall (I : iam -> Prop) E (P : iam -> ext * op -> Prop),
  (forall i o i', I i -> P i o -> step E i o = Some i' -> I i') ->
  forall l i i', I i -> along E P i l -> run E i l = Some i' -> I i'.
Proof.
  intros I E P HS l. induction l as [|o l IH]; intros i i' Hi Ha Hr; cbn [run along] in *.
  - now injection Hr as <-.
  - destruct (step E i o) as [i1|] eqn:Hs; [|discriminate]. destruct Ha as [Hp Ha]. eauto.
Qed.

(** ** C07 *)
Lemma nodup_app_one : forall (l : list string) x, NoDup l -> ~ In x l -> NoDup (l ++ [x])%list.
Proof.
  induction l as [|a l IH]; intros x Hn Hx; simpl.
  - constructor; auto; constructor.
  - inversion Hn; subst. constructor.
    + rewrite in_app_iff. simpl in *. intros [H|[H|[]]]; subst; tauto.
    + apply IH; auto. simpl in Hx. tauto.
Qed.

Lemma renumber_names : forall us n, map u_name (renumber n us) = map u_name us.
Proof. induction us; intros; simpl; f_equal; auto. Qed.

Lemma renumber_forall : forall (P : string -> Prop) us n,
  Forall (fun u => P (u_name u)) us -> Forall (fun u => P (u_name u)) (renumber n us).
Proof. induction us; intros n H; simpl; auto. inversion H; subst. constructor; auto. Qed.

Lemma names_step : forall E i o i', names_ok (users i) -> loads_ok i o -> step E i o = Some i' -> names_ok (users i').
Proof.
  intros E i [x o] i' [HV HN] HL H. apply step_uch in H. destruct H as [He _|u He _ _ Hv Hf _ _|pre u u' post He He' _ Ho|pre u post He He' _ _|s Ho He _ _].
  - rewrite He. split; auto.
  - rewrite He. split.
    + apply Forall_app. split; auto. constructor; auto. now apply validate_username_ok.
    + rewrite map_app. apply nodup_app_one; auto. rewrite in_map_iff. intros (w & Hw & Hi).
      rewrite Forall_forall in Hf. now apply Hf in Hi.
  - destruct (uo_name Ho) as [Hn|[Hv Hf]].
    + rewrite He'. rewrite He in HV, HN. split.
      * rewrite Forall_app in *. destruct HV as [V1 V2]. split; auto. inversion V2; subst. constructor; auto. now rewrite Hn.
      * rewrite map_app in *. simpl in *. now rewrite Hn.
    + rewrite He'. rewrite He in HV, HN, Hf. split.
      * rewrite Forall_app in *. destruct HV as [V1 V2]. split; auto. inversion V2; subst. constructor; auto. now apply validate_username_ok.
      * rewrite map_app in *. simpl in *. apply NoDup_remove in HN. destruct HN as [N1 N2].
        apply NoDup_Add with (a := u_name u') (l := (map u_name pre ++ map u_name post)%list); [apply Add_app|]. split; auto.
        rewrite <- map_app, in_map_iff. intros (w & Hw & Hi). rewrite Forall_forall in Hf. apply (Hf w); auto.
        apply in_app_iff in Hi. apply in_app_iff. simpl. tauto.
  - rewrite He'. rewrite He in HV, HN. split.
    + rewrite Forall_app in *. destruct HV as [V1 V2]. split; auto. now inversion V2.
    + rewrite map_app in *. simpl in *. now apply NoDup_remove_1 in HN.
  - subst o. cbn in HL. rewrite He. destruct HL as [L1 L2]. split.
    + now apply (@renumber_forall valid_name).
    + now rewrite renumber_names.
Qed.

Lemma names_always : forall E l i, along E loads_ok iam_init l -> run E iam_init l = Some i -> names_ok (users i).
Proof.
  intros E l i Ha Hr. eapply (@run_inv (fun i => names_ok (users i)) E loads_ok); eauto.
  - intros. eapply names_step; eauto.
  - split; constructor.
Qed.

(** ** C08 *)
Lemma shared_iff : forall us, shared_fp us <-> exists i j u v f, i < j /\ nth_error us i = Some u /\ nth_error us j = Some v /\ owns f u /\ owns f v.
Proof.
  intros us. split.
  - intros (pre & u & mid & v & post & f & -> & Hu & Hv).
    exists (length pre), (length pre + S (length mid)), u, v, f. repeat split; auto; try lia.
    + rewrite nth_error_app2 by lia. now rewrite Nat.sub_diag.
    + rewrite nth_error_app2 by lia. replace (length pre + S (length mid) - length pre) with (S (length mid)) by lia.
      simpl. rewrite nth_error_app2 by lia. now rewrite Nat.sub_diag.
  - intros (i & j & u & v & f & Hij & Hi & Hj & Hu & Hv).
    apply nth_error_split in Hi. destruct Hi as (pre & r & -> & <-).
    rewrite nth_error_app2 in Hj by lia. replace (j - length pre) with (S (j - length pre - 1)) in Hj by lia.
    simpl in Hj. apply nth_error_split in Hj. destruct Hj as (mid & post & -> & _).
    exists pre, u, mid, v, post, f. auto 8.
Qed.

Lemma owns_renumber : forall us n k u, nth_error (renumber n us) k = Some u ->
  exists w, nth_error us k = Some w /\ forall f, owns f u -> owns f w.
Proof.
  induction us as [|a us IH]; intros n [|k] u H; simpl in *; try discriminate.
  - injection H as <-. exists a. auto.
  - eauto.
Qed.

Lemma shared_mono : forall us vs, (forall k u, nth_error vs k = Some u -> exists w, nth_error us k = Some w /\ forall f, owns f u -> owns f w) ->
  ~ shared_fp us -> ~ shared_fp vs.
Proof.
  intros us vs H N S. apply N. apply shared_iff. apply shared_iff in S.
  destruct S as (i & j & u & v & f & Hij & Hi & Hj & Hu & Hv).
  destruct (H _ _ Hi) as (w & Hw & Hwf). destruct (H _ _ Hj) as (z & Hz & Hzf).
  exists i, j, w, z, f. auto 8.
Qed.

Lemma nth_error_mid : forall A (pre post : list A) a k b, nth_error (pre ++ a :: post)%list k = Some b ->
  (k = length pre /\ b = a) \/ (k <> length pre /\ forall c, nth_error (pre ++ c :: post)%list k = Some b).
Proof.
  intros A pre. induction pre as [|p pre IH]; intros post a [|k] b H; simpl in *.
  - injection H as ->. auto.
  - right. split; auto.
  - right. split; auto.
  - destruct (IH _ _ _ _ H) as [[-> ->]|[Hk Hc]]; [left; auto|right; split; auto].
Qed.

Lemma fp_step : forall E i o i', ~ shared_fp (users i) -> fp_checked i o -> step E i o = Some i' -> ~ shared_fp (users i').
Proof.
  intros E i [x o] i' HS HC H. apply step_uch in H.
  destruct H as [He _|u He _ _ _ _ Hf _|pre u u' post He He' _ Ho|pre u post He He' _ _|s Ho He _ _].
  - now rewrite He.
  - rewrite He. intros S. apply HS. apply shared_iff. apply shared_iff in S.
    destruct S as (a & b & v & w & f & Hab & Ha & Hb & Hv & Hw).
    destruct (Nat.lt_trichotomy b (length (users i))) as [Hl|[Hl|Hl]].
    + rewrite nth_error_app1 in Ha by lia. rewrite nth_error_app1 in Hb by lia. eauto 10.
    + subst b. rewrite nth_error_app1 in Ha by lia. rewrite nth_error_app2, Nat.sub_diag in Hb by lia. injection Hb as <-.
      exfalso. specialize (Hf f Hw). unfold fp_unused in Hf. rewrite Forall_forall in Hf.
      apply nth_error_In in Ha. now apply (Hf v).
    + exfalso. assert (nth_error (users i ++ [u])%list b <> None) by congruence.
      apply nth_error_Some in H. rewrite app_length in H. simpl in H. lia.
  - rewrite He'. intros S. apply HS. apply shared_iff. apply shared_iff in S.
    destruct S as (a & b & v & w & f & Hab & Ha & Hb & Hv & Hw).
    pose proof (uo_fp Ho HC) as HF. unfold fp_unused in HF. rewrite He in *.
    apply nth_error_mid in Ha. apply nth_error_mid in Hb.
    destruct Ha as [[-> ->]|[Na Ha]]; destruct Hb as [[-> ->]|[Nb Hb]]; try lia.
    + destruct (HF f Hv) as [HX|HX].
      * exists (length pre), b, u, w, f. repeat split; auto. rewrite nth_error_app2 by lia. now rewrite Nat.sub_diag.
      * exfalso. rewrite Forall_forall in HX. apply (HX w); auto. eapply nth_error_In. apply (Hb u).
    + destruct (HF f Hw) as [HX|HX].
      * exists a, (length pre), v, u, f. repeat split; auto. rewrite nth_error_app2 by lia. now rewrite Nat.sub_diag.
      * exfalso. rewrite Forall_forall in HX. apply (HX v); auto. eapply nth_error_In. apply (Ha u).
    + exists a, b, v, w, f. auto 8.
  - rewrite He'. rewrite He in HS. intros (p & v & m & w & q & f & Heq & Hv & Hw). apply HS.
    apply shared_iff.
    assert (S : shared_fp (pre ++ post)%list) by (exists p, v, m, w, q, f; auto).
    apply shared_iff in S. destruct S as (a & b & v' & w' & f' & Hab & Ha & Hb & Hv' & Hw').
    exists (if Nat.ltb a (length pre) then a else S a), (if Nat.ltb b (length pre) then b else S b), v', w', f'.
    assert (G : forall k z, nth_error (pre ++ post)%list k = Some z -> nth_error (pre ++ u :: post)%list (if Nat.ltb k (length pre) then k else S k) = Some z).
    { intros k z Hk. destruct (Nat.ltb k (length pre)) eqn:E1.
      - apply Nat.ltb_lt in E1. rewrite nth_error_app1 in * by lia. auto.
      - apply Nat.ltb_ge in E1. rewrite nth_error_app2 in * by lia. replace (S k - length pre) with (S (k - length pre)) by lia. auto. }
    repeat split; auto.
    destruct (Nat.ltb_spec a (length pre)), (Nat.ltb_spec b (length pre)); lia.
  - subst o. cbn in HC. rewrite He. revert HC. apply shared_mono. intros k u Hk. eapply owns_renumber; eauto.
Qed.

Lemma fp_always : forall E l i, along E fp_checked iam_init l -> run E iam_init l = Some i -> ~ shared_fp (users i).
Proof.
  intros E l i Ha Hr. eapply (@run_inv (fun i => ~ shared_fp (users i)) E fp_checked); eauto.
  - intros. eapply fp_step; eauto.
  - intros (pre & u & mid & v & post & f & H & _). destruct pre; discriminate.
Qed.
