(** Lemmas for the IAM state properties. *)
From Coq Require Import String Ascii List Bool Arith NArith Lia.
From Verif Require Import IamPolicyModel IamPolicySpec IamPolicyProofs IamStateModel IamStateSpec.
Import ListNotations.
Open Scope string_scope.
Set Implicit Arguments.
Unset Strict Implicit.

(** ** Lists of users *)

Lemma find_first : forall A (p : A -> bool) (P : A -> Prop) l a,
  (forall x, p x = true <-> P x) -> (find p l = Some a <-> first_such P l a).
Proof.
  intros A p P l a HP. split.
  - induction l as [|b l IH]; simpl; [discriminate|].
    destruct (p b) eqn:Hb.
    + intros [= <-]. exists [], l. repeat split; auto. now apply HP.
    + intros H. destruct (IH H) as (pre & post & -> & Ha & Hp).
      exists (b :: pre), post. repeat split; auto. constructor; auto. rewrite <- HP, Hb. discriminate.
  - intros (pre & post & -> & Ha & Hp). induction pre as [|b pre IH]; simpl.
    + rewrite (proj2 (HP a) Ha). reflexivity.
    + inversion Hp; subst. destruct (p b) eqn:Hb; [apply HP in Hb; contradiction|]. auto.
Qed.

Lemma find_none_all : forall A (p : A -> bool) (P : A -> Prop) l,
  (forall x, p x = true <-> P x) -> (find p l = None <-> Forall (fun x => ~ P x) l).
Proof.
  intros A p P l HP. induction l as [|a l IH]; simpl.
  - split; auto.
  - destruct (p a) eqn:Ha.
    + split; [discriminate|]. intros H. inversion H; subst. apply HP in Ha. contradiction.
    + rewrite IH. split; intros H.
      * constructor; auto. rewrite <- HP, Ha. discriminate.
      * now inversion H.
Qed.

Lemma name_p : forall n u, String.eqb (u_name u) n = true <-> u_name u = n.
Proof. intros. apply String.eqb_eq. Qed.

Lemma has_fp_owns : forall f u, has_fp f u = true <-> owns f u.
Proof.
  intros f u. unfold has_fp, owns, fp_values. rewrite existsb_exists, in_map_iff. split.
  - intros (x & Hx & He). exists x. apply String.eqb_eq in He. auto.
  - intros (x & He & Hx). exists x. split; auto. now apply String.eqb_eq.
Qed.

Lemma find_user_first : forall us n u, find_user us (Some n) = Some u <-> first_such (fun u => u_name u = n) us u.
Proof. intros. apply find_first. intros; apply name_p. Qed.
Lemma find_user_none : forall us n, find_user us (Some n) = None <-> Forall (fun u => u_name u <> n) us.
Proof. intros. apply (find_none_all (P := fun u => u_name u = n)). intros; apply name_p. Qed.
Lemma find_fp_first : forall us f u, find_user_fp us (Some f) = Some u <-> first_such (owns f) us u.
Proof. intros. apply find_first. intros; apply has_fp_owns. Qed.
Lemma find_fp_none : forall us f, find_user_fp us (Some f) = None <-> Forall (fun u => ~ owns f u) us.
Proof. intros. apply find_none_all. intros; apply has_fp_owns. Qed.

Lemma update_user_app : forall n f pre u post, u_name u = n -> Forall (fun v => u_name v <> n) pre ->
  update_user n f (pre ++ u :: post)%list = (pre ++ f u :: post)%list.
Proof.
  intros n f pre u post Hu Hp. induction pre as [|v pre IH]; simpl.
  - apply name_p in Hu. now rewrite Hu.
  - inversion Hp; subst. destruct (String.eqb (u_name v) (u_name u)) eqn:Hv.
    + apply name_p in Hv. contradiction.
    + f_equal. auto.
Qed.

Lemma remove_user_app : forall n pre u post, u_name u = n -> Forall (fun v => u_name v <> n) pre ->
  remove_user n (pre ++ u :: post)%list = (pre ++ post)%list.
Proof.
  intros n pre u post Hu Hp. induction pre as [|v pre IH]; simpl.
  - apply name_p in Hu. now rewrite Hu.
  - inversion Hp; subst. destruct (String.eqb (u_name v) (u_name u)) eqn:Hv.
    + apply name_p in Hv. contradiction.
    + f_equal. auto.
Qed.

Lemma username_char_ok : forall c, username_char c = true -> In c alphabet.
Proof.
  intros [b0 b1 b2 b3 b4 b5 b6 b7].
  destruct b0, b1, b2, b3, b4, b5, b6, b7; vm_compute; intros H; try discriminate H; clear H; tauto.
Qed.

Lemma validate_username_ok : forall s, validate_username s = true -> valid_name s.
Proof.
  intros s H. unfold validate_username in H. apply andb_true_iff in H. destruct H as [H1 H2]. split.
  - intros ->. discriminate H1.
  - clear H1. induction s as [|c s IH]; simpl; constructor.
    + simpl in H2. apply andb_true_iff in H2. now apply username_char_ok.
    + simpl in H2. apply andb_true_iff in H2. tauto.
Qed.

Lemma user_new_spec : forall id n u, user_new id n = Some u ->
  validate_username n = true /\
  u = {| u_id := id; u_name := n; u_display := None; u_fps := []; u_password := None; u_role := None;
         u_sct := None; u_fcm_token := None; u_fcm_project := None; u_cats := []; u_oauth := None |}.
Proof. intros id n u. unfold user_new. destruct (validate_username n); intros [= <-]; auto. Qed.

(** ** Transitions *)

Definition upd (n : string) (u' : user) (i : iam) : iam :=
  mark_changed (set_users (update_user n (fun _ => u') (users i)) i).
Definition addu (u : user) (t : string) (i : iam) : iam :=
  mark_changed (set_users (users i ++ [u])%list (add_token t (set_next (S (i_next i)) i))).
Definition quiet (i i' : iam) : Prop := i' = i \/ i' = set_next (S (i_next i)) i.

Definition paired (c : conn) (x : ext) (i i' : iam) : Prop :=
  exists n f fn r t u, cn_fp c = Some f /\ validate_username n = true /\ (strlen n <= l_username (i_lim i))%N /\
    find_user (users i) (Some n) = None /\ find_user_fp (users i) (Some f) = None /\
    st_open_role (i_state i) = Some r /\ (strlen t <= l_sct (i_lim i))%N /\ user_new (i_next i) n = Some u /\
    i' = addu (set_u_sct (Some t) (user_add_fp f fn (set_u_role (Some r) u))) t i.

Definition trans (x : ext) (c : conn) (i : iam) (r : request) (i' : iam) (code : N) : Prop :=
  match r with
  | RqCreateUser p => exists n t u, p = PlOk (CbStr n) /\ validate_username n = true /\ (strlen n <= l_username (i_lim i))%N /\
      (N.of_nat (length (users i)) < l_max_users (i_lim i))%N /\
      find_user (users i) (Some n) = None /\ x_sct x = Some t /\ (strlen t <= l_sct (i_lim i))%N /\
      user_new (i_next i) n = Some u /\ x_add x t = true /\ i' = addu (set_u_sct (Some t) u) t i /\ code = 201%N
  | RqDeleteUser n => exists u, find_user (users i) (Some n) = Some u /\
      i' = mark_changed (set_users (remove_user n (users i)) i) /\ code = 202%N
  | RqAddFp n f p => exists u nm, (exists v, p = PlOk v /\ nm = decode_or_null v) /\ find_user (users i) (Some n) = Some u /\ find_user_fp (users i) (Some f) = None /\
      i' = upd n (user_add_fp f nm u) i /\ code = 204%N
  | RqDeleteFp n f => exists u u', find_user (users i) (Some n) = Some u /\ user_remove_fp f u = Some u' /\
      i' = upd n u' i /\ code = 202%N
  | RqSetName n p => exists u n', p = PlOk (CbStr n') /\ find_user (users i) (Some n) = Some u /\ find_user (users i) (Some n') = None /\
      validate_username n' = true /\ (strlen n' <= l_username (i_lim i))%N /\ i' = upd n (set_u_name n' u) i /\ code = 204%N
  | RqSetRole n p => exists u v, p = PlOk (CbStr v) /\ find_user (users i) (Some n) = Some u /\
      find_role (i_conf i) (Some v) <> None /\ i' = upd n (set_u_role (Some v) u) i /\ code = 204%N
  | RqSetPassword n p => exists u v, (exists w, p = PlOk w /\ decode_string w = Some v) /\ find_user (users i) (Some n) = Some u /\
      (match v with Some s => (l_pw_min (i_lim i) <= strlen s <= l_pw_max (i_lim i))%N | None => True end) /\
      i' = upd n (set_u_password v u) i /\ code = 204%N
  | RqSetFp n p => exists u v u', (exists w, p = PlOk w /\ decode_string w = Some v) /\ find_user (users i) (Some n) = Some u /\ find_user_fp (users i) v = None /\
      (match v with Some s => strlen s = 64%N | None => True end) /\ user_set_fp v u = Some u' /\ i' = upd n u' i /\ code = 204%N
  | RqSetDisplay n p => exists u v, (exists w, p = PlOk w /\ decode_string w = Some v) /\ find_user (users i) (Some n) = Some u /\
      (match v with Some s => (strlen s <= l_display (i_lim i))%N | None => True end) /\
      i' = upd n (set_u_display v u) i /\ code = 204%N
  | RqSetFcm n q => exists u t p, q = PlOk (Some (CbStr t, CbStr p)) /\ find_user (users i) (Some n) = Some u /\
      (strlen t <= l_fcm_token (i_lim i))%N /\ (strlen p <= l_fcm_project (i_lim i))%N /\
      i' = upd n (set_u_fcm_project (Some p) (set_u_fcm_token (Some t) u)) i /\ code = 204%N
  | RqSetSct n p => exists u s, p = PlOk (CbStr s) /\ find_user (users i) (Some n) = Some u /\
      (strlen s <= l_sct (i_lim i))%N /\
      i' = (if x_add x s then add_token s (upd n (set_u_sct (Some s) u) i) else upd n (set_u_sct (Some s) u) i) /\ code = 204%N
  | RqSetOauth n p => exists u v, (exists w, p = PlOk w /\ decode_string w = Some v) /\ find_user (users i) (Some n) = Some u /\
      (match v with Some s => (strlen s <= l_oauth (i_lim i))%N | None => True end) /\
      i' = upd n (set_u_oauth v u) i /\ code = 204%N
  | RqSetCats n p => exists u l, p = PlOk (Some l) /\ find_user (users i) (Some n) = Some u /\ forallb (set_contains (i_cats i)) l = true /\
      i' = upd n (set_u_cats l u) i /\ code = 204%N
  | RqPairLocalInitial _ => exists n u f nm, st_local_initial (i_state i) = true /\ cn_local c = true /\
      st_initial_user (i_state i) = Some n /\ find_user (users i) (Some n) = Some u /\ is_user_paired u = false /\
      cn_fp c = Some f /\ i' = upd n (user_add_fp f nm u) i /\ code = 201%N
  | RqPairLocalOpen _ => st_local_open (i_state i) = true /\ cn_local c = true /\ paired c x i i' /\ code = 201%N
  | RqPairPasswordInvite _ => exists n u f nm, st_pw_invite (i_state i) = true /\ cn_pwauth c = true /\
      cn_pwname c = Some n /\ find_user (users i) (Some n) = Some u /\ cn_fp c = Some f /\
      find_user_fp (users i) (Some f) = None /\ i' = upd n (set_u_password None (user_add_fp f nm u)) i /\ code = 201%N
  | RqPairPasswordOpen _ => st_pw_open (i_state i) = true /\ st_pw_open_password (i_state i) <> None /\
      cn_pwauth c = true /\ paired c x i i' /\ code = 201%N
  | RqSetSettings key p => exists m b, p = PlOk (Some b) /\
      key = match m with PmPasswordOpen => "password-open-pairing" | PmPasswordInvite => "password-invite-pairing"
                       | PmLocalOpen => "local-open-pairing" | PmLocalInitial => "" end /\ m <> PmLocalInitial /\
      i' = mark_changed (set_state (set_mode m b (i_state i)) i) /\ code = 204%N
  | RqSetDeviceInfo key p => exists s, key = "friendly-name" /\ p = PlOk (CbStr s) /\ (strlen s <= l_friendly (i_lim i))%N /\
      i' = mark_changed (set_state (with_friendly (Some s) (i_state i)) i) /\ code = 204%N
  end.

Ltac dm H :=
  repeat (match type of H with
          | context [match ?x with _ => _ end] => destruct x eqn:?; simpl in H; try discriminate H
          end).
Ltac nb :=
  repeat match goal with
  | H : negb _ = false |- _ => apply negb_false_iff in H
  | H : negb _ = true |- _ => apply negb_true_iff in H
  | H : orb _ _ = false |- _ => apply orb_false_iff in H; destruct H
  | H : andb _ _ = true |- _ => apply andb_true_iff in H; destruct H
  | H : N.ltb _ _ = false |- _ => apply N.ltb_ge in H
  | H : N.ltb _ _ = true |- _ => apply N.ltb_lt in H
  | H : N.leb _ _ = false |- _ => apply N.leb_gt in H
  | H : N.leb _ _ = true |- _ => apply N.leb_le in H
  | H : N.eqb _ _ = true |- _ => apply N.eqb_eq in H
  end.

Lemma pair_inv : forall x i n f fn i' e, pair_new_client x i (Some n) (Some f) fn = (i', e) ->
  (i' = i /\ (e = EOk -> exists u, find_user (users i) (Some n) = Some u /\ find_user_fp (users i) (Some f) <> None))
  \/ (e = EOk /\ forall c, cn_fp c = Some f -> paired c x i i').
Proof.
  intros x i n f fn i' e H. unfold pair_new_client in H.
  destruct (negb (validate_username n) || (l_username (i_lim i) <? strlen n)%N) eqn:Hv; [left; inversion H; subst; split; congruence|].
  nb. rename H0 into Hv1. rename H1 into Hv2 || idtac.
  destruct (find_user (users i) (Some n)) eqn:Hn; destruct (find_user_fp (users i) (Some f)) eqn:Hf;
    simpl in Hn, Hf; try rewrite Hn in H; try rewrite Hf in H.
  - left. destruct (Nat.eqb (u_id u) (u_id u0)); inversion H; subst; split; auto; try discriminate.
    intros _. exists u. split; congruence.
  - left. inversion H; subst; split; auto; discriminate.
  - left. inversion H; subst; split; auto; discriminate.
  - destruct (st_open_role (i_state i)) eqn:Hr; [|left; inversion H; subst; split; auto; discriminate].
    destruct (x_sct x) eqn:Hs; [|left; inversion H; subst; split; auto; discriminate].
    destruct (l_sct (i_lim i) <? strlen s0)%N eqn:Hl; [left; inversion H; subst; split; auto; discriminate|].
    destruct (user_new (i_next i) n) eqn:Hu; [|left; inversion H; subst; split; auto; discriminate].
    unfold add_user in H. simpl in H.
    destruct (x_add x s0) eqn:Ha; [|left; inversion H; subst; split; auto; discriminate].
    inversion H; subst. right. split; auto. intros c Hc.
    exists n, f, fn, s, s0, u. nb. repeat split; auto.
Qed.

Ltac fin := first [ left; left; reflexivity | left; right; reflexivity | idtac ].

Lemma decode_some : forall v s, decode_string v = Some (Some s) -> v = CbStr s.
Proof. intros [| |s'] s; simpl; try discriminate. destruct (N.ltb _ _); intros [= ->]; auto. Qed.

Lemma coap_on_user_inv : forall i n f a b ok i' code, coap_on_user i n f a b ok = Resp i' code ->
  (i' = i /\ (code = a \/ code = b)) \/
  (exists u u', find_user (users i) (Some n) = Some u /\ f u = Some u' /\ i' = upd n u' i /\ code = ok).
Proof.
  intros i n f a b ok i' code H. unfold coap_on_user in H.
  destruct (find_user (users i) (Some n)) eqn:Hn.
  - destruct (f u) eqn:Hf; inversion H; subst; auto. right. eauto 6.
  - inversion H; subst; auto.
Qed.

Lemma on_user_inv : forall i n f i' e, on_user i n f = Done i' e ->
  (e <> EOk /\ (i' = i \/ i' = mark_changed i)) \/
  (e = EOk /\ exists m u u', n = Some m /\ find_user (users i) (Some m) = Some u /\ f u = Some u' /\ i' = upd m u' i).
Proof.
  intros i n f i' e H. unfold on_user in H. destruct n as [n|].
  - destruct (find_user (users i) (Some n)) eqn:Hn.
    + destruct (f u) eqn:Hf; inversion H; subst.
      * right. eauto 8.
      * left. split; [discriminate|auto].
    + inversion H; subst. left. split; [discriminate|auto].
  - inversion H; subst. left. split; [discriminate|auto].
Qed.

Lemma api_delete_inv : forall i n i' e, api_delete_user i n = Done i' e ->
  (e <> EOk /\ e <> EInternal /\ i' = i) \/
  (e = EOk /\ exists m u, n = Some m /\ find_user (users i) (Some m) = Some u /\
              i' = mark_changed (set_users (remove_user m (users i)) i)).
Proof.
  intros i n i' e H. unfold api_delete_user in H. destruct n as [n|].
  - destruct (find_user (users i) (Some n)) eqn:Hn; inversion H; subst.
    + right. eauto 6.
    + left. repeat split; discriminate.
  - inversion H; subst. left. repeat split; discriminate.
Qed.

Lemma api_role_inv : forall i n v i' e, api_set_role i n v = Done i' e ->
  (e <> EOk /\ i' = i) \/
  (e = EOk /\ exists m u w, n = Some m /\ v = Some w /\ find_role (i_conf i) (Some w) <> None /\ find_user (users i) (Some m) = Some u /\
              i' = upd m (set_u_role (Some w) u) i).
Proof.
  intros i n v i' e H. unfold api_set_role in H.
  destruct (find_user (users i) n) eqn:Hn; [|inversion H; subst; left; split; [discriminate|auto]].
  destruct (find_role (i_conf i) v) eqn:Hr; [|inversion H; subst; left; split; [discriminate|auto]].
  destruct n as [n|]; [|discriminate]. unfold on_user in H. rewrite Hn in H. inversion H; subst.
  right. split; auto. destruct v as [v|]; [|discriminate Hr].
  exists n, u, v. repeat split; auto. congruence.
Qed.

Lemma api_cats_inv : forall i n v i' e, api_set_cats i n v = Done i' e ->
  (e <> EOk /\ i' = i) \/
  (e = EOk /\ exists m u, n = Some m /\ forallb (set_contains (i_cats i)) v = true /\ find_user (users i) (Some m) = Some u /\
              i' = upd m (set_u_cats v u) i).
Proof.
  intros i n v i' e H. unfold api_set_cats in H.
  destruct (find_user (users i) n) eqn:Hn; [|inversion H; subst; left; split; [discriminate|auto]].
  destruct (forallb (set_contains (i_cats i)) v) eqn:Hr; [|inversion H; subst; left; split; [discriminate|auto]].
  destruct n as [n|]; [|discriminate]. unfold on_user in H. rewrite Hn in H. inversion H; subst.
  right. split; auto. exists n, u. auto.
Qed.

(** Requests that may answer with success although nothing changed. *)

Definition quiet_resp (x : ext) (i : iam) (r : request) (i' : iam) (code : N) : Prop :=
  quiet i i' /\ (code >= 400 \/ may_be_idle r = true)%N.

Ltac q := solve [left; split; [first [left; reflexivity | right; reflexivity] | first [right; reflexivity | left; lia]]].

Ltac openg H A :=
  match type of H with
  | match ?v with _ => _ end = _ => destruct v as [[|]|] eqn:A; [|inversion H; subst; clear H; q|discriminate H]
  end.

Ltac onu H := apply coap_on_user_inv in H; destruct H as [[-> [-> | ->]]|(u & u' & Hu & Hf & -> & ->)]; [q|q|];
  try (injection Hf as <-).

Lemma handle_inv : forall E x c i r i' code, handle E x c i r = Resp i' code ->
  quiet_resp x i r i' code \/
  (check_access E i c (fst (required r)) (snd (required r)) = Some true /\ trans x c i r i' code).
Proof.
  intros E x c i r i' code H. unfold quiet_resp, quiet.
  destruct r; cbn [handle] in H; unfold guard, user_attr in H; cbn [required fst snd trans].
  - (* create *)
    openg H A.
    destruct (N.leb _ _) eqn:Hmax; [inversion H; subst; q|].
    destruct username as [| |v]; try (inversion H; subst; q).
    destruct (decode_string v) as [[n|]|] eqn:Hd; [|discriminate H|inversion H; subst; q]. apply decode_some in Hd. subst v.
    destruct (negb (validate_username n)) eqn:Hv; [inversion H; subst; q|].
    destruct (N.ltb (l_username (i_lim i)) (strlen n)) eqn:Hl; [inversion H; subst; q|].
    destruct (find_user (users i) (Some n)) eqn:Hn; [inversion H; subst; q|].
    destruct (user_new (i_next i) n) eqn:Hu; [|inversion H; subst; q].
    destruct (x_sct x) eqn:Hs; [|inversion H; subst; q].
    destruct (N.ltb (l_sct (i_lim i)) (strlen s)) eqn:Hsl; [inversion H; subst; q|].
    unfold add_user in H. cbn [u_sct set_u_sct] in H.
    destruct (x_add x s) eqn:Ha; inversion H; subst; [|q].
    right. split; auto. exists n, s, u. nb. repeat split; auto.
  - (* delete *)
    openg H A.
    destruct (api_delete_user i (Some user)) as [i1 e|] eqn:Hd; [|discriminate H].
    apply api_delete_inv in Hd. destruct Hd as [(He & He2 & ->)|(-> & m & u & [= <-] & Hu & ->)].
    + destruct e; inversion H; subst; try q; congruence.
    + inversion H; subst. right. split; auto. exists u. auto.
  - (* add fp *)
    destruct fpname as [| |v]; try (inversion H; subst; q).
    openg H A.
    destruct (find_user_fp (users i) (Some fp)) eqn:Hfp; [inversion H; subst; q|].
    onu H. right. split; auto. exists u, (decode_or_null v). eauto 8.
  - openg H A. onu H. right. split; auto. exists u, u'. auto.
  - destruct v as [| |v]; try (inversion H; subst; q).
    destruct (decode_string v) as [[n|]|] eqn:Hd; try (inversion H; subst; q). apply decode_some in Hd. subst v.
    destruct (negb (validate_username n)) eqn:Hv; [inversion H; subst; q|].
    destruct (N.ltb (l_username (i_lim i)) (strlen n)) eqn:Hl; [inversion H; subst; q|].
    openg H A.
    destruct (find_user (users i) (Some n)) eqn:Hn; [inversion H; subst; q|].
    onu H. right. split; auto. exists u, n. nb. repeat split; auto.
  - destruct v as [| |v]; try (inversion H; subst; q).
    destruct (decode_string v) as [[n|]|] eqn:Hd; try (inversion H; subst; q).
    apply decode_some in Hd. subst v. openg H A.
    destruct (api_set_role i (Some user) (Some n)) as [i1 e|] eqn:Hr; [|discriminate H].
    apply api_role_inv in Hr. destruct Hr as [(He & ->)|(-> & m & u & w & [= <-] & [= <-] & Hr & Hu & ->)].
    + destruct e; inversion H; subst; try q; congruence.
    + inversion H; subst. right. split; auto. exists u, n. auto.
  - destruct v as [| |v]; try (inversion H; subst; q).
    destruct (decode_string v) as [pw|] eqn:Hd; try (inversion H; subst; q).
    match type of H with (if ?b then _ else _) = _ => destruct b eqn:Hb; [inversion H; subst; q|] end.
    openg H A. onu H. right. split; auto. exists u, pw. split; [eauto|]. repeat split; auto.
    destruct pw; auto. nb. split; auto.
  - destruct v as [| |v]; try (inversion H; subst; q).
    destruct (decode_string v) as [pw|] eqn:Hd; try (inversion H; subst; q).
    match type of H with (if ?b then _ else _) = _ => destruct b eqn:Hb; [inversion H; subst; q|] end.
    openg H A. destruct (find_user_fp (users i) pw) eqn:Hfp; [inversion H; subst; q|].
    onu H. right. split; auto. exists u, pw, u'. split; [eauto|]. repeat split; auto.
    destruct pw; auto. nb. auto.
  - destruct v as [| |v]; try (inversion H; subst; q).
    destruct (decode_string v) as [pw|] eqn:Hd; try (inversion H; subst; q).
    match type of H with (if ?b then _ else _) = _ => destruct b eqn:Hb; [inversion H; subst; q|] end.
    openg H A. onu H. right. split; auto. exists u, pw. split; [eauto|]. repeat split; auto.
    destruct pw; auto. nb. auto.
  - destruct v as [| |v]; try (inversion H; subst; q).
    openg H A. onu H. right. split; auto.
    destruct v as [[tk pr]|]; [|discriminate Hf].
    destruct (decode_string tk) as [[t|]|] eqn:Ht; try discriminate Hf.
    destruct (decode_string pr) as [[p|]|] eqn:Hp; try discriminate Hf. apply decode_some in Ht, Hp. subst tk pr.
    destruct (_ && _) eqn:Hb; [|discriminate Hf]. injection Hf as <-. nb.
    exists u, t, p. repeat split; auto; lia.
  - destruct v as [| |v]; try (inversion H; subst; q).
    destruct (decode_string v) as [[n|]|] eqn:Hd; try (inversion H; subst; q).
    apply decode_some in Hd. subst v.
    destruct (N.ltb (l_sct (i_lim i)) (strlen n)) eqn:Hl; [inversion H; subst; q|].
    openg H A.
    destruct (coap_on_user i user (fun u => Some (set_u_sct (Some n) u)) 404 500 204) as [i1 k|] eqn:Ho; [|discriminate H].
    apply coap_on_user_inv in Ho. destruct Ho as [[-> [-> | ->]]|(u & u' & Hu & Hf & -> & ->)].
    + inversion H; subst; q.
    + inversion H; subst; q.
    + injection Hf as <-. inversion H; subst. right. split; auto. exists u, n. nb. repeat split; auto.
  - destruct v as [| |v]; try (inversion H; subst; q).
    destruct (decode_string v) as [pw|] eqn:Hd; try (inversion H; subst; q).
    match type of H with (if ?b then _ else _) = _ => destruct b eqn:Hb; [inversion H; subst; q|] end.
    openg H A. onu H. right. split; auto. exists u, pw. split; [eauto|]. repeat split; auto.
    destruct pw; auto. nb. auto.
  - destruct v as [| |v]; try (inversion H; subst; q).
    destruct v as [l|]; try (inversion H; subst; q).
    openg H A.
    destruct (api_set_cats i (Some user) l) as [i1 e|] eqn:Hr; [|discriminate H].
    apply api_cats_inv in Hr. destruct Hr as [(He & ->)|(-> & m & u & [= <-] & Hr & Hu & ->)].
    + destruct e; inversion H; subst; try q; congruence.
    + inversion H; subst. right. split; auto. exists u, l. auto.
  - destruct (negb (st_local_initial (i_state i))) eqn:Hm; [inversion H; subst; q|].
    openg H A. destruct (negb (cn_local c)) eqn:Hl; [inversion H; subst; q|].
    destruct (st_initial_user (i_state i)) as [n|] eqn:Hi; [|inversion H; subst; q].
    destruct (find_user (users i) (Some n)) as [u0|] eqn:Hn; [|inversion H; subst; q].
    destruct (is_user_paired u0) eqn:Hp; [inversion H; subst; q|].
    match type of H with match ?b with _ => _ end = _ => destruct b as [nm|] eqn:Hb; [|inversion H; subst; q] end.
    destruct (cn_fp c) as [f|] eqn:Hfp; [|inversion H; subst; q].
    onu H. rewrite Hn in Hu. injection Hu as <-. right. split; auto. nb. exists n, u0, f, nm. repeat split; auto.
  - destruct (negb (st_local_open (i_state i))) eqn:Hm; [inversion H; subst; q|].
    openg H A. destruct (negb (cn_local c)) eqn:Hl; [inversion H; subst; q|].
    destruct (cn_fp c) as [f|] eqn:Hfp; [|inversion H; subst; q].
    destruct v as [| |[un fn]]; try (inversion H; subst; q).
    destruct (decode_string un) as [[n|]|] eqn:Hd; try (inversion H; subst; q).
    destruct (pair_new_client x i (Some n) (Some f) (decode_or_null fn)) as [i1 e] eqn:Hp.
    apply pair_inv in Hp. inversion H; subst. destruct Hp as [[-> _]|[-> Hp]]; [q|].
    right. split; auto. nb. repeat split; auto.
  - destruct (negb (st_pw_invite (i_state i))) eqn:Hm; [inversion H; subst; q|].
    openg H A. destruct (negb (cn_pwauth c)) eqn:Hl; [inversion H; subst; q|].
    destruct (cn_pwname c) as [n|] eqn:Hi; [|inversion H; subst; q].
    destruct (find_user (users i) (Some n)) as [u0|] eqn:Hn; [|inversion H; subst; q].
    destruct (cn_fp c) as [f|] eqn:Hfp; [|inversion H; subst; q].
    destruct (find_user_fp (users i) (Some f)) as [v|] eqn:Hff.
    { destruct (Nat.eqb _ _); inversion H; subst; q. }
    onu H. rewrite Hn in Hu. injection Hu as <-. right. split; auto. nb. eexists n, u0, f, _. repeat split; eauto.
  - destruct (negb (st_pw_open (i_state i))) eqn:Hm; [inversion H; subst; q|].
    openg H A.
    destruct (st_pw_open_password (i_state i)) eqn:Hop; [|inversion H; subst; q].
    destruct (st_open_role (i_state i)) eqn:Hr; [|inversion H; subst; q].
    destruct (negb (cn_pwauth c)) eqn:Hl; [inversion H; subst; q|].
    destruct (cn_fp c) as [f|] eqn:Hfp; [|inversion H; subst; q].
    destruct v as [| |[[pw un] fn]]; try (inversion H; subst; q).
    destruct (decode_string pw) eqn:Hpw; try (inversion H; subst; q).
    destruct (decode_string un) as [[n|]|] eqn:Hd; try (inversion H; subst; q).
    destruct (pair_new_client x i (Some n) (Some f) (decode_or_null fn)) as [i1 e] eqn:Hp.
    apply pair_inv in Hp. inversion H; subst. destruct Hp as [[-> _]|[-> Hp]]; [q|].
    right. split; auto. nb. repeat split; auto; congruence.
  - openg H A. destruct v as [| |v]; try (inversion H; subst; q).
    destruct (String.eqb key "password-open-pairing") eqn:K1.
    { apply String.eqb_eq in K1. destruct v as [b|]; inversion H; subst; [|q]. right; split; auto.
      exists PmPasswordOpen, b. repeat split; auto; discriminate. }
    destruct (String.eqb key "password-invite-pairing") eqn:K2.
    { apply String.eqb_eq in K2. destruct v as [b|]; inversion H; subst; [|q]. right; split; auto.
      exists PmPasswordInvite, b. repeat split; auto; discriminate. }
    destruct (String.eqb key "local-open-pairing") eqn:K3.
    { apply String.eqb_eq in K3. destruct v as [b|]; inversion H; subst; [|q]. right; split; auto.
      exists PmLocalOpen, b. repeat split; auto; discriminate. }
    inversion H; subst; q.
  - openg H A. destruct v as [| |v]; try (inversion H; subst; q).
    destruct (String.eqb key "friendly-name") eqn:K; [|inversion H; subst; q]. apply String.eqb_eq in K.
    destruct (decode_string v) as [[n|]|] eqn:Hd; try (inversion H; subst; q). apply decode_some in Hd. subst v.
    destruct (N.ltb (l_friendly (i_lim i)) (strlen n)) eqn:Hl; inversion H; subst; [q|].
    right. split; auto. nb. exists n. auto 6.
Qed.

(** ** API transitions *)
Definition quiet_api (i i' : iam) : Prop := i' = i \/ i' = mark_changed i \/ i' = set_next (S (i_next i)) i.

Definition atrans (x : ext) (i : iam) (a : api) (i' : iam) : Prop :=
  match a with
  | ApCreateUser n => exists m t u, n = Some m /\ validate_username m = true /\ (strlen m <= l_username (i_lim i))%N /\
      (N.of_nat (length (users i)) < l_max_users (i_lim i))%N /\ find_user (users i) (Some m) = None /\
      x_sct x = Some t /\ user_new (i_next i) m = Some u /\ x_add x t = true /\ i' = addu (set_u_sct (Some t) u) t i
  | ApSetFp n v => exists m f u u', n = Some m /\ v = Some f /\ strlen f = 64%N /\ find_user (users i) (Some m) = Some u /\
      user_set_fp (Some f) u = Some u' /\ i' = upd m u' i
  | ApAddFp n v fn => exists m f nm u, n = Some m /\ v = Some f /\ fn = Some nm /\ strlen f = 64%N /\
      (strlen nm <= l_display (i_lim i))%N /\ find_user (users i) (Some m) = Some u /\ i' = upd m (user_add_fp f fn u) i
  | ApRemoveFp n v => exists m f u u', n = Some m /\ v = Some f /\ find_user (users i) (Some m) = Some u /\
      user_remove_fp f u = Some u' /\ i' = upd m u' i
  | ApSetSct n v => exists m s u, n = Some m /\ v = Some s /\ (strlen s <= l_sct (i_lim i))%N /\
      find_user (users i) (Some m) = Some u /\ i' = upd m (set_u_sct v u) i
  | ApSetPassword n v => exists m s u, n = Some m /\ v = Some s /\ (l_pw_min (i_lim i) <= strlen s <= l_pw_max (i_lim i))%N /\
      find_user (users i) (Some m) = Some u /\ i' = upd m (set_u_password v u) i
  | ApSetRole n v => exists m s u, n = Some m /\ v = Some s /\ find_role (i_conf i) (Some s) <> None /\
      find_user (users i) (Some m) = Some u /\ i' = upd m (set_u_role v u) i
  | ApSetDisplay n v => exists m s u, n = Some m /\ v = Some s /\ (strlen s <= l_display (i_lim i))%N /\
      find_user (users i) (Some m) = Some u /\ i' = upd m (set_u_display v u) i
  | ApSetFcmToken n v => exists m s u, n = Some m /\ v = Some s /\ (strlen s <= l_fcm_token (i_lim i))%N /\
      find_user (users i) (Some m) = Some u /\ i' = upd m (set_u_fcm_token v u) i
  | ApSetFcmProject n v => exists m s u, n = Some m /\ v = Some s /\ (strlen s <= l_fcm_project (i_lim i))%N /\
      find_user (users i) (Some m) = Some u /\ i' = upd m (set_u_fcm_project v u) i
  | ApSetCats n v => exists m u, n = Some m /\ forallb (set_contains (i_cats i)) v = true /\
      find_user (users i) (Some m) = Some u /\ i' = upd m (set_u_cats v u) i
  | ApSetOauth n v => exists m s u, n = Some m /\ v = Some s /\ (strlen s <= l_oauth (i_lim i))%N /\
      find_user (users i) (Some m) = Some u /\ i' = upd m (set_u_oauth v u) i
  | ApDeleteUser n => exists m u, n = Some m /\ find_user (users i) (Some m) = Some u /\
      i' = mark_changed (set_users (remove_user m (users i)) i)
  | ApAuthorize r n => exists u m, n = Some m /\ find_user (users i) (Some m) = Some u /\ i' = set_auth (i_auth i ++ [(r, u_id u)])%list i
  | ApSetMode m b => i' = do_callbacks (mark_changed (set_state (set_mode m b (i_state i)) i))
  end.

Lemma api_inv : forall x i a i' e, run_api x i a = Done i' e ->
  (e <> EOk /\ quiet_api i i') \/
  (e = EOk /\ match a with ApCreateUser _ => i' = set_next (S (i_next i)) i | _ => False end) \/
  (e = EOk /\ atrans x i a i').
Proof.
  assert (Q : forall i e, e <> EOk -> e <> EOk /\ quiet_api i i) by (unfold quiet_api; auto).
  assert (U : forall i n f i' e (P : Prop), on_user i n f = Done i' e ->
    (forall m u u', n = Some m -> find_user (users i) (Some m) = Some u -> f u = Some u' -> i' = upd m u' i -> P) ->
    (e <> EOk /\ quiet_api i i') \/ (e = EOk /\ P)).
  { intros i n f i' e P H HP. apply on_user_inv in H. unfold quiet_api.
    destruct H as [(He & [->| ->])|(-> & m & u & u' & Hm & Hu & Hf & Hi)]; auto. right. split; auto. eauto. }
  intros x i a i' e H. destruct a; cbn [run_api atrans] in *.
  1: {
    unfold api_create_user in H. destruct name as [n|]; [|discriminate H].
    destruct (_ || _) eqn:Hv; [inversion H; subst; left; apply Q; discriminate|].
    destruct (N.leb _ _) eqn:Hm; [inversion H; subst; left; apply Q; discriminate|].
    destruct (find_user (users i) (Some n)) eqn:Hn; [inversion H; subst; left; apply Q; discriminate|].
    destruct (user_new (i_next i) n) eqn:Hu; [|inversion H; subst; left; apply Q; discriminate].
    destruct (x_sct x) eqn:Hs; [|inversion H; subst; left; apply Q; discriminate].
    unfold add_user in H. cbn [u_sct set_u_sct] in H. right.
    destruct (x_add x s) eqn:Ha; inversion H; subst; [right|left]; split; auto.
    nb. exists n, s, u. repeat split; auto. }
  1: { unfold api_set_fp in H. destruct fp as [f|]; [|discriminate H].
    destruct (negb _) eqn:Hl; [inversion H; subst; left; apply Q; discriminate|]. nb.
    eapply U in H; [destruct H as [H|H]; [left; exact H|right; right; exact H]|].
    intros m u u' -> Hu Hf ->. exists m, f, u, u'. auto 7. }
  1: { unfold api_add_fp in H. destruct fp as [f|]; [|discriminate H].
    destruct (negb _) eqn:Hl; [inversion H; subst; left; apply Q; discriminate|]. nb.
    destruct fpname as [nm|]; [|discriminate H].
    destruct (N.ltb _ _) eqn:Hd; [inversion H; subst; left; apply Q; discriminate|]. nb.
    eapply U in H; [destruct H as [H|H]; [left; exact H|right; right; exact H]|].
    intros m u u' -> Hu [= <-] ->. exists m, f, nm, u. auto 8. }
  1: { unfold api_remove_fp in H.
    eapply U in H; [destruct H as [H|H]; [left; exact H|right; right; exact H]|].
    intros m u u' -> Hu Hf ->. destruct fp as [f|]; [|discriminate Hf]. exists m, f, u, u'. auto 7. }
  1: { unfold api_set_sct in H. destruct v as [s|]; [|discriminate H].
    destruct (N.ltb _ _) eqn:Hl; [inversion H; subst; left; apply Q; discriminate|]. nb.
    eapply U in H; [destruct H as [H|H]; [left; exact H|right; right; exact H]|].
    intros m u u' -> Hu [= <-] ->. exists m, s, u. auto 7. }
  1: { unfold api_set_password in H. destruct v as [s|]; [|discriminate H].
    destruct (_ || _) eqn:Hl; [inversion H; subst; left; apply Q; discriminate|]. nb.
    eapply U in H; [destruct H as [H|H]; [left; exact H|right; right; exact H]|].
    intros m u u' -> Hu [= <-] ->. exists m, s, u. auto 7. }
  1: { apply api_role_inv in H. destruct H as [[He ->]|(-> & m & u & w & -> & -> & Hr & Hu & ->)]; [left; apply Q; auto|].
    right; right. split; auto. exists m, w, u. auto 7. }
  1: { unfold api_set_display in H. destruct v as [s|]; [|discriminate H].
    destruct (N.ltb _ _) eqn:Hl; [inversion H; subst; left; apply Q; discriminate|]. nb.
    eapply U in H; [destruct H as [H|H]; [left; exact H|right; right; exact H]|].
    intros m u u' -> Hu [= <-] ->. exists m, s, u. auto 7. }
  1: { unfold api_set_fcm_token in H. destruct v as [s|]; [|discriminate H].
    destruct (N.ltb _ _) eqn:Hl; [inversion H; subst; left; apply Q; discriminate|]. nb.
    eapply U in H; [destruct H as [H|H]; [left; exact H|right; right; exact H]|].
    intros m u u' -> Hu [= <-] ->. exists m, s, u. auto 7. }
  1: { unfold api_set_fcm_project in H. destruct v as [s|]; [|discriminate H].
    destruct (N.ltb _ _) eqn:Hl; [inversion H; subst; left; apply Q; discriminate|]. nb.
    eapply U in H; [destruct H as [H|H]; [left; exact H|right; right; exact H]|].
    intros m u u' -> Hu [= <-] ->. exists m, s, u. auto 7. }
  1: { apply api_cats_inv in H. destruct H as [[He ->]|(-> & m & u & -> & Hr & Hu & ->)]; [left; apply Q; auto|].
    right; right. split; auto. exists m, u. auto 7. }
  1: { unfold api_set_oauth in H. destruct v as [s|]; [|discriminate H].
    destruct (N.ltb _ _) eqn:Hl; [inversion H; subst; left; apply Q; discriminate|]. nb.
    eapply U in H; [destruct H as [H|H]; [left; exact H|right; right; exact H]|].
    intros m u u' -> Hu [= <-] ->. exists m, s, u. auto 7. }
  1: { apply api_delete_inv in H. destruct H as [(He & _ & ->)|(-> & m & u & -> & Hu & ->)]; [left; apply Q; auto|].
    right; right. split; auto. eauto. }
  1: { unfold api_authorize in H. destruct (find_user (users i) name) eqn:Hn; inversion H; subst; [|left; apply Q; discriminate].
    right; right. split; auto. destruct name as [n|]; [|discriminate Hn]. exists u, n. auto. }
  1: { unfold api_set_mode in H. inversion H; subst. auto. }
Qed.
