(** * Nobody gets more than a setup gives *)
From Coq Require Import String Ascii List Bool Arith NArith Lia.
From Verif Require Import JsonModel IamPolicyModel IamPolicyProofs IamStateModel IamStateSpec IamStateProofs IamStateInv IamStateReload IamJsonModel IamJsonSpec IamJsonProofs
  PerModel PerSpec PerProofs PerProofs2 PerProofs3 PerProofs4 PerProofs5 DefModel DefSpec DefProofs.
Import ListNotations.
Open Scope string_scope.
Open Scope list_scope.
Open Scope nat_scope.

(** ** Decisions *)

Lemma access_may : forall E i c a m b, i_conf i = default_conf -> no_reserved m -> check_access E i c a m = Some b ->
  (cn_fp c = None /\ cn_virtual c = false /\ b = false) \/
  ((cn_fp c <> None \/ cn_virtual c = true) /\
   exists who, identity i c who /\ (b = true <-> may (about_self who m) (role_name i who) a)).
Proof.
  intros E i c a m b Hc Hm H. destruct (access_identity Hm H) as [H'|(Hv & who & m' & Hi & Hs & Hb)]; [now left|].
  right. split; [exact Hv|]. exists who. split; [exact Hi|]. rewrite Hb, Hc, <- decide_spec, decide_may.
  assert (X : self m' <-> about_self who m).
  { unfold self, about_self. rewrite (Hs "IAM:Username"), (Hs "Connection:Username"). cbn. destruct who as [u|].
    - split; [intros (n & A & B)|intros (v & A & B)].
      + injection B as <-. exists u. auto.
      + injection A as <-. exists (u_name u). auto.
    - split; [intros (n & _ & B)|intros (v & A & _)]; discriminate. }
  unfold may, own_user. tauto.
Qed.

(** ** Weak users *)

Definition low (r : option string) : Prop := r = None \/ r = Some "Unpaired" \/ r = Some "Guest".
Definition weak_user (u : user) : Prop := (u_name u = "admin" /\ u_fps u = []) \/ low (u_role u).
Definition weak (s : istate) : Prop := low (st_open_role s) /\ Forall weak_user (st_users s).

Lemma same_weak_user : forall u v, same_user u v -> weak_user u -> weak_user v.
Proof.
  intros u v H Hu. pose proof (H FName) as A. pose proof (H FFps) as B. pose proof (H FRole) as C. unfold get in A, B, C.
  destruct Hu as [[Hn Hf]|Hr].
  - left. injection A as A. split; [congruence|]. rewrite Hf in B. cbn in B. destruct (u_fps v); [reflexivity|discriminate].
  - right. injection C as C. congruence.
Qed.
Lemma same_weak : forall s t, same_state s t -> weak s -> weak t.
Proof.
  intros s t [H1 H2] [W1 W2]. split.
  - unfold settings in H1. injection H1 as _ _ _ _ _ _ H _ _. congruence.
  - revert W2. induction H2; intros W; auto. inversion W; subst. constructor; eauto using same_weak_user.
Qed.
Lemma weak_named : forall s, weak s -> weak (named s).
Proof. intros s H. exact H. Qed.

Lemma low_may : forall own r a, low r -> may own r a -> pairing a \/ own_user own a.
Proof.
  intros own r a Hr [[-> H]|[[-> H]|[[-> H]|[-> H]]]]; auto; destruct Hr as [Hr|[Hr|Hr]]; discriminate.
Qed.

Lemma weak_identity : forall i c who, i_conf i = default_conf -> i_auth i = [] -> weak (i_state i) -> ~ as_admin c ->
  identity i c who -> low (role_name i who).
Proof.
  intros i c who Hc Ha [_ Hw] Hn Hi. rewrite Forall_forall in Hw. destruct Hi as [f u Hf (pre & post & Hl & Ho & _)|n u _ Hp Hpn (pre & post & Hl & Ho & _)|u _ _ (pre & post & Hl & _)|_ _ _]; cbn.
  - assert (I : In u (st_users (i_state i))) by (unfold users in Hl; rewrite Hl; apply in_elt).
    destruct (Hw _ I) as [[_ E]|R]; [|exact R]. unfold owns, fp_values in Ho. rewrite E in Ho. destruct Ho.
  - assert (I : In u (st_users (i_state i))) by (unfold users in Hl; rewrite Hl; apply in_elt).
    destruct (Hw _ I) as [[E _]|R]; [|exact R]. exfalso. apply Hn. split; congruence.
  - rewrite Ha in Hl. destruct pre; discriminate.
  - rewrite Hc. right; left; reflexivity.
Qed.

Lemma weak_access : forall E i c a m, i_conf i = default_conf -> i_auth i = [] -> weak (i_state i) -> ~ as_admin c -> no_reserved m ->
  check_access E i c a m = Some true ->
  exists who, identity i c who /\ (pairing a \/ own_user (about_self who m) a).
Proof.
  intros E i c a m Hc Ha Hw Hn Hm H. destruct (access_may _ _ _ _ _ _ Hc Hm H) as [(_ & _ & X)|(_ & who & Hi & Hb)]; [discriminate|].
  exists who. split; [exact Hi|]. eapply low_may; [eapply weak_identity; eauto|]. now apply Hb.
Qed.

(** ** One request *)

Lemma required_free : forall r, no_reserved (snd (required r)).
Proof. intros r. destruct r; try (split; reflexivity). cbn. match goal with |- context [match ?p with _ => _ end] => destruct p as [| |[]] end; split; reflexivity. Qed.

Lemma In_update : forall n u' us v, In v (update_user n (fun _ => u') us) -> In v us \/ v = u'.
Proof.
  induction us as [|u us IH]; cbn; intros v H; [auto|]. destruct (String.eqb (u_name u) n).
  - destruct H as [<-|H]; auto.
  - destruct H as [<-|H]; auto. destruct (IH _ H); auto.
Qed.
Lemma In_remove : forall n us v, In v (remove_user n us) -> In v us.
Proof.
  induction us as [|u us IH]; cbn; intros v H; [auto|]. destruct (String.eqb (u_name u) n); [auto|].
  destruct H as [<-|H]; auto.
Qed.
Lemma found_in : forall us n u, find_user us (Some n) = Some u -> In u us /\ u_name u = n.
Proof.
  intros us n u H. unfold find_user in H. apply find_some in H. destruct H as [H1 H2]. split; [exact H1|]. now apply String.eqb_eq in H2.
Qed.

Lemma weak_upd : forall n u i, weak (i_state i) -> weak_user u -> weak (i_state (upd n u i)).
Proof.
  intros n u i [H1 H2] Hu. split; [exact H1|]. rewrite Forall_forall in *. intros v Hv. cbn in Hv. apply In_update in Hv.
  destruct Hv as [Hv| ->]; auto.
Qed.
Lemma weak_paired : forall c x i i', weak (i_state i) -> paired c x i i' -> weak (i_state i').
Proof.
  intros c x i i' [H1 H2] (n & f & fn & r & t & u & _ & _ & _ & _ & _ & Hr & _ & Hu & ->). split; [exact H1|].
  cbn. apply Forall_app. split; [exact H2|]. constructor; [|constructor]. right. cbn. now rewrite <- Hr.
Qed.

Lemma not_low : forall own a, pairing a \/ own_user own a ->
  In a ["IAM:GetPairing"; "IAM:PairingPasswordInvite"; "IAM:PairingLocalInitial"; "IAM:PairingLocalOpen"; "IAM:PairingPasswordOpen";
        "IAM:ListRoles"; "IAM:ListUsers"; "IAM:GetUser"; "IAM:DeleteUser"; "IAM:SetUserDisplayName"].
Proof.
  intros own a [H|[H|[H _]]]; cbn in *; tauto.
Qed.

Lemma set_role_action : forall n p, fst (required (RqSetRole n p)) = "IAM:SetUserRole".
Proof. intros n [| |[]]; reflexivity. Qed.

Ltac denied A := exfalso; apply not_low in A; cbn in A; repeat (destruct A as [A|A]; [discriminate A|]); exact A.

Lemma weak_handle : forall E x c i r i' code, i_conf i = default_conf -> i_auth i = [] -> weak (i_state i) ->
  ~ as_admin c -> ~ (cn_local c = true /\ exists p, r = RqPairLocalInitial p) ->
  handle E x c i r = Resp i' code -> weak (i_state i').
Proof.
  intros E x c i r i' code Hc Ha Hw Hn Hl H. destruct (handle_inv H) as [[[-> | ->] _]|[Hk Ht]]; [exact Hw|exact Hw|].
  destruct (weak_access _ _ _ _ _ Hc Ha Hw Hn (required_free r) Hk) as (who & _ & A). clear H Hk.
  destruct r; cbn [trans] in Ht;
    match type of A with context [RqSetRole _ _] => rewrite set_role_action in A | _ => cbn [required fst snd] in A end;
    try solve [denied A]; clear A.
  - destruct Ht as (u & _ & -> & _). destruct Hw as [W1 W2]. split; [exact W1|]. rewrite Forall_forall in *. intros v Hv. apply W2.
    eapply In_remove; exact Hv.
  - destruct Ht as (u & v1 & _ & Hu & _ & -> & _). apply weak_upd; [exact Hw|]. destruct Hw as [_ W]. rewrite Forall_forall in W.
    apply found_in in Hu. exact (W _ (proj1 Hu)).
  - destruct Ht as (n & u & f & nm & _ & Hloc & _). exfalso. apply Hl. split; eauto.
  - destruct Ht as (_ & _ & Ht & _). eapply weak_paired; eauto.
  - destruct Ht as (n & u & f & nm & _ & Hp & Hpn & Hu & _ & _ & -> & _). apply weak_upd; [exact Hw|]. destruct Hw as [_ W]. rewrite Forall_forall in W.
    apply found_in in Hu. destruct Hu as [Hu1 Hu2]. destruct (W _ Hu1) as [[E1 _]|R]; [|right; exact R].
    exfalso. apply Hn. split; congruence.
  - destruct Ht as (_ & _ & _ & Ht & _). eapply weak_paired; eauto.
Qed.

Definition safe (i : iam) : Prop := i_conf i = default_conf /\ i_auth i = [] /\ weak (i_state i).

Lemma safe_step : forall E i x e w i', safe i -> stranger (Serve x e w) -> IamStateModel.step E i (x, op_of e) = Some i' -> safe i'.
Proof.
  intros E i x e w i' (Hc & Ha & Hw) Hs H. split; [|split].
  - destruct e; cbn in H.
    + unfold coap in H. destruct (handle E x c i r) as [j code|] eqn:Hh; [|discriminate]. injection H as <-.
      destruct (handle_inv Hh) as [[[-> | ->] _]|[_ Ht]].
      * unfold do_callbacks. destruct (i_changed i); exact Hc.
      * unfold do_callbacks. destruct (i_changed _); exact Hc.
      * assert (X : i_conf j = i_conf i).
        { destruct r; cbn [trans] in Ht; repeat match goal with
          | H : exists _, _ |- _ => destruct H | H : _ /\ _ |- _ => destruct H | H : paired _ _ _ _ |- _ => unfold paired in H end; subst j; try reflexivity.
          destruct (x_add x _); reflexivity. }
        unfold do_callbacks. destruct (i_changed j); cbn; congruence.
    + destruct (check_access E i c action m); [|discriminate]. injection H as <-. exact Hc.
    + injection H as <-. exact Hc.
  - destruct (step_auth H) as [->|[(r & _ & ->)|(r & n & id & X & _)]]; [exact Ha|now rewrite Ha|destruct e; discriminate].
  - destruct e; cbn in H.
    + unfold coap in H. destruct (handle E x c i r) as [j code|] eqn:Hh; [|discriminate]. injection H as <-.
      cbn in Hs. destruct Hs as [S1 S2]. assert (W : weak (i_state j)) by (eapply weak_handle; eauto).
      unfold do_callbacks. destruct (i_changed j); exact W.
    + destruct (check_access E i c action m); [|discriminate]. injection H as <-. exact Hw.
    + injection H as <-. exact Hw.
Qed.
