(** * Who changes what *)
From Coq Require Import String Ascii List Bool Arith NArith ZArith Lia.
From Verif Require Import IamPolicyModel IamStateModel IamStateSpec IamStateProofs IamStateInv IamStateReload DefModel DefSpec DefProofs DefProofs2.
Import ListNotations.
Open Scope string_scope.
Open Scope list_scope.
Open Scope nat_scope.

Lemma callbacks_state : forall i, i_state (do_callbacks i) = i_state i.
Proof. intros i. unfold do_callbacks. destruct (i_changed i); reflexivity. Qed.

Lemma served : forall E x c i r i' code, i_conf i = default_conf -> coap E x c i r = Resp i' code -> i_state i' <> i_state i ->
  exists who, identity i c who /\ may (about_self who (snd (required r))) (role_name i who) (fst (required r)).
Proof.
  intros E x c i r i' code Hc H Hne. unfold coap in H. destruct (handle E x c i r) as [j k|] eqn:Hh; [|discriminate]. injection H as <- <-.
  rewrite callbacks_state in Hne. destruct (handle_inv Hh) as [[[-> | ->] _]|[Hk _]]; [now destruct Hne|now destruct Hne|].
  destruct (access_may _ _ _ _ _ _ Hc (required_free r) Hk) as [(_ & _ & X)|(_ & who & Hi & Hb)]; [discriminate|].
  exists who. split; [exact Hi|]. now apply Hb.
Qed.

Lemma may_lower : forall own r a, may own r a -> r = Some "Administrator" \/ pairing a \/ own_user own a \/ tunnelling a.
Proof. intros own r a [[-> H]|[[-> H]|[[-> H]|[-> H]]]]; tauto. Qed.

Lemma lower_in : forall own a, pairing a \/ own_user own a \/ tunnelling a ->
  In a ["IAM:GetPairing"; "IAM:PairingPasswordInvite"; "IAM:PairingLocalInitial"; "IAM:PairingLocalOpen"; "IAM:PairingPasswordOpen";
        "IAM:ListRoles"; "IAM:ListUsers"; "IAM:GetUser"; "IAM:DeleteUser"; "IAM:SetUserDisplayName";
        "TcpTunnel:GetService"; "TcpTunnel:Connect"; "TcpTunnel:ListServices"].
Proof. intros own a [H|[[H|[H _]]|H]]; cbn in *; tauto. Qed.
Lemma own_needed : forall own a, a = "IAM:DeleteUser" \/ a = "IAM:SetUserDisplayName" -> pairing a \/ own_user own a \/ tunnelling a -> own.
Proof.
  intros own a Ha [H|[[H|[_ H]]|H]]; auto; exfalso; cbn in H; destruct Ha as [-> | ->]; repeat (destruct H as [H|H]; [discriminate H|]); exact H.
Qed.
Lemma may_in : forall own r a, may own r a ->
  In a ["IAM:GetPairing"; "IAM:PairingPasswordInvite"; "IAM:PairingLocalInitial"; "IAM:PairingLocalOpen"; "IAM:PairingPasswordOpen";
        "IAM:ListRoles"; "IAM:ListUsers"; "IAM:GetUser"; "IAM:DeleteUser"; "IAM:SetUserDisplayName";
        "TcpTunnel:GetService"; "TcpTunnel:Connect"; "TcpTunnel:ListServices";
        "IAM:SetUserRole"; "IAM:CreateUser"; "IAM:SetUserPassword"; "IAM:SetSettings"; "IAM:GetSettings"; "IAM:SetDeviceInfo"].
Proof. intros own r a [[_ H]|[[_ [H|[H|[H _]]]]|[[_ [H|[[H|[H _]]|H]]]|[_ [H|[H|H]]]]]]; cbn in *; tauto. Qed.

Ltac absent A := exfalso; cbn in A; repeat (destruct A as [A|A]; [discriminate A|]); exact A.

Lemma changes : forall E x c i r i' code, i_conf i = default_conf -> coap E x c i r = Resp i' code -> i_state i' <> i_state i ->
  exists who, identity i c who /\
    (role_name i who = Some "Administrator" \/
     (exists p, r = RqPairLocalInitial p) \/ (exists p, r = RqPairLocalOpen p) \/ (exists p, r = RqPairPasswordInvite p) \/
     (exists p, r = RqPairPasswordOpen p) \/
     exists u, who = Some u /\ (r = RqDeleteUser (u_name u) \/ exists p, r = RqSetDisplay (u_name u) p)).
Proof.
  intros E x c i r i' code Hc H Hne. destruct (served _ _ _ _ _ _ _ Hc H Hne) as (who & Hi & Hm). exists who. split; [exact Hi|].
  apply may_lower in Hm. destruct Hm as [Hm|Hm]; [now left|]. right. pose proof (lower_in _ _ Hm) as A.
  destruct r;
    match type of A with context [RqSetRole _ _] => rewrite set_role_action in A | _ => cbn [required fst snd] in A, Hm end;
    try solve [absent A]; eauto 6.
  - apply own_needed in Hm; [|now left]. destruct Hm as (u & -> & Hu). cbn in Hu. injection Hu as ->. do 4 right. exists u. auto.
  - apply own_needed in Hm; [|now right]. destruct Hm as (u & -> & Hu). cbn in Hu. injection Hu as ->. do 4 right. exists u. eauto.
Qed.

Lemma nobody : forall E x c i r i' code, i_conf i = default_conf -> coap E x c i r = Resp i' code ->
  (exists n f p, r = RqAddFp n f p) \/ (exists n f, r = RqDeleteFp n f) \/ (exists n p, r = RqSetName n p) \/ (exists n p, r = RqSetFp n p) \/
  (exists n p, r = RqSetFcm n p) \/ (exists n p, r = RqSetSct n p) \/ (exists n p, r = RqSetOauth n p) \/ (exists n p, r = RqSetCats n p) ->
  i_state i' = i_state i.
Proof.
  intros E x c i r i' code Hc H Hr. unfold coap in H. destruct (handle E x c i r) as [j k|] eqn:Hh; [|discriminate]. injection H as <- <-.
  rewrite callbacks_state. destruct (handle_inv Hh) as [[[-> | ->] _]|[Hk _]]; [reflexivity|reflexivity|]. exfalso.
  destruct (access_may _ _ _ _ _ _ Hc (required_free r) Hk) as [(_ & _ & X)|(_ & who & Hi & Hb)]; [discriminate|].
  pose proof (may_in _ _ _ (proj1 Hb eq_refl)) as A.
  destruct Hr as [(n & f & p & ->)|[(n & f & ->)|[(n & p & ->)|[(n & p & ->)|[(n & p & ->)|[(n & p & ->)|[(n & p & ->)|(n & p & ->)]]]]]]];
    cbn [required fst] in A; absent A.
Qed.
