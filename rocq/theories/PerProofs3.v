(** * Requests keep the state made of C strings *)
From Coq Require Import String Ascii List Bool Arith NArith ZArith Lia.
From Verif Require Import JsonModel JsonProofs IamPolicyModel IamStateModel IamStateSpec IamStateProofs IamStateFrame IamStateInv IamStateReload
  IamJsonModel IamJsonSpec IamJsonProofs PerModel PerSpec PerProofs PerProofs2.
Import ListNotations.
Open Scope string_scope.
Open Scope list_scope.
Open Scope nat_scope.

Definition pi (i : iam) : Prop := proper_state (i_state i).

Lemma pi_upd : forall i n u u', pi i -> find_user (users i) (Some n) = Some u ->
  (proper_user u -> proper_user u') -> pi (upd n u' i).
Proof.
  intros i n u u' V Hu HV. apply find_split in Hu. destruct Hu as (pre & post & He & Hn & Hp).
  unfold pi in *. revert V. pstate. cbn. unfold users in *. rewrite He in *. rewrite update_user_app by auto.
  intros w Hw. apply in_app_or in Hw. destruct Hw as [Hw|[<-|Hw]].
  - apply P6, in_or_app. now left.
  - apply HV, P6, in_or_app. right. now left.
  - apply P6, in_or_app. right. now right.
Qed.
Lemma pi_add : forall i u t, pi i -> proper_user u -> pi (addu u t i).
Proof.
  intros i u t V Hu. unfold pi in *. revert V. pstate. cbn. intros w Hw.
  apply in_app_or in Hw. destruct Hw as [Hw|[<-|[]]]; auto.
Qed.
Lemma pi_remove : forall i n u, pi i -> find_user (users i) (Some n) = Some u -> pi (mark_changed (set_users (remove_user n (users i)) i)).
Proof.
  intros i n u V Hu. apply find_split in Hu. destruct Hu as (pre & post & He & Hn & Hp).
  unfold pi in *. revert V. pstate. cbn. unfold users in *. rewrite He in *. rewrite remove_user_app by auto.
  intros w Hw. apply P6. apply in_app_or in Hw. apply in_or_app. destruct Hw; [now left|right; now right].
Qed.
Lemma decode_c : forall v w, cb_c_string v -> decode_string v = Some w -> opt_c_string w.
Proof.
  intros [ | |s] w Hv H; cbn in H; try discriminate; [now injection H as <-|].
  destruct (strlen s <? 1024)%N; [|discriminate]. now injection H as <-.
Qed.
Lemma decode_null_c : forall v, cb_c_string v -> opt_c_string (decode_or_null v).
Proof. intros v Hv. unfold decode_or_null. destruct (decode_string v) eqn:H; [eapply decode_c; eauto|exact I]. Qed.

Lemma pair_c : forall x i n f fn i' e, pi i -> opt_c_string (x_sct x) -> c_string f -> opt_c_string fn ->
  pair_new_client x i (Some n) (Some f) fn = (i', e) -> pi i'.
Proof.
  intros x i n f fn i' e V Hx Hf Hn H. unfold pair_new_client in H.
  destruct (negb (validate_username n) || (l_username (i_lim i) <? strlen n)%N)%bool; [now injection H as <- _|].
  destruct (find_user (users i) (Some n)) as [a|], (find_user_fp (users i) (Some f)) as [b|];
    try (now injection H as <- _).
  { destruct (Nat.eqb (u_id a) (u_id b)); now injection H as <- _. }
  destruct (st_open_role (i_state i)) as [r|] eqn:Hr; [|now injection H as <- _].
  destruct (x_sct x) as [t|]; [|now injection H as <- _].
  destruct (l_sct (i_lim i) <? strlen t)%N; [now injection H as <- _|].
  destruct (user_new (i_next i) n) as [u|] eqn:Hu; [|now injection H as <- _].
  unfold add_user in H. cbn [u_sct set_u_sct] in H. destruct (x_add x t); [|now injection H as <- _].
  injection H as <- _. apply (pi_add i (set_u_sct (Some t) (user_add_fp f fn (set_u_role (Some r) u))) t); auto.
  assert (Hro : c_string r) by (destruct V as (_ & _ & V & _); rewrite Hr in V; exact V).
  assert (H1 : proper_user (set_u_role (Some r) u)) by (pose proof (new_proper _ _ _ Hu) as P; revert P; puser).
  apply (add_fp_proper f fn) in H1; auto. revert H1. puser.
Qed.

Lemma pi_handle : forall E x c i r i' code, pi i -> opt_c_string (x_sct x) -> opt_c_string (cn_fp c) -> c_request r ->
  handle E x c i r = Resp i' code -> pi i'.
Proof.
  intros E x c i r i' code V Hx Hc Hr H. pose proof H as Hh.
  apply handle_inv in H. destruct H as [[[-> | ->] _]|[_ T]]; [exact V|exact V|].
  destruct r; cbn [trans] in T; cbn [c_request] in Hr.
  - destruct T as (n & t & u & _ & Hv & Hl & Hm & Hn & Hs & Hsl & Hu & Ha & -> & _).
    apply pi_add; auto. rewrite Hs in Hx. pose proof (new_proper _ _ _ Hu) as P. revert P. puser.
  - destruct T as (u & Hu & -> & _). eapply pi_remove; eauto.
  - destruct T as (u & nm & (v & Hp & Hnm) & Hu & Hf & -> & _). subst. cbn in Hr. destruct Hr as [Hr1 Hr2].
    eapply pi_upd; eauto. intros. apply add_fp_proper; auto. now apply decode_null_c.
  - destruct T as (u & u' & Hu & Hrm & -> & _). eapply pi_upd; eauto. eapply remove_fp_proper; eauto.
  - destruct T as (u & n' & _ & Hu & Hn & Hv & Hl & -> & _). eapply pi_upd; eauto. puser. now apply validate_username_ok.
  - destruct T as (u & s & -> & Hu & _ & -> & _). eapply pi_upd; eauto. puser.
  - destruct T as (u & s & (w & -> & Hw) & Hu & Hl & -> & _). eapply pi_upd; eauto.
    apply (decode_c _ _ Hr) in Hw. puser.
  - destruct T as (u & s & u' & (w & -> & Hw) & Hu & Hf & Hl & Hs & -> & _). eapply pi_upd; eauto.
    apply (decode_c _ _ Hr) in Hw. eapply set_fp_proper; eauto.
  - destruct T as (u & s & (w & -> & Hw) & Hu & Hl & -> & _). eapply pi_upd; eauto.
    apply (decode_c _ _ Hr) in Hw. puser.
  - destruct T as (u & t & p & -> & Hu & Hl1 & Hl2 & -> & _). cbn in Hr. destruct Hr. eapply pi_upd; eauto. puser.
  - destruct T as (u & s & -> & Hu & Hl & -> & _). cbn in Hr.
    assert (pi (upd user (set_u_sct (Some s) u) i)) by (eapply pi_upd; eauto; puser).
    destruct (x_add x s); auto.
  - destruct T as (u & s & (w & -> & Hw) & Hu & Hl & -> & _). eapply pi_upd; eauto.
    apply (decode_c _ _ Hr) in Hw. puser.
  - destruct T as (u & l & -> & Hu & Hl & -> & _). cbn in Hr. destruct Hr. eapply pi_upd; eauto. puser.
  - clear T. cbn [handle] in Hh.
    destruct (negb (st_local_initial (i_state i))); [now injection Hh as <- _|].
    destruct (check_access E i c "IAM:PairingLocalInitial" []) as [[|]|]; [|now injection Hh as <- _|discriminate].
    destruct (negb (cn_local c)); [now injection Hh as <- _|].
    destruct (st_initial_user (i_state i)) as [n|]; [|now injection Hh as <- _].
    destruct (find_user (users i) (Some n)) as [u|] eqn:Hu; [|now injection Hh as <- _].
    destruct (is_user_paired u); [now injection Hh as <- _|].
    match type of Hh with match ?z with _ => _ end = _ => destruct z as [nm|] eqn:Hz end; [|now injection Hh as <- _].
    assert (Hnm : opt_c_string nm).
    { destruct fpname; [injection Hz as <-; exact I|discriminate|]. exact (decode_c _ _ Hr Hz). }
    destruct (cn_fp c) as [f|]; [|now injection Hh as <- _].
    unfold coap_on_user in Hh. rewrite Hu in Hh. injection Hh as <- _.
    apply (pi_upd i n u); auto. now apply add_fp_proper.
  - clear T. cbn [handle] in Hh.
    destruct (negb (st_local_open (i_state i))); [now injection Hh as <- _|].
    destruct (check_access E i c "IAM:PairingLocalOpen" []) as [[|]|]; [|now injection Hh as <- _|discriminate].
    destruct (negb (cn_local c)); [now injection Hh as <- _|].
    destruct (cn_fp c) as [f|]; [|now injection Hh as <- _].
    destruct v as [| |[un fn]]; try (now injection Hh as <- _).
    destruct (decode_string un) as [[n|]|]; try (now injection Hh as <- _).
    destruct (pair_new_client x i (Some n) (Some f) (decode_or_null fn)) as [i1 e] eqn:Hp.
    injection Hh as <- _. eapply pair_c; [exact V|exact Hx|exact Hc|apply decode_null_c; exact Hr|exact Hp].
  - clear T. cbn [handle] in Hh.
    destruct (negb (st_pw_invite (i_state i))); [now injection Hh as <- _|].
    destruct (check_access E i c "IAM:PairingPasswordInvite" []) as [[|]|]; cbn [guard] in Hh; [|now injection Hh as <- _|discriminate].
    destruct (negb (cn_pwauth c)); [now injection Hh as <- _|].
    destruct (cn_pwname c) as [n|]; [|now injection Hh as <- _].
    destruct (find_user (users i) (Some n)) as [u|] eqn:Hu; [|now injection Hh as <- _].
    destruct (cn_fp c) as [f|]; [|now injection Hh as <- _].
    destruct (find_user_fp (users i) (Some f)) as [w|]; [destruct (Nat.eqb (u_id w) (u_id u)); now injection Hh as <- _|].
    cbv zeta in Hh. unfold coap_on_user in Hh. rewrite Hu in Hh. injection Hh as <- _.
    assert (Hnm : opt_c_string match fpname with PlOk v => decode_or_null v | _ => None end).
    { destruct fpname; cbn in *; auto. now apply decode_null_c. }
    apply (pi_upd i n u); auto. intros P. apply (add_fp_proper f _ _ Hc Hnm) in P. revert P. puser. exact I.
  - clear T. cbn [handle] in Hh.
    destruct (negb (st_pw_open (i_state i))); [now injection Hh as <- _|].
    destruct (check_access E i c "IAM:PairingPasswordOpen" []) as [[|]|]; [|now injection Hh as <- _|discriminate].
    destruct (st_pw_open_password (i_state i)); [|now injection Hh as <- _].
    destruct (st_open_role (i_state i)); [|now injection Hh as <- _].
    destruct (negb (cn_pwauth c)); [now injection Hh as <- _|].
    destruct (cn_fp c) as [f|]; [|now injection Hh as <- _].
    destruct v as [| |[[pw un] fn]]; try (now injection Hh as <- _).
    destruct (decode_string pw); [now injection Hh as <- _|].
    destruct (decode_string un) as [[n|]|]; try (now injection Hh as <- _).
    destruct (pair_new_client x i (Some n) (Some f) (decode_or_null fn)) as [i1 e] eqn:Hp.
    injection Hh as <- _. eapply pair_c; [exact V|exact Hx|exact Hc|apply decode_null_c; exact Hr|exact Hp].
  - destruct T as (m & b & _ & _ & _ & -> & _). unfold pi in *. revert V. destruct m; cbn; pstate.
  - destruct T as (s & _ & -> & Hl & -> & _). unfold pi in *. revert V. cbn. pstate.
Qed.

Lemma pi_serve : forall E i x e w i', pi i -> c_op (Serve x e w) ->
  IamStateModel.step E i (x, op_of e) = Some i' -> pi i'.
Proof.
  intros E i x e w i' V Hc H. destruct e as [c r|c a m|ref]; cbn [op_of IamStateModel.step] in H.
  - destruct (coap E x c i r) as [i1 k|] eqn:Ha; [|discriminate]. injection H as <-.
    apply coap_resp in Ha. destruct Ha as (i2 & -> & Ha). cbn in Hc. destruct Hc as (H1 & H2 & H3).
    apply (pi_handle E x c i r i2 k) in Ha; auto.
  - destruct (check_access E i c a m); [|discriminate]. now injection H as <-.
  - now injection H as <-.
Qed.
