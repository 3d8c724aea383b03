(** * The first start and the passwords *)
From Coq Require Import String Ascii List Bool Arith NArith ZArith Lia.
From Verif Require Import JsonModel IamPolicyModel IamStateModel IamStateSpec IamStateProofs IamStateInv IamStateReload IamJsonModel IamJsonSpec IamJsonProofs
  PerModel PerSpec PerProofs PerProofs2 PerProofs3 PerProofs4 PerProofs5 PerProofs6 DefModel DefSpec DefProofs DefProofs2 DefProofs3.
Import ListNotations.
Open Scope string_scope.
Open Scope list_scope.
Open Scope nat_scope.

Lemma new_key : forall L K b d k, d_key d = None -> b_new b = Some k -> complete (b_wk b) k -> b_before b = true -> b_middle b = true ->
  snd (load_tunnel_state L (b_rs b) (b_ws b) (d_state d)) <> No -> snd (load_tunnel_state L (b_rs b) (b_ws b) (d_state d)) <> Lost ->
  file_exists (d_state d) = true ->
  boot L K b d = boot L K b (set_key_file (Some k) d).
Proof.
  intros L K b d k Hk Hn (n & Hw & Hl) B1 B2 H1 H2 He. unfold boot. cbn [d_state set_key_file]. rewrite B1, B2, He. cbn [andb negb].
  destruct (load_tunnel_state L (b_rs b) (b_ws b) (d_state d)) as [fs ph]. cbn [snd] in *. destruct ph as [s| |]; try contradiction.
  cbn [set_state_file set_key_file d_key d_state d_run].
  assert (X : load_key K (b_new b) (b_wk b) (b_rk b) (d_key d) = load_key K (b_new b) (b_wk b) (b_rk b) (Some k)).
  { unfold load_key. rewrite Hk, Hn, Hw. cbn [file_exists write_file]. rewrite take_all by exact Hl. reflexivity. }
  rewrite X. reflexivity.
Qed.

Lemma first_start : forall L K b d z s k, reads_versions L -> made z -> given s -> d_run d = None ->
  d_state d = Some (state_dump (first_state z s)) ->
  (d_key d = Some k \/ (d_key d = None /\ b_new b = Some k /\ complete (b_wk b) k)) -> K (cstr k) <> None ->
  b_conf b = default_conf -> good_start b (set_key_file (Some k) d) ->
  exists p, boot L K b d = (set_run (Some p) (set_key_file (Some k) d), [Started]) /\
    same_state (first_state z s) (i_state (p_iam p)) /\ i_conf (p_iam p) = default_conf.
Proof.
  intros L K b d z s k HR Hz Hg Hr Hd Hk HK Hc Hgood.
  assert (X : boot L K b d = boot L K b (set_key_file (Some k) d)).
  { destruct Hk as [Hk|(Hk & Hn & Hw)].
    - assert (E : set_key_file (Some k) d = d) by (destruct d as [a b' c]; cbn in *; now rewrite Hk). now rewrite E.
    - pose proof Hgood as (B1 & B2 & _ & _ & B5 & _).
      assert (Y : exists st, load_tunnel_state L (b_rs b) (b_ws b) (d_state d) = (d_state d, Go st)).
      { rewrite Hd. cbn [d_state set_key_file] in B5. rewrite Hd in B5. unfold load_tunnel_state. rewrite (reads_dump _ _ B5), (state_load_dump L 0 _ HR (first_proper z s Hz Hg)). cbn [negb].
        destruct s; eexists; reflexivity. }
      destruct Y as [st Y]. apply new_key; auto; try (rewrite Y; discriminate). rewrite Hd. reflexivity. }
  rewrite X.
  destruct (boot_good L K b (set_key_file (Some k) d) (first_state z s) k HR (first_proper z s Hz Hg) (first_friendly z s) (first_valid z s Hz Hg) Hd eq_refl HK Hgood) as (p & B & S & _).
  exists p. split; [exact B|]. split; [exact S|].
  destruct (boot_inv _ _ _ _ _ _ B Hr) as [E|(f & ph & _ & _ & _ & [E|(s' & k' & i1 & i2 & _ & Hlc & Hls & _ & E)])].
  - assert (Y : d_run (set_run (Some p) (set_key_file (Some k) d)) = d_run (set_key_file (Some k) d)) by (now rewrite E). cbn in Y. congruence.
  - discriminate.
  - cbn in E. injection E as ->. cbn. apply load_inv in Hls. destruct Hls as (C & _). unfold load_conf in Hlc. rewrite Hc in Hlc. cbn in Hlc.
    injection Hlc as <-. exact C.
Qed.

(** ** Passwords *)

Lemma get_lt : forall s n, n < String.length s <-> String.get n s <> None.
Proof.
  induction s as [|a s IH]; intros n; split; intros H.
  - cbn in H. lia.
  - exfalso. apply H. destruct n; reflexivity.
  - destruct n as [|n]; [discriminate|]. cbn [String.get]. apply IH. cbn in H. lia.
  - destruct n as [|n]; cbn [String.length]; [lia|]. cbn [String.get] in H. apply IH in H. lia.
Qed.
Lemma alphabet_inj : forall n m c, String.get n password_alphabet = Some c -> String.get m password_alphabet = Some c -> n = m.
Proof.
  assert (X : forall n m, n < 47 -> m < 47 -> String.get n password_alphabet = String.get m password_alphabet -> n = m).
  { assert (B : forallb (fun n => forallb (fun m => (Nat.eqb n m || negb (match String.get n password_alphabet, String.get m password_alphabet with Some a, Some b => Ascii.eqb a b | _, _ => false end))%bool) (seq 0 47)) (seq 0 47) = true) by (vm_compute; reflexivity).
    intros n m Hn Hm E. rewrite forallb_forall in B. assert (I1 : In n (seq 0 47)) by (apply in_seq; lia). apply B in I1. rewrite forallb_forall in I1.
    assert (I2 : In m (seq 0 47)) by (apply in_seq; lia). apply I1 in I2. apply orb_true_iff in I2. destruct I2 as [I2|I2]; [now apply Nat.eqb_eq|].
    rewrite E in I2. destruct (String.get m password_alphabet) as [c|] eqn:G.
    - rewrite Ascii.eqb_refl in I2. discriminate.
    - exfalso. assert (m < String.length password_alphabet) by (exact Hm). apply get_lt in H. congruence. }
  intros n m c H1 H2. apply X; try congruence.
  - change 47 with (String.length password_alphabet). apply get_lt. congruence.
  - change 47 with (String.length password_alphabet). apply get_lt. congruence.
Qed.

Definition usable (b : N) : bool := (b <? 47)%N.
Lemma usable_get : forall b, usable b = true <-> String.get (N.to_nat b) password_alphabet <> None.
Proof.
  intros b. unfold usable. rewrite N.ltb_lt, <- get_lt. change (String.length password_alphabet) with 47. lia.
Qed.

Lemma generate_skips : forall n bs, generate n (map Some (filter usable bs)) = generate n (map Some bs).
Proof.
  intros n bs. revert n. induction bs as [|b bs IH]; intros n; [reflexivity|]. cbn [filter map]. destruct (usable b) eqn:U.
  - cbn [map generate]. destruct n; [reflexivity|]. destruct (String.get (N.to_nat b) password_alphabet); [now rewrite IH|apply IH].
  - rewrite IH. destruct n; [destruct (map Some bs); reflexivity|]. cbn [generate].
    destruct (String.get (N.to_nat b) password_alphabet) eqn:G; [|reflexivity]. exfalso.
    assert (X : usable b = true) by (apply usable_get; congruence). congruence.
Qed.

Lemma generate_inj : forall n a b s, length a = n -> length b = n -> forallb usable a = true -> forallb usable b = true ->
  generate n (map Some a) = Some s -> generate n (map Some b) = Some s -> a = b.
Proof.
  induction n as [|n IH]; intros [|x a] [|y b] s Ha Hb Ua Ub Ga Gb; try discriminate; auto.
  cbn in Ha, Hb, Ua, Ub. apply andb_true_iff in Ua. apply andb_true_iff in Ub. destruct Ua as [Ux Ua], Ub as [Uy Ub].
  cbn [map generate] in Ga, Gb. apply usable_get in Ux. apply usable_get in Uy.
  destruct (String.get (N.to_nat x) password_alphabet) as [c|] eqn:Gx; [|congruence].
  destruct (String.get (N.to_nat y) password_alphabet) as [e|] eqn:Gy; [|congruence].
  destruct (generate n (map Some a)) as [sa|] eqn:Ea; [|discriminate]. destruct (generate n (map Some b)) as [sb|] eqn:Eb; [|discriminate].
  injection Ga as Ga. rewrite <- Ga in Gb. injection Gb as -> ->. f_equal.
  - apply N2Nat.inj. eapply alphabet_inj; eauto.
  - eapply IH with (s := sa); eauto.
Qed.

Lemma in_get : forall s c, In c (list_ascii_of_string s) -> exists n, String.get n s = Some c.
Proof.
  induction s as [|a s IH]; intros c H; [destruct H|]. destruct H as [->|H]; [now exists 0|]. destruct (IH _ H) as [n Hn]. now exists (S n).
Qed.

Lemma generate_onto : forall s, Forall (fun c => In c (list_ascii_of_string password_alphabet)) (list_ascii_of_string s) ->
  exists bs, length bs = String.length s /\ forallb usable bs = true /\ generate (String.length s) (map Some bs) = Some s.
Proof.
  induction s as [|c s IH]; intros H; [exists []; auto|]. inversion H as [|? ? Hc Hs]; subst. destruct (IH Hs) as (bs & A & B & C).
  destruct (in_get _ _ Hc) as [n Hn]. exists (N.of_nat n :: bs). cbn [length String.length forallb map generate]. rewrite Nat2N.id, Hn, C, A, B.
  split; [reflexivity|]. split; [|reflexivity]. rewrite andb_true_r. apply usable_get. rewrite Nat2N.id. congruence.
Qed.

(** ** The owner *)

Lemma one_admin : forall z s i, invites s -> same_state (first_state z s) (i_state i) ->
  st_pw_invite (i_state i) = true /\ exists u, users i = [u] /\ u_name u = "admin" /\ u_fps u = [] /\ u_role u = Some "Administrator" /\ u_password u = z_pw z.
Proof.
  intros z s i Hi [H1 H2].
  assert (X : st_pw_invite (first_state z s) = true /\ st_users (first_state z s) = [admin_user z]).
  { destruct s as [|w|]; [split; reflexivity| |destruct Hi]. cbn in *. rewrite Hi, orb_true_r. split; reflexivity. }
  destruct X as [X1 X2]. rewrite X2 in H2. unfold settings in H1. injection H1 as _ _ _ _ H _ _ _ _. split; [congruence|].
  inversion H2 as [|a u l l' Hu Hl E1 E2]; subst. inversion Hl; subst. exists u. unfold users. split; [congruence|].
  pose proof (Hu FName) as A. pose proof (Hu FFps) as B. pose proof (Hu FRole) as C. pose proof (Hu FPassword) as D. cbn in A, B, C, D.
  injection A as A. injection C as C. injection D as D.
  split; [congruence|]. split; [destruct (u_fps u); [reflexivity|discriminate]|]. split; congruence.
Qed.

Lemma admin_decides : forall L a m, tunnelling a \/ management a \/ pairing a -> decide L default_conf (Some "Administrator") a m = true.
Proof. intros L a m H. apply decide_may. right; right; right. tauto. Qed.

Lemma owner : forall E x i z s c f p, i_conf i = default_conf -> invites s -> same_state (first_state z s) (i_state i) -> as_admin c -> cn_fp c = Some f ->
  exists i', coap E x c i (RqPairPasswordInvite p) = Resp i' 201%N /\ pake_password i' (Some "admin") = None /\
    forall c' a m, cn_fp c' = Some f -> tunnelling a \/ management a \/ pairing a -> check_access E i' c' a m = Some true.
Proof.
  intros E x i z s c f p Hc Hv0 Hs [Hp Hn] Hf. destruct (one_admin z s i Hv0 Hs) as (Hv & u & Hu & N1 & N2 & N3 & _).
  assert (FF : find_user_fp (users i) (Some f) = None).
  { rewrite Hu. unfold find_user_fp. cbn [find]. unfold has_fp. rewrite N2. reflexivity. }
  assert (FN : find_user (users i) (Some "admin") = Some u).
  { rewrite Hu. unfold find_user. cbn [find]. rewrite N1. reflexivity. }
  assert (A : check_access E i c "IAM:PairingPasswordInvite" [] = Some true).
  { unfold check_access. rewrite Hf. unfold resolve_user. rewrite Hf, FF, Hp, Hn, FN, Hc, N3. reflexivity. }
  unfold coap. cbn [handle]. rewrite Hv. cbn [negb]. unfold guard. rewrite A, Hp, Hn, FN, Hf, FF. cbn [negb]. unfold coap_on_user. rewrite FN.
  eexists. split; [reflexivity|].
  assert (SU : forall j, users (do_callbacks j) = users j) by (intros j; unfold do_callbacks; destruct (i_changed j); reflexivity).
  assert (SC : forall j, i_conf (do_callbacks j) = i_conf j) by (intros j; unfold do_callbacks; destruct (i_changed j); reflexivity).
  match goal with |- context [do_callbacks ?j] => set (j0 := j) end.
  assert (UJ : exists v, users j0 = [v] /\ u_name v = "admin" /\ u_password v = None /\ u_role v = Some "Administrator" /\ exists q, u_fps v = [q] /\ fp_val q = f).
  { subst j0. cbn. rewrite Hu. cbn [update_user]. rewrite N1. cbn [String.eqb Ascii.eqb Bool.eqb]. eexists. split; [reflexivity|]. cbn. rewrite N2, N1, N3.
    split; [reflexivity|]. split; [reflexivity|]. split; [reflexivity|]. eexists. split; reflexivity. }
  destruct UJ as (v & V1 & V2 & V3 & V4 & q & V5 & V6).
  split.
  - unfold pake_password. rewrite SU, V1. unfold find_user. cbn [find]. rewrite V2. cbn. exact V3.
  - intros c' a m Hc' Ha. unfold check_access. rewrite Hc'. unfold resolve_user. rewrite SU, SC, V1, Hc'. unfold find_user_fp. cbn [find]. unfold has_fp. rewrite V5.
    cbn [existsb]. rewrite V6, String.eqb_refl. cbn [orb]. rewrite V4.
    assert (CJ : i_conf j0 = default_conf) by (subst j0; exact Hc). rewrite CJ. f_equal. now apply admin_decides.
Qed.

Lemma modes : forall E x i z w c r i' code, same_state (first_state z (SCustom w)) (i_state i) ->
  coap E x c i r = Resp i' code -> i_state i' <> i_state i -> switched_on w r.
Proof.
  intros E x i z w c r i' code [Hs _] H Hne. unfold coap in H. destruct (handle E x c i r) as [j k|] eqn:Hh; [|discriminate]. injection H as <- <-.
  assert (CB : i_state (do_callbacks j) = i_state j) by (unfold do_callbacks; destruct (i_changed j); reflexivity).
  rewrite CB in Hne. destruct (handle_inv Hh) as [[[-> | ->] _]|[_ Ht]]; [now destruct Hne|now destruct Hne|].
  unfold settings in Hs. injection Hs as _ _ S1 S2 S3 S4 _ _ _. destruct r; cbn [trans switched_on] in *; auto.
  - destruct Ht as (n & u & f & nm & Ht & _). congruence.
  - destruct Ht as (Ht & _). congruence.
  - destruct Ht as (n & u & f & nm & Ht & _). congruence.
  - destruct Ht as (Ht & _). congruence.
Qed.
