(** * C99: what the setups of the TCP tunnel device give to whom *)
From Coq Require Import String Ascii List Bool Arith NArith ZArith Lia.
From Verif Require Import JsonModel IamPolicyModel IamPolicyProofs IamStateModel IamStateSpec IamStateProofs IamStateInv IamStateReload IamStateProps
  IamJsonModel IamJsonSpec IamJsonProofs IamJsonProps
  PerModel PerSpec PerProofs PerProofs4 PerProofs5 PerProofs6 PerProps DefModel DefSpec DefProofs DefProofs2 DefProofs3 DefProofs4 DefProofs5.
Import ListNotations.
Open Scope string_scope.
Open Scope list_scope.
Open Scope nat_scope.

(** ** Roles *)

(** With the configuration of the setups a request is allowed exactly when the
    role of its sender may do it: unpaired clients may pair, guests manage their
    own user too, standard users tunnel too, and administrators pair, tunnel and
    manage users and pairing modes. *)
Theorem C99_matrix : forall E i c a m b, i_conf i = default_conf -> no_reserved m -> check_access E i c a m = Some b ->
  (cn_fp c = None /\ cn_virtual c = false /\ b = false) \/
  ((cn_fp c <> None \/ cn_virtual c = true) /\
   exists who, identity i c who /\ (b = true <-> may (about_self who m) (role_name i who) a)).
Proof. exact access_may. Qed.
Print Assumptions C99_matrix.

(** Each role may do what the lower ones may, with any attributes. *)
Theorem C99_roles_ordered : forall L n k a m, n <= k -> k <= 3 ->
  decide L default_conf (Some (role_of n)) a m = true -> decide L default_conf (Some (role_of k)) a m = true.
Proof.
  intros L n k a m Hn Hk H. rewrite decide_may in *.
  assert (X : own_user (self m) a -> management a).
  { intros [[<-|[<-|[]]]|[[<-|[<-|[<-|[]]]] _]]; cbn; tauto. }
  revert H X. unfold may. generalize (pairing a), (own_user (self m) a), (tunnelling a), (management a). intros P O T M H X.
  destruct k as [|[|[|[|k]]]]; [| | | |lia]; (destruct n as [|[|[|[|n]]]]; [| | | |lia]); try lia; cbn in H |- *;
    destruct H as [[E H]|[[E H]|[[E H]|[E H]]]]; try discriminate E; tauto.
Qed.
Print Assumptions C99_roles_ordered.

Definition fp_c : string := "cccccccccccccccccccccccccccccccccccccccccccccccccccccccccccccccc".
Definition user_r (n r f : string) : user :=
  {| u_id := 0; u_name := n; u_display := None; u_fps := [{| fp_val := f; fp_name := None |}]; u_password := None; u_role := Some r;
     u_sct := None; u_fcm_token := None; u_fcm_project := None; u_cats := []; u_oauth := None |}.
Definition three : iam := set_conf default_conf (set_users [user_r "anna" "Administrator" fp_a; user_r "bob" "Guest" fp_b; user_r "carl" "Standard" fp_c] iam_init).
Definition by_fp (f : string) : conn := {| cn_ref := 3; cn_virtual := false; cn_fp := Some f; cn_local := false; cn_pwauth := false; cn_pwname := None |}.
Definition asks (f a : string) (m : attrs) : option bool := check_access ex_env three (by_fp f) a m.
Example C99_ex_matrix :
  asks fp_a "TcpTunnel:Connect" [("TcpTunnel:ServiceId", "ssh")] = Some true /\
  asks fp_c "TcpTunnel:Connect" [("TcpTunnel:ServiceId", "ssh")] = Some true /\
  asks fp_b "TcpTunnel:Connect" [("TcpTunnel:ServiceId", "ssh")] = Some false /\
  asks fp_b "IAM:GetUser" [("IAM:Username", "bob")] = Some true /\
  asks fp_b "IAM:GetUser" [("IAM:Username", "anna")] = Some false /\
  asks fp_a "IAM:GetUser" [("IAM:Username", "bob")] = Some true /\
  asks "stranger" "IAM:ListUsers" [] = Some false /\ asks "stranger" "IAM:PairingLocalOpen" [] = Some true.
Proof. repeat (split; [vm_compute; reflexivity|]). vm_compute. reflexivity. Qed.

(** ** Changes *)

(** Whoever is not an administrator changes the state only by pairing, or the
    display name of their own user, or by deleting their own user. *)
Theorem C99_changes : forall E x c i r i' code, i_conf i = default_conf -> coap E x c i r = Resp i' code -> i_state i' <> i_state i ->
  exists who, identity i c who /\
    (role_name i who = Some "Administrator" \/
     (exists p, r = RqPairLocalInitial p) \/ (exists p, r = RqPairLocalOpen p) \/ (exists p, r = RqPairPasswordInvite p) \/
     (exists p, r = RqPairPasswordOpen p) \/
     exists u, who = Some u /\ (r = RqDeleteUser (u_name u) \/ exists p, r = RqSetDisplay (u_name u) p)).
Proof. exact changes. Qed.
Print Assumptions C99_changes.

(** Nobody, the administrators included, changes fingerprints, usernames, push
    tokens, server connect tokens, OAuth subjects or notification categories. *)
Theorem C99_given_to_nobody : forall E x c i r i' code, i_conf i = default_conf -> coap E x c i r = Resp i' code ->
  (exists n f p, r = RqAddFp n f p) \/ (exists n f, r = RqDeleteFp n f) \/ (exists n p, r = RqSetName n p) \/ (exists n p, r = RqSetFp n p) \/
  (exists n p, r = RqSetFcm n p) \/ (exists n p, r = RqSetSct n p) \/ (exists n p, r = RqSetOauth n p) \/ (exists n p, r = RqSetCats n p) ->
  i_state i' = i_state i.
Proof. exact nobody. Qed.
Print Assumptions C99_given_to_nobody.

Example C99_ex_changes : exists i', coap ex_env ex_x (by_fp fp_a) three (RqSetRole "bob" (PlOk (CbStr "Standard"))) = Resp i' 204%N /\
  map u_role (users i') = [Some "Administrator"; Some "Standard"; Some "Standard"] /\
  (exists i2, coap ex_env ex_x (by_fp fp_b) three (RqSetRole "bob" (PlOk (CbStr "Standard"))) = Resp i2 403%N /\ i_state i2 = i_state three) /\
  (exists i3, coap ex_env ex_x (by_fp fp_b) three (RqDeleteUser "bob") = Resp i3 202%N /\ map u_name (users i3) = ["anna"; "carl"]) /\
  (exists i4, coap ex_env ex_x (by_fp fp_a) three (RqSetName "bob" (PlOk (CbStr "rob"))) = Resp i4 403%N).
Proof.
  eexists. split; [vm_compute; reflexivity|]. split; [vm_compute; reflexivity|].
  split; [eexists; split; vm_compute; reflexivity|]. split; [eexists; split; vm_compute; reflexivity|].
  eexists. vm_compute. reflexivity.
Qed.

(** ** Nobody gets more than the setup gives *)

(** A device with the default setup, or one which gives at most the role "Guest"
    to those who pair: whatever requests come on connections which do not know the
    password of the administrator and do not pair locally as the first user, over
    any starts, stops and power losses, no such connection may open a tunnel, see
    the services or manage others: it pairs, lists users and roles, and manages
    its own user. *)
Theorem C99_no_escalation : forall L K E z s d0 ops d os p c a m, strtod_sane L -> reads_versions L ->
  made z -> given s -> careful s -> set_up (first_state z s) d0 ->
  c_ops ops -> Forall (default_boot L) ops -> Forall stranger ops ->
  run L K E d0 ops = Some (d, os) -> d_run d = Some p -> no_reserved m -> ~ as_admin c ->
  check_access E (p_iam p) c a m = Some true ->
  exists who, identity (p_iam p) c who /\ (pairing a \/ own_user (about_self who m) a).
Proof.
  intros L K E z s d0 ops d os p c a m HL HR Hz Hg Hs Hd Hc Hb Hst Hr Hp Hm Hn H.
  destruct (history_safe L K E (first_state z s) d0 ops d os HL HR (first_proper z s Hz Hg) (first_weak z s Hs) Hd Hc Hb Hst Hr) as [A _].
  destruct (A p Hp) as (S1 & S2 & S3). eapply weak_access; eauto.
Qed.
Print Assumptions C99_no_escalation.

(** In particular no tunnels. *)
Theorem C99_no_tunnels : forall L K E z s d0 ops d os p c a m b, strtod_sane L -> reads_versions L ->
  made z -> given s -> careful s -> set_up (first_state z s) d0 ->
  c_ops ops -> Forall (default_boot L) ops -> Forall stranger ops ->
  run L K E d0 ops = Some (d, os) -> d_run d = Some p -> no_reserved m -> ~ as_admin c -> tunnelling a ->
  check_access E (p_iam p) c a m = Some b -> b = false.
Proof.
  intros L K E z s d0 ops d os p c a m b HL HR Hz Hg Hs Hd Hc Hb Hst Hr Hp Hm Hn Ht H. destruct b; [|reflexivity]. exfalso.
  destruct (C99_no_escalation L K E z s d0 ops d os p c a m HL HR Hz Hg Hs Hd Hc Hb Hst Hr Hp Hm Hn H) as (who & _ & X).
  apply not_low in X. unfold tunnelling in Ht. cbn in Ht, X.
  destruct Ht as [<-|[<-|[<-|[]]]]; repeat (destruct X as [X|X]; [discriminate X|]); exact X.
Qed.
Print Assumptions C99_no_tunnels.

Definition pw12 : string := "abcdefghijkm".
Definition twelve : list (option N) := map Some [0; 1; 2; 3; 200; 4; 5; 6; 7; 8; 9; 10; 11]%N.
Example pw12_drawn : random_password true twelve = Some pw12.
Proof. vm_compute. reflexivity. Qed.
Definition ex_z : secrets := {| z_pw := Some pw12; z_sct := Some pw12; z_open_pw := Some pw12; z_open_sct := Some pw12 |}.
Example ex_made : made ex_z.
Proof. repeat split; (exists true, twelve; symmetry; exact pw12_drawn). Qed.
Definition ex_w : answers := {| w_local_initial := false; w_local_open := true; w_pw_invite := true; w_pw_open := false; w_role := 1; w_name := "box" |}.
Definition start_default : boot_in :=
  {| b_before := true; b_conf := default_conf; b_rs := all_of; b_ws := fine; b_middle := true; b_new := Some "key"; b_wk := fine;
     b_rk := all_of; b_ext := ex_x; b_after := true |}.
Definition just_set_up (s : DefModel.setup) : dev := {| d_state := Some (state_dump (first_state ex_z s)); d_key := None; d_run := None |}.
Definition eve_pairs : op := Serve ex_x (Request conn_a (RqPairLocalOpen (PlOk (CbStr "eve", CbNull)))) fine.

(** Somebody near the device pairs as a guest and does not get tunnels, before or
    after a restart. *)
Example C99_ex_stranger : exists d p,
  set_up (first_state ex_z (SCustom ex_w)) (just_set_up (SCustom ex_w)) /\ careful (SCustom ex_w) /\ given (SCustom ex_w) /\
  c_ops [Boot start_default; eve_pairs; Stop; Boot start_default] /\
  Forall (default_boot ex_strtod) [Boot start_default; eve_pairs; Stop; Boot start_default] /\
  Forall stranger [Boot start_default; eve_pairs; Stop; Boot start_default] /\
  run ex_strtod ex_keys ex_env (just_set_up (SCustom ex_w)) [Boot start_default; eve_pairs; Stop; Boot start_default] = Some (d, [Started; Answered 201%N; Started]) /\
  d_run d = Some p /\ ~ as_admin conn_a /\
  map (fun u => (u_name u, u_role u)) (users (p_iam p)) = [("admin", Some "Administrator"); ("eve", Some "Guest")] /\
  check_access ex_env (p_iam p) conn_a "IAM:ListUsers" [] = Some true /\
  check_access ex_env (p_iam p) conn_a "TcpTunnel:Connect" [("TcpTunnel:ServiceId", "ssh")] = Some false.
Proof.
  do 2 eexists. split; [split; [reflexivity|]; eexists; split; [reflexivity|apply begins_refl]|].
  split; [cbn; lia|]. split; [split; [cbn; lia|]; split; [cs|vm_compute; discriminate]|].
  assert (DB : default_boot ex_strtod (Boot start_default)).
  { exists (conf_dump default_conf). split; [apply begins_refl|]. exact (C13_conf_round_trip ex_strtod default_conf ex_strtod_ok default_proper). }
  assert (NA : ~ as_admin conn_a) by (intros [X _]; discriminate X).
  split. { repeat constructor; cbn; auto; try (vm_compute; cs). }
  split. { repeat (apply Forall_cons; [first [exact DB|exact I]|]). constructor. }
  split. { repeat (apply Forall_cons; [first [exact I|split; [exact NA|intros [_ [q Hq]]; discriminate Hq]]|]). constructor. }
  split; [vm_compute; reflexivity|]. split; [reflexivity|]. split; [exact NA|].
  split; [vm_compute; reflexivity|]. split; vm_compute; reflexivity.
Qed.

(** The demo setup is the other way round: everybody near it becomes an
    administrator. *)
Example C99_ex_demo : exists d p, run ex_strtod ex_keys ex_env (just_set_up SDemo) [Boot start_default; eve_pairs] = Some (d, [Started; Answered 201%N]) /\
  d_run d = Some p /\ check_access ex_env (p_iam p) conn_a "TcpTunnel:Connect" [("TcpTunnel:ServiceId", "ssh")] = Some true.
Proof. do 2 eexists. split; [vm_compute; reflexivity|]. split; [reflexivity|]. vm_compute. reflexivity. Qed.

(** ** The first start *)

(** Every setup, once its files are written, gives a device which starts, with
    exactly the users and settings of the setup, whether it has a private key
    already or makes it now. *)
Theorem C99_first_start : forall L K E b d z s k, reads_versions L -> made z -> given s -> d_run d = None ->
  d_state d = Some (state_dump (first_state z s)) ->
  (d_key d = Some k \/ (d_key d = None /\ b_new b = Some k /\ complete (b_wk b) k)) -> K (cstr k) <> None ->
  b_conf b = default_conf -> good_start b (set_key_file (Some k) d) ->
  exists p, step L K E d (Boot b) = Some (set_run (Some p) (set_key_file (Some k) d), [Started]) /\
    same_state (first_state z s) (i_state (p_iam p)) /\ i_conf (p_iam p) = default_conf.
Proof.
  intros L K E b d z s k HR Hz Hg Hr Hd Hk HK Hc Hgood.
  destruct (first_start L K b d z s k HR Hz Hg Hr Hd Hk HK Hc Hgood) as (p & H & A). exists p. split; [|exact A].
  cbn [step]. now rewrite Hr, H.
Qed.
Print Assumptions C99_first_start.

Example C99_ex_first : made ex_z /\ given SDefault /\ d_run (just_set_up SDefault) = None /\ d_key (just_set_up SDefault) = None /\
  complete (b_wk start_default) "key" /\ ex_keys (cstr "key") <> None /\ good_start start_default (set_key_file (Some "key") (just_set_up SDefault)).
Proof.
  split; [exact ex_made|]. split; [exact I|]. split; [reflexivity|]. split; [reflexivity|].
  split; [exists 2000; split; [reflexivity|]; apply Nat.leb_le; vm_compute; reflexivity|]. split; [discriminate|].
  split; [reflexivity|]. split; [reflexivity|]. split; [reflexivity|]. split; [split; reflexivity|].
  split; [|split; [|reflexivity]]; (split; [reflexivity|]; split; [reflexivity|]; split; [reflexivity|]);
    intros t Ht; injection Ht as <-; apply Nat.leb_le; vm_compute; reflexivity.
Qed.

(** The owner, who knows the password the setup made, pairs with it and then may
    tunnel and manage the device; the password does not work a second time. *)
Theorem C99_owner : forall E x i z s c f p, i_conf i = default_conf -> invites s -> same_state (first_state z s) (i_state i) -> as_admin c -> cn_fp c = Some f ->
  pake_password i (Some "admin") = z_pw z /\
  exists i', coap E x c i (RqPairPasswordInvite p) = Resp i' 201%N /\ pake_password i' (Some "admin") = None /\
    forall c' a m, cn_fp c' = Some f -> tunnelling a \/ management a \/ pairing a -> check_access E i' c' a m = Some true.
Proof.
  intros E x i z s c f p Hc Hv Hs Ha Hf. split; [|exact (owner E x i z s c f p Hc Hv Hs Ha Hf)].
  destruct (one_admin z s i Hv Hs) as (_ & u & Hu & N1 & _ & _ & N4). unfold pake_password. cbn [String.eqb].
  rewrite Hu. unfold find_user. cbn [find]. rewrite N1. cbn. exact N4.
Qed.
Print Assumptions C99_owner.

Definition owner_conn : conn := {| cn_ref := 8; cn_virtual := false; cn_fp := Some fp_b; cn_local := false; cn_pwauth := true; cn_pwname := Some "admin" |}.
Example C99_ex_owner : exists d p, run ex_strtod ex_keys ex_env (just_set_up SDefault) [Boot start_default] = Some (d, [Started]) /\ d_run d = Some p /\
  i_conf (p_iam p) = default_conf /\ same_state (first_state ex_z SDefault) (i_state (p_iam p)) /\ as_admin owner_conn /\ pake_password (p_iam p) (Some "admin") = Some pw12.
Proof.
  do 2 eexists. split; [vm_compute; reflexivity|]. split; [reflexivity|]. split; [reflexivity|].
  split; [split; [reflexivity|]; constructor; [intros []; reflexivity|constructor]|]. split; [split; reflexivity|]. vm_compute. reflexivity.
Qed.

(** Just set up, the device lets nobody pair in a way which was not switched on. *)
Theorem C99_modes : forall E x i z w c r i' code, same_state (first_state z (SCustom w)) (i_state i) ->
  coap E x c i r = Resp i' code -> i_state i' <> i_state i -> switched_on w r.
Proof. exact modes. Qed.
Print Assumptions C99_modes.

Example C99_ex_modes : let i := set_conf default_conf (IamStateModel.set_state (first_state ex_z (SCustom ex_w)) iam_init) in
  (exists i', coap ex_env ex_x conn_a i (RqPairLocalOpen (PlOk (CbStr "eve", CbNull))) = Resp i' 201%N) /\
  (exists i', coap ex_env ex_x conn_a i (RqPairLocalInitial (PlOk CbNull)) = Resp i' 404%N).
Proof. split; eexists; vm_compute; reflexivity. Qed.

(** When no password can be made the setup does not say so: the device starts
    and nobody can ever log in as its administrator. *)
Theorem C99_owner_refuted : exists L K E z d p, strtod_sane L /\ reads_versions L /\ made z /\
  run L K E {| d_state := Some (state_dump (first_state z SDefault)); d_key := None; d_run := None |} [Boot start_default] = Some (d, [Started]) /\
  d_run d = Some p /\ forall n, pake_password (p_iam p) n = None.
Proof.
  exists ex_strtod, ex_keys, ex_env, {| z_pw := None; z_sct := Some pw12; z_open_pw := None; z_open_sct := Some pw12 |}. do 2 eexists.
  split; [exact ex_sane|]. split; [exact ex_strtod_ok|].
  split. { repeat split; first [exists true, twelve; symmetry; exact pw12_drawn|exists true, []; reflexivity]. }
  split; [vm_compute; reflexivity|]. split; [reflexivity|].
  intros [n|]; [|reflexivity]. unfold pake_password. destruct (String.eqb n ""); [reflexivity|].
  unfold find_user, users. cbn [p_iam i_state st_users find u_name]. destruct (String.eqb "admin" n); reflexivity.
Qed.
Print Assumptions C99_owner_refuted.

(** ** Passwords *)

(** A password has the length asked for and only characters which are not easily
    mistaken for each other. *)
Theorem C99_password : forall n bytes s, generate n bytes = Some s ->
  String.length s = n /\ Forall (fun c => In c (list_ascii_of_string password_alphabet)) (list_ascii_of_string s) /\
  (forall c, In c (list_ascii_of_string "B8G6I1l0OQDS5Z2") -> ~ In c (list_ascii_of_string s)).
Proof.
  intros n bytes s H. apply generate_spec in H. destruct H as [A B]. split; [exact A|]. split; [exact B|].
  intros c Hc Hs. rewrite Forall_forall in B. apply B in Hs. cbn in Hc. repeat (destruct Hc as [<-|Hc]; [vm_compute in Hs; intuition discriminate|]). destruct Hc.
Qed.
Print Assumptions C99_password.

(** No password is likelier than another: bytes which stand for no character are
    left out, and of the others each sequence of the right length gives another
    password and every password over the 47 characters is given by one. *)
Theorem C99_password_fair : forall n,
  (forall bs, generate n (map Some (filter (fun b => (b <? 47)%N) bs)) = generate n (map Some bs)) /\
  (forall a b s, length a = n -> length b = n -> Forall (fun b => (b < 47)%N) a -> Forall (fun b => (b < 47)%N) b ->
     generate n (map Some a) = Some s -> generate n (map Some b) = Some s -> a = b) /\
  (forall s, String.length s = n -> Forall (fun c => In c (list_ascii_of_string password_alphabet)) (list_ascii_of_string s) ->
     exists bs, length bs = n /\ Forall (fun b => (b < 47)%N) bs /\ generate n (map Some bs) = Some s) /\
  String.length password_alphabet = 47 /\ NoDup (list_ascii_of_string password_alphabet).
Proof.
  assert (X : forall l, Forall (fun b => (b < 47)%N) l <-> forallb usable l = true).
  { intros l. rewrite forallb_forall, Forall_forall. unfold usable. split; intros H y Hy; apply H in Hy; now apply N.ltb_lt. }
  intros n. split; [|split; [|split; [|split]]].
  - intros bs. apply generate_skips.
  - intros a b s Ha Hb Fa Fb. apply X in Fa. apply X in Fb. now apply generate_inj.
  - intros s <- Hs. destruct (generate_onto s Hs) as (bs & A & B & C). exists bs. split; [exact A|]. split; [now apply X|exact C].
  - reflexivity.
  - vm_compute. repeat constructor; cbn; intuition discriminate.
Qed.
Print Assumptions C99_password_fair.

Example C99_ex_password : generate 12 twelve = Some pw12 /\ generate 3 (map Some [46; 255; 0]%N) = None /\
  generate 2 [Some 46; None; Some 3]%N = None /\ generate 2 [Some 46; Some 99; Some 25]%N = Some "9A".
Proof. repeat (split; [vm_compute; reflexivity|]). vm_compute. reflexivity. Qed.
