(** Properties of virtual CoAP requests (C52, C90). *)
From Coq Require Import List Bool Arith Lia Ascii String.
From Verif Require Import VcoModel VcoSpec VcoProofs VcoHist VcoApi VcoCore VcoInv VcoStep VcoSafe.
Import ListNotations.
Local Open Scope list_scope.

Lemma alive_of l s o : run init l = (s, o) -> Fine o -> dead s = false.
Proof. intros R F. destruct (dead s) eqn:D; [|reflexivity]. destruct (F (proj2 (crash_dead _ _ _ R) D)). Qed.
(** Calls on a request which was not handed over are undefined. *)
Lemma only_handed l s o : run init l = (s, o) -> dead s = false -> Single l -> forall k v, In v l -> about k v = true -> handedb k o = true.
Proof.
  revert l s o. apply (fine_ind (fun l s o => Single l -> forall k v, In v l -> about k v = true -> handedb k o = true)); [intros _ k v []|].
  intros l v s o s' o' R D I ST _ H SG k x X AB. rewrite handedb_app. apply in_app_or in X. destruct X as [X|[<- | []]].
  - rewrite (I (single_prefix _ _ SG) _ _ X AB). reflexivity.
  - pose proof (core_inv _ _ _ R D (single_prefix _ _ SG)) as CI. assert (Y : exists c, nth_error (cores s) k = Some c /\ sfreed c = false).
    { destruct v as [| | | | | | | |j ?|j ? ?|j ?|j|j ? ? ?|j|]; try discriminate; cbn [about] in AB; apply Nat.eqb_eq in AB; subst j; cbn [Does] in H; destruct H as (c0 & E & _ & Sf & _); exists c0; auto. }
    destruct Y as (c & E & Sf). rewrite (P_sf _ _ _ _ _ _ (C_core _ _ _ CI _ _ E)) in Sf. destruct (handedb k o); [reflexivity|]. now rewrite orb_true_r in Sf.
Qed.
Lemma no_about k l b p : (forall v, In v l -> about k v = false) -> code_of k b l = b /\ rpayload_of k p l = p /\ rformat_of k l = 0.
Proof.
  induction l as [|v l IH] using rev_ind; intros H; [repeat split; reflexivity|]. rewrite code_snoc, rpayload_snoc, rformat_snoc.
  destruct IH as (-> & -> & ->); [intros x X; apply H, in_or_app; now left|]. assert (X : about k v = false) by (apply H, in_or_app; right; now left).
  destruct v as [| | | | | | | |j ?|j ? ?|j ?|j|j ? [] ?|j|]; cbn [about] in X; rewrite ?X; repeat split; reflexivity.
Qed.

(** * C52 *)
(** In every history the future of a request is resolved for it at most once, and the request is freed at most once. *)
Theorem C52_once : forall l k, resolutions k (snd (run init l)) <= 1 /\ releases k (snd (run init l)) <= 1.
Proof.
  intros l k. destruct (counts l k) as [-> ->]. unfold R, G. destruct (nth_error _ k) as [c|]; [destruct (resolved c), (gone c)|]; cbn; lia.
Qed.
Print Assumptions C52_once.
(** It is freed exactly when the client has freed it and the device side has too (or never got it). *)
Theorem C52_release : forall l s o n k, run init l = (s, o) -> Fine o -> Single l -> In (Executed n k) o ->
  (In (Freed k) o <-> In (Free n) l /\ (In (RFree k) l \/ ~ Handed_to k o)).
Proof.
  intros l s o n k R F SG X. pose proof (alive_of _ _ _ R F) as D. pose proof (api_inv _ _ _ R D) as A. pose proof (core_inv _ _ _ R D SG) as I.
  apply (C_exec _ _ _ I) in X. destruct X as (c & E & W). destruct (counts l k) as [_ CG]. rewrite R in CG. cbn [fst snd] in CG. unfold G in CG. rewrite E in CG.
  assert (FG : In (Freed k) o <-> gone c = true).
  { unfold releases, count in CG. split.
    - intros Y. destruct (gone c); [reflexivity|]. apply length_zero_iff_nil in CG. assert (Z : In (Freed k) []); [|destruct Z]. rewrite <- CG. apply filter_In. split; [exact Y|apply Nat.eqb_refl].
    - intros Y. rewrite Y in CG. destruct (filter _ o) as [|x q] eqn:FL; [discriminate|]. assert (Z : In x (x :: q)) by now left. rewrite <- FL in Z. apply filter_In in Z. destruct Z as [Z1 Z2]. destruct x; try discriminate. apply Nat.eqb_eq in Z2. now subst. }
  rewrite FG. destruct (C_core _ _ _ I _ _ E) as [(a & f & Q1 & _ & _ & Q4 & _) P2 P3 _ _ _ _ _ _ _ _]. rewrite W in Q1. destruct (A_api _ _ _ A _ _ Q1) as (L & _).
  rewrite P3, Q4, L, P2, negb_involutive, andb_true_iff, orb_true_iff, freedb_in, rfreedb_in, negb_true_iff. rewrite <- (not_true_iff_false (handedb k o)), handedb_in. tauto.
Qed.
Print Assumptions C52_release.
(** A request which is answered, which nothing is found for, or whose connection is freed while the client has it, is resolved. Missing: a request which the device side frees without an answer. *)
Theorem C52_resolved_partial : forall l s o n k, run init l = (s, o) -> Fine o -> Single l -> In (Executed n k) o ->
  Answered k l \/ ~ Handed_to k o \/ (In ConnFree l /\ ~ In (Free n) l) -> resolutions k o = 1.
Proof.
  intros l s o n k R F SG X H. pose proof (alive_of _ _ _ R F) as D. pose proof (api_inv _ _ _ R D) as A. pose proof (core_inv _ _ _ R D SG) as I.
  apply (C_exec _ _ _ I) in X. destruct X as (c & E & W). destruct (counts l k) as [CR _]. rewrite R in CR. cbn [fst snd] in CR. unfold VcoProofs.R in CR. rewrite E in CR. rewrite CR.
  destruct (C_core _ _ _ I _ _ E) as [(a & f & Q1 & _ & _ & Q4 & _) P2 P3 P4 P5 P6 _ _ _ _ _]. destruct (resolved c) eqn:Er; [reflexivity|]. exfalso.
  destruct H as [H | [H | [H1 H2]]].
  - apply answeredb_in in H. rewrite H in P6. discriminate (P6 eq_refl).
  - rewrite <- handedb_in, not_true_iff_false in H. rewrite H, orb_true_r in P6. discriminate (P6 eq_refl).
  - apply closedb_in in H1. pose proof (A_conn _ _ _ A) as Y. rewrite H1 in Y. specialize (P5 Y). apply orb_true_iff in P5. destruct P5 as [P5|P5]; [destruct (P4 P5); discriminate|].
    rewrite P3, Q4 in P5. apply andb_true_iff in P5. destruct P5 as [P5 _]. rewrite W in Q1. destruct (A_api _ _ _ A _ _ Q1) as (L & _). rewrite L, negb_involutive in P5. apply freedb_in in P5. tauto.
Qed.
Print Assumptions C52_resolved_partial.
(** What is resolved is the future given to execute, with success for an answer and STOPPED for a freed connection. *)
Theorem C52_meaning : forall l s o k f e, run init l = (s, o) -> Fine o -> Single l -> In (Resolved k f e) o ->
  exists n al found, In (Executed n k) o /\ In (Execute n f al found) l /\ (e = Ok /\ (Answered k l \/ ~ Handed_to k o) \/ e = Stopped /\ In ConnFree l).
Proof.
  intros l s o k f e R F SG X. pose proof (alive_of _ _ _ R F) as D. pose proof (core_inv _ _ _ R D SG) as I.
  destruct (C_res _ _ _ I _ _ _ X) as (c & a & E & Ea & Ef & H). destruct (C_api _ _ _ I _ _ Ea) as (_ & _ & J3 & _). destruct (J3 _ Ef) as (al & fd & Y). exists (who c), al, fd.
  split; [apply (C_exec _ _ _ I); eauto|]. split; [exact Y|]. destruct H as [[-> H] | [-> H]]; [left; split; [reflexivity|]|right; split; [reflexivity|now apply closedb_in]].
  apply orb_true_iff in H. destruct H as [H|H]; [left; now apply answeredb_in|right]. rewrite <- handedb_in. apply negb_true_iff in H. congruence.
Qed.
Print Assumptions C52_meaning.
(** An application which keeps a request until it is resolved, and is careful otherwise, meets nothing undefined. Missing: applications which free earlier. *)
Theorem C52_careful_partial : forall l, Careful l -> Fine (snd (run init l)).
Proof. intros l C X. destruct (run init l) as [s o] eqn:R. apply (crash_dead _ _ _ R) in X. rewrite (F_dead _ _ _ (safe _ C _ _ R)) in X. discriminate. Qed.
Print Assumptions C52_careful_partial.

Definition slash_a : list ascii := ["/"; "a"]%char.
(** Deciding Careful for examples. *)
Lemma careful_app l v o : Careful l -> snd (run init l) = o -> Allowed l o v -> Careful (l ++ [v]).
Proof. intros H <- A. now constructor. Qed.
Lemma careful_inv l v : Careful (l ++ [v]) -> Careful l /\ Allowed l (snd (run init l)) v.
Proof.
  intros C. remember (l ++ [v]) as x eqn:E. destruct C as [|l1 v1 C1 A1]; [destruct l; discriminate|]. apply app_inj_tail in E. destruct E as [-> ->]. auto.
Qed.
Ltac no := let H := fresh in intros H; cbn in H; repeat (destruct H as [H|H]; [discriminate|]); destruct H.
Lemma careful1 : Careful [New slash_a true; Execute 0 7 true true].
Proof.
  change [New slash_a true; Execute 0 7 true true] with (([] ++ [New slash_a true]) ++ [Execute 0 7 true true]).
  eapply careful_app; [eapply careful_app; [apply Careful_nil|vm_compute; reflexivity|]|vm_compute; reflexivity|].
  - split; [discriminate|intros []].
  - split; [split; [now left|no]|intros []].
Qed.
Lemma careful2 : Careful [New slash_a true; Execute 0 7 true true; RFree 0].
Proof.
  change [New slash_a true; Execute 0 7 true true; RFree 0] with ([New slash_a true; Execute 0 7 true true] ++ [RFree 0]).
  eapply careful_app; [apply careful1|vm_compute; reflexivity|]. split; [|no]. do 3 eexists. cbn. right. right. left. reflexivity.
Qed.
(** A request which the device side frees without an answer (which the header allows, and promises the error 500 for) is never resolved, whatever a careful application does afterwards. *)
Theorem C52_unanswered_refuted : exists l, Careful l /\ In (Executed 0 0) (snd (run init l)) /\ In (RFree 0) l /\ forall l', Careful (l ++ l') -> resolutions 0 (snd (run init (l ++ l'))) = 0.
Proof.
  exists [New slash_a true; Execute 0 7 true true; RFree 0]. set (l0 := [New slash_a true; Execute 0 7 true true; RFree 0]). split; [apply careful2|]. split; [vm_compute; tauto|]. split; [vm_compute; tauto|].
  assert (ST : forall l', Careful (l0 ++ l') -> ~ In (Free 0) (l0 ++ l') /\ ~ In ConnFree (l0 ++ l') /\ ~ Answered 0 (l0 ++ l') /\ In (Created 0) (snd (run init (l0 ++ l'))) /\ In (Executed 0 0) (snd (run init (l0 ++ l'))) /\ Handed_to 0 (snd (run init (l0 ++ l'))) /\ forall f e, ~ In (Resolved 0 f e) (snd (run init (l0 ++ l')))).
  { induction l' as [|v l' IH] using rev_ind.
    - intros _. rewrite app_nil_r. split; [no|]. split; [no|]. split; [intros [H|(c & m & a & H)]; revert H; no|]. vm_compute. split; [tauto|]. split; [tauto|]. split; [do 3 eexists; right; right; left; reflexivity|]. intros f e H. repeat (destruct H as [H|H]; [discriminate|]). destruct H.
    - intros C. rewrite app_assoc in C. assert (C' : Careful (l0 ++ l') /\ Allowed (l0 ++ l') (snd (run init (l0 ++ l'))) v).
      { exact (careful_inv _ _ C). }
      destruct C' as [C' AL]. destruct (IH C') as (N1 & N2 & N3 & N4 & N5 & N6 & N7). clear IH. rewrite app_assoc.
      assert (RF : In (RFree 0) (l0 ++ l')) by (apply in_or_app; left; vm_compute; tauto).
      assert (M1 : v <> Free 0) by (intros ->; destruct AL as [_ AL]; destruct (AL _ N5) as (f & e & X); destruct (N7 _ _ X)).
      assert (M2 : v <> ConnFree) by (intros ->; destruct AL as [_ AL]; exact (N1 (AL _ N4))).
      assert (M3 : v <> RReady 0 /\ forall c m a, v <> RError 0 c m a) by (split; [intros ->|intros c m a ->]; destruct AL as [_ AL]; tauto).
      assert (K1 : ~ In (Free 0) ((l0 ++ l') ++ [v])) by (rewrite in_app_iff; intros [X|[X|[]]]; congruence || tauto).
      assert (K2 : ~ In ConnFree ((l0 ++ l') ++ [v])) by (rewrite in_app_iff; intros [X|[X|[]]]; congruence || tauto).
      assert (K3 : ~ Answered 0 ((l0 ++ l') ++ [v])).
      { destruct M3 as [M3 M4]. intros [X|(c & m & a & X)]; apply in_app_or in X; destruct X as [X|[X|[]]]; try congruence; apply N3; [now left|right; eauto]. }
      split; [exact K1|]. split; [exact K2|]. split; [exact K3|].
      destruct (run init ((l0 ++ l') ++ [v])) as [s2 o2] eqn:R2. destruct (safe _ C _ _ R2) as [D2 SG2 _ _ _].
      rewrite run_snoc in R2. destruct (run init (l0 ++ l')) as [s1 o1] eqn:R1. destruct (step s1 v) as [s3 o3] eqn:S3. injection R2 as <- <-. cbn [snd] in *.
      split; [apply in_or_app; now left|]. split; [apply in_or_app; now left|]. split; [destruct N6 as (p & d & g & N6); exists p, d, g; apply in_or_app; now left|].
      intros f e X. assert (R2 : run init ((l0 ++ l') ++ [v]) = (s3, o1 ++ o3)) by (rewrite run_snoc, R1, S3; reflexivity).
      assert (FN : Fine (o1 ++ o3)) by (intros Y; apply (crash_dead _ _ _ R2) in Y; congruence).
      destruct (C52_meaning _ _ _ _ _ _ R2 FN SG2 X) as (n & al & fd & _ & _ & [[_ [Y|Y]] | [_ Y]]); [exact (K3 Y)| |exact (K2 Y)].
      apply Y. destruct N6 as (p & d & g & N6). exists p, d, g. apply in_or_app. now left. }
  intros l' C. destruct (ST l' C) as (_ & _ & _ & _ & _ & _ & N). unfold resolutions, count. destruct (filter _ (snd (run init (l0 ++ l')))) as [|x q] eqn:FL; [reflexivity|]. exfalso.
  assert (Z : In x (x :: q)) by now left. rewrite <- FL in Z. apply filter_In in Z. destruct Z as [Z1 Z2]. destruct x; try discriminate. apply Nat.eqb_eq in Z2. subst. exact (N _ _ Z1).
Qed.
Print Assumptions C52_unanswered_refuted.
(** Freeing a request before its response, which the header does not forbid: the response uses it. *)
Theorem C52_client_free_refuted : exists l, Single l /\ In Crash (snd (run init l)) /\ forall l1 v l2, l = l1 ++ v :: l2 -> match v with Free n => Have n l1 (snd (run init l1)) | RReady k => Holds k l1 (snd (run init l1)) | _ => Allowed l1 (snd (run init l1)) v end.
Proof.
  exists [New slash_a true; Execute 0 7 true true; Free 0; RReady 0]. split; [repeat constructor; intros []|]. split; [vm_compute; tauto|].
  intros l1 v l2 E. destruct l1 as [|v1 [|v2 [|v3 [|v4 [|? ?]]]]]; cbn in E; try discriminate.
  - injection E as <- <-. split; [discriminate|intros []].
  - injection E as <- <- <-. split; [split; [now left|no]|intros []].
  - injection E as <- <- <- <-. split; [now left|no].
  - injection E as <- <- <- <- <-. split; [do 3 eexists; right; right; left; reflexivity|no].
Qed.
Print Assumptions C52_client_free_refuted.
(** A payload which cannot be set a second time is not there when the request is executed: memory at NULL is read. *)
Theorem C52_payload_refuted : exists l, Single l /\ In (Result OutOfMemory) (snd (run init l)) /\ In Crash (snd (run init l)) /\ (forall n, ~ In (Free n) l) /\ ~ In ConnFree l.
Proof.
  exists [New slash_a true; SetPayload 0 [1; 2] true; SetPayload 0 [3] false; Execute 0 7 true true]. split; [repeat constructor; intros []|]. split; [vm_compute; tauto|]. split; [vm_compute; tauto|]. split; [|no].
  intros n H. cbn in H. repeat (destruct H as [H|H]; [discriminate|]). destruct H.
Qed.
Print Assumptions C52_payload_refuted.
(** Executed twice: the first future is never resolved, the second one is resolved for both requests, and after all frees the first request is still there. *)
Theorem C52_twice_refuted : exists l, Fine (snd (run init l)) /\ Answered 0 l /\ Answered 1 l /\ In (Free 0) l /\ In (RFree 0) l /\ In (RFree 1) l /\
  In (Executed 0 0) (snd (run init l)) /\ releases 0 (snd (run init l)) = 0 /\ (forall k e, ~ In (Resolved k 7 e) (snd (run init l))) /\ In (Resolved 0 8 Ok) (snd (run init l)) /\ In (Resolved 1 8 Ok) (snd (run init l)).
Proof.
  exists [New slash_a true; Execute 0 7 true true; Execute 0 8 true true; RReady 0; RReady 1; RFree 0; RFree 1; Free 0].
  split; [vm_compute; intros H; repeat (destruct H as [H|H]; [discriminate|]); destruct H|]. split; [left; vm_compute; tauto|]. split; [left; vm_compute; tauto|]. split; [vm_compute; tauto|]. split; [vm_compute; tauto|]. split; [vm_compute; tauto|]. split; [vm_compute; tauto|]. split; [vm_compute; reflexivity|].
  split; [|split; vm_compute; tauto]. intros k e H. vm_compute in H. repeat (destruct H as [H|H]; [discriminate|]). destruct H.
Qed.
Print Assumptions C52_twice_refuted.
(** A careful application can lose memory: the device side sets the payload of a response twice. *)
Theorem C52_leak_refuted : exists l, Careful l /\ lost (fst (run init l)) = 1.
Proof.
  exists [New slash_a true; Execute 0 7 true true; RPayload 0 [1] true; RPayload 0 [2] true]. split; [|vm_compute; reflexivity].
  change [New slash_a true; Execute 0 7 true true; RPayload 0 [1] true; RPayload 0 [2] true] with (([New slash_a true; Execute 0 7 true true] ++ [RPayload 0 [1] true]) ++ [RPayload 0 [2] true]).
  eapply careful_app; [eapply careful_app; [apply careful1|vm_compute; reflexivity|]|vm_compute; reflexivity|]; (split; [do 3 eexists; cbn; right; right; left; reflexivity|no]).
Qed.
Print Assumptions C52_leak_refuted.
(** Two requests, one answered and one not found: both resolved once, and freed when both sides have freed them. *)
Example C52_ex : let (s, o) := run init [New slash_a true; New slash_a true; SetPayload 0 [5; 6] true; Execute 0 7 true true; Execute 1 8 true false; RCode 0 69; RReady 0; GetCode 0; RFree 0; Free 1; Free 0; ConnFree] in
  (dead s, o) = (false, [Created 0; Created 1; Result Ok; Executed 0 0; Handed 0 [["a"%char]] [5; 6] 0; Executed 1 1; Resolved 1 8 Ok; Result Ok; Resolved 0 7 Ok; Result Ok; GotCode 69; Freed 1; Freed 0]).
Proof. vm_compute. reflexivity. Qed.
Example C52_ex_fine : Fine (snd (run init [New slash_a true; Execute 0 7 true true; ConnFree])) /\ resolutions 0 (snd (run init [New slash_a true; Execute 0 7 true true; ConnFree])) = 1.
Proof. vm_compute. split; [|reflexivity]. intros H. repeat (destruct H as [H|H]; [discriminate|]). destruct H. Qed.

(** * C90 *)
(** What is handed to the device side is what the request was given: the segments of its path, the payload and the content format set last. *)
Theorem C90_request : forall l s o k g d f, run init l = (s, o) -> Fine o -> In (Handed k g d f) o ->
  exists l1 n fu l2 p, l = l1 ++ Execute n fu true true :: l2 /\ In (Executed n k) o /\ path_of l1 n = Some p /\ segments p = Some g /\ d = payload_of n l1 /\ f = format_of n l1.
Proof. intros l s o k g d f R F X. exact (hand_inv _ _ _ R (alive_of _ _ _ R F) _ _ _ _ X). Qed.
Print Assumptions C90_request.
Lemma upto_app a p : ~ In slash a -> (p = [] \/ exists q, p = slash :: q) -> upto (a ++ p) = a.
Proof.
  intros H P. induction a as [|c a IH]; cbn [app upto].
  - destruct P as [-> | (q & ->)]; [reflexivity|]. cbn [upto]. now rewrite Ascii.eqb_refl.
  - destruct (Ascii.eqb_spec c slash) as [-> | N]; [destruct H; now left|]. f_equal. apply IH. intros X. apply H. now right.
Qed.
Lemma pointers_app a p : ~ In slash a -> pointers (a ++ p) = pointers p.
Proof. intros H. induction a as [|c a IH]; cbn [app pointers]; [reflexivity|]. destruct (Ascii.eqb_spec c slash) as [-> | N]; [destruct H; now left|]. cbn [app]. apply IH. intros X. apply H. now right. Qed.
Lemma pointers_path ss : Forall (fun x => ~ In slash x) ss -> pointers (flat_map (cons slash) ss) = ss.
Proof.
  induction 1 as [|x ss H F IH]; cbn [flat_map pointers]; [reflexivity|]. cbn [app pointers]. rewrite Ascii.eqb_refl. cbn [app]. rewrite pointers_app, IH by exact H. f_equal.
  apply upto_app; [exact H|]. destruct ss as [|y ss]; [now left|]. right. cbn [flat_map app]. eauto.
Qed.
Lemma last_app_ne {A} (a b : list A) d : b <> [] -> last (a ++ b) d = last b d.
Proof. intros H. induction a as [|x a IH]; [reflexivity|]. cbn [app last]. destruct (a ++ b) eqn:E; [destruct a; [cbn in E; congruence|discriminate]|exact IH]. Qed.
Lemma last_path ss x c : last (flat_map (cons slash) (ss ++ [x ++ [c]])) slash = c.
Proof. rewrite flat_map_app. cbn [flat_map]. rewrite app_nil_r, last_app_ne by discriminate. change (slash :: x ++ [c]) with ((slash :: x) ++ [c]). rewrite last_app_ne by discriminate. reflexivity. Qed.
(** A path of segments, with or without a slash at the end, becomes these segments. *)
Theorem C90_path : forall ss, Forall (fun x => ~ In slash x) ss -> (ss = [] -> False) -> (forall r, ss <> r ++ [[]]) ->
  segments (flat_map (cons slash) ss) = Some ss /\ segments (flat_map (cons slash) ss ++ [slash]) = Some ss.
Proof.
  intros ss F NE NL. destruct (@exists_last _ ss) as (r & x & ->); [exact NE|]. assert (X : x <> []) by (intros ->; exact (NL r eq_refl)). destruct (@exists_last _ x X) as (y & c & ->).
  unfold segments, strip. split.
  - destruct (flat_map (cons slash) (r ++ [y ++ [c]])) as [|u v] eqn:E; [destruct r; discriminate|]. rewrite <- E, last_path. destruct (Ascii.eqb_spec c slash) as [-> | N].
    + exfalso. apply Forall_app in F. destruct F as [_ F]. inversion F as [|? ? F1 _]. apply F1, in_or_app. right. now left.
    + cbn [option_map]. now rewrite pointers_path.
  - destruct (flat_map (cons slash) (r ++ [y ++ [c]]) ++ [slash]) as [|u v] eqn:E; [apply app_eq_nil in E; destruct E; discriminate|]. rewrite <- E, last_app_ne by discriminate. cbn [last]. rewrite Ascii.eqb_refl, removelast_last. cbn [option_map]. now rewrite pointers_path.
Qed.
Print Assumptions C90_path.
Example C90_ex_path : segments (list_ascii_of_string "/iam/users/x/") = Some (map list_ascii_of_string ["iam"; "users"; "x"]%string) /\ segments [slash] = Some [].
Proof. split; vm_compute; reflexivity. Qed.
Lemma current l s o n k : run init l = (s, o) -> Fine o -> Single l -> In (Executed n k) o -> ~ In (Free n) l ->
  exists a c, dead s = false /\ nth_error (apis s) n = Some a /\ live a = true /\ core a = Some k /\ nth_error (cores s) k = Some c /\ gone c = false /\ CoreP l o (conn s) (apis s) k c /\ conn s = negb (closedb l) /\ ready a = okb k o /\ (ready a = true -> rready c = true).
Proof.
  intros R F SG X NF. pose proof (alive_of _ _ _ R F) as D. pose proof (api_inv _ _ _ R D) as A. pose proof (core_inv _ _ _ R D SG) as I.
  apply (C_exec _ _ _ I) in X. destruct X as (c & E & W). pose proof (C_core _ _ _ I _ _ E) as CP. destruct (P_api _ _ _ _ _ _ CP) as (a & f & Q1 & Q2 & Q3 & Q4 & Q5 & Q6). rewrite W in Q1. destruct (A_api _ _ _ A _ _ Q1) as (L & _).
  assert (LV : live a = true) by (rewrite L; destruct (freedb n l) eqn:Y; [apply freedb_in in Y; tauto|reflexivity]).
  assert (GC : gone c = false) by (rewrite (P_gone _ _ _ _ _ _ CP), Q4, LV; reflexivity).
  exists a, c. exact (conj D (conj Q1 (conj LV (conj Q2 (conj E (conj GC (conj CP (conj (A_conn _ _ _ A) (conj Q5 Q6))))))))).
Qed.
(** After a response the client reads what the device side has set last, while it has the request and the connection. *)
Theorem C90_response : forall l s o n k f, run init l = (s, o) -> Fine o -> Single l -> In (Executed n k) o -> ~ In (Free n) l -> ~ In ConnFree l -> Handed_to k o -> In (Resolved k f Ok) o ->
  step s (GetCode n) = (s, [GotCode (code_of k 0 l)]) /\ step s (GetFormat n) = (s, [GotFormat (rformat_of k l)]) /\
  step s (GetPayload n) = (s, [match rpayload_of k None l with Some p => GotPayload p (List.length p) | None => Result Unknown end]).
Proof.
  intros l s o n k f R F SG X NF NC H OK. destruct (current _ _ _ _ _ R F SG X NF) as (a & c & D & Ea & L & Ck & Ec & Gc & CP & CN & RD & RR).
  assert (O : okb k o = true) by (apply okb_in; eauto). assert (CT : conn s = true) by (rewrite CN; destruct (closedb l) eqn:Y; [apply closedb_in in Y; tauto|reflexivity]).
  rewrite O in RD. specialize (RR RD). apply handedb_in in H. destruct CP as [_ _ _ _ _ _ _ P8 P9 P10 P11]. rewrite H in P8, P9. cbn [base_code base_pay] in P8, P9.
  unfold step, on_api, get_code, get_format, get_payload, getting. rewrite D, Ea, L, RD, CT, Ck, Ec, Gc, RR, P8, P10. cbn [negb]. repeat split. rewrite <- P9. destruct (rpay c) as [p|] eqn:Ep; [|reflexivity]. now rewrite (P11 _ eq_refl).
Qed.
Print Assumptions C90_response.
(** Without a resource the response is 404. *)
Theorem C90_not_found : forall l s o n k, run init l = (s, o) -> Fine o -> Single l -> In (Executed n k) o -> ~ In (Free n) l -> ~ In ConnFree l -> ~ Handed_to k o ->
  step s (GetCode n) = (s, [GotCode not_found]) /\ step s (GetPayload n) = (s, [GotPayload not_found_text (List.length not_found_text)]).
Proof.
  intros l s o n k R F SG X NF NC H. destruct (current _ _ _ _ _ R F SG X NF) as (a & c & D & Ea & L & Ck & Ec & Gc & CP & CN & RD & RR).
  assert (CT : conn s = true) by (rewrite CN; destruct (closedb l) eqn:Y; [apply closedb_in in Y; tauto|reflexivity]).
  assert (NA : forall v, In v l -> about k v = false).
  { intros v V. destruct (about k v) eqn:AB; [|reflexivity]. exfalso. apply H, handedb_in. eapply only_handed; eauto. }
  rewrite <- handedb_in, not_true_iff_false in H. destruct (no_about k l not_found (Some not_found_text) NA) as (N1 & N2 & _).
  destruct CP as [_ _ _ P4 P5 P6 _ P8 P9 P10 P11]. rewrite H in *. cbn [base_code base_pay negb] in *. rewrite N1 in P8. rewrite N2 in P9. rewrite orb_true_r in P6. specialize (P6 eq_refl).
  assert (O : okb k o = true).
  { destruct (resolved_of _ _ _ _ _ R Ec P6) as (f & e & Y). destruct (C52_meaning _ _ _ _ _ _ R F SG Y) as (n' & al & fd & _ & _ & [[-> _] | [-> Z]]); [apply okb_in; eauto|tauto]. }
  rewrite O in RD. specialize (RR RD). unfold step, on_api, get_code, get_payload, getting. rewrite D, Ea, L, RD, CT, Ck, Ec, Gc, RR, P8, P9. cbn [negb]. rewrite (P11 _ P9). repeat split.
Qed.
Print Assumptions C90_not_found.
(** Before a response the client is told so. *)
Theorem C90_not_yet : forall l s o n k, run init l = (s, o) -> Fine o -> Single l -> In (Executed n k) o -> ~ In (Free n) l -> (forall f, ~ In (Resolved k f Ok) o) ->
  step s (GetCode n) = (s, [Result InvalidState]) /\ step s (GetFormat n) = (s, [Result InvalidState]) /\ step s (GetPayload n) = (s, [Result InvalidState]).
Proof.
  intros l s o n k R F SG X NF NR. destruct (current _ _ _ _ _ R F SG X NF) as (a & c & D & Ea & L & Ck & Ec & Gc & CP & CN & RD & RR).
  assert (O : okb k o = false) by (destruct (okb k o) eqn:Y; [apply okb_in in Y; destruct Y as (f & Y); destruct (NR _ Y)|reflexivity]).
  rewrite O in RD. unfold step, on_api, get_code, get_format, get_payload, getting. rewrite D, Ea, L, RD. cbn [negb]. repeat split.
Qed.
Print Assumptions C90_not_yet.
(** A content format is told which was never set, where NO_DATA is promised; and for a missing payload UNKNOWN is told instead of NO_DATA. *)
Theorem C90_format_refuted : exists l, Careful l /\ In (Resolved 0 7 Ok) (snd (run init l)) /\ (forall k f, ~ In (RFormat k f) l) /\ snd (step (fst (run init l)) (GetFormat 0)) = [GotFormat 0] /\ snd (step (fst (run init l)) (GetPayload 0)) = [Result Unknown].
Proof.
  exists [New slash_a true; Execute 0 7 true true; RReady 0]. split; [|split; [vm_compute; tauto|split; [|split; vm_compute; reflexivity]]].
  - change [New slash_a true; Execute 0 7 true true; RReady 0] with ([New slash_a true; Execute 0 7 true true] ++ [RReady 0]). eapply careful_app; [apply careful1|vm_compute; reflexivity|]. split; [do 3 eexists; cbn; right; right; left; reflexivity|no].
  - intros k f H. cbn in H. repeat (destruct H as [H|H]; [discriminate|]). destruct H.
Qed.
Print Assumptions C90_format_refuted.
(** An error whose message cannot be allocated is said to be sent, and is sent without it, where the header promises an error and no response. *)
Theorem C90_error_refuted : exists l, Careful (l ++ [RError 0 160 (Some [1]) false]) /\ snd (step (fst (run init l)) (RError 0 160 (Some [1]) false)) = [Resolved 0 7 Ok; Result Ok].
Proof.
  exists [New slash_a true; Execute 0 7 true true]. split; [|vm_compute; reflexivity]. eapply careful_app; [apply careful1|vm_compute; reflexivity|]. split; [do 3 eexists; cbn; right; right; left; reflexivity|no].
Qed.
Print Assumptions C90_error_refuted.
Example C90_ex : let (s, o) := run init [New slash_a true; SetPayload 0 [5; 6] true; SetFormat 0 60; Execute 0 7 true true; RCode 0 69; RPayload 0 [9; 8; 7] true; RFormat 0 50; GetCode 0; RReady 0; GetCode 0; GetFormat 0; GetPayload 0] in
  o = [Created 0; Result Ok; Result Ok; Executed 0 0; Handed 0 [["a"%char]] [5; 6] 60; Result Ok; Result Ok; Result Ok; Result InvalidState; Resolved 0 7 Ok; Result Ok; GotCode 69; GotFormat 50; GotPayload [9; 8; 7] 3].
Proof. vm_compute. reflexivity. Qed.
