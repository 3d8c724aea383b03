(** Lemmas on virtual CoAP requests. *)
From Coq Require Import List Bool Arith Lia Ascii String.
From Verif Require Import VcoModel VcoSpec.
Import ListNotations.
Local Open Scope list_scope.

Lemma run_app l1 : forall s l2, run s (l1 ++ l2) = (let (s1, o1) := run s l1 in let (s2, o2) := run s1 l2 in (s2, o1 ++ o2)).
Proof.
  induction l1 as [|v l1 IH]; intros s l2; cbn [run app].
  - destruct (run s l2); reflexivity.
  - destruct (step s v) as [s1 o1]. rewrite IH. destruct (run s1 l1) as [s2 o2]. destruct (run s2 l2) as [s3 o3]. now rewrite app_assoc.
Qed.
Lemma run_snoc l v : run init (l ++ [v]) = (let (s1, o1) := run init l in let (s2, o2) := step s1 v in (s2, o1 ++ o2)).
Proof. rewrite run_app. destruct (run init l) as [s1 o1]. cbn [run]. destruct (step s1 v) as [s2 o2]. now rewrite app_nil_r. Qed.

Lemma nth_upd {A} (f : A -> A) l : forall n m, nth_error (upd n f l) m = if Nat.eqb m n then option_map f (nth_error l m) else nth_error l m.
Proof.
  induction l as [|x l IH]; intros n m.
  - destruct n; cbn [upd]; destruct m; cbn [nth_error option_map]; destruct (Nat.eqb _ _); reflexivity.
  - destruct n as [|n]; destruct m as [|m]; cbn [upd nth_error Nat.eqb option_map]; auto.
Qed.
Lemma len_upd {A} (f : A -> A) l : forall n, List.length (upd n f l) = List.length l.
Proof. induction l as [|x l IH]; intros [|n]; cbn [upd List.length]; auto. Qed.
Lemma nth_snoc {A} (l : list A) (x : A) m : nth_error (l ++ [x]) m = if Nat.eqb m (List.length l) then Some x else nth_error l m.
Proof.
  destruct (Nat.eqb_spec m (List.length l)) as [-> | H].
  - rewrite nth_error_app2 by lia. now rewrite Nat.sub_diag.
  - destruct (Nat.lt_ge_cases m (List.length l)) as [H1 | H1].
    + now rewrite nth_error_app1.
    + rewrite (proj2 (nth_error_None l m)) by lia. apply nth_error_None. rewrite app_length. cbn. lia.
Qed.

(** * Counting *)
Lemma count_app {A} (f : A -> bool) l1 l2 : count f (l1 ++ l2) = count f l1 + count f l2.
Proof. unfold count. now rewrite filter_app, app_length. Qed.
Definition b2n (b : bool) : nat := if b then 1 else 0.
Definition R (s : st) (k : nat) : nat := match nth_error (cores s) k with Some c => b2n (resolved c) | None => 0 end.
Definition G (s : st) (k : nat) : nat := match nth_error (cores s) k with Some c => b2n (gone c) | None => 0 end.
(** What a step does to the counts of k. *)
Definition Counts (s : st) (x : st * list out) : Prop := forall k, resolutions k (snd x) + R s k = R (fst x) k /\ releases k (snd x) + G s k = G (fst x) k.
Lemma resolutions_app k a b : resolutions k (a ++ b) = resolutions k a + resolutions k b.
Proof. apply count_app. Qed.
Lemma releases_app k a b : releases k (a ++ b) = releases k a + releases k b.
Proof. apply count_app. Qed.
Lemma Counts_same s s' : cores s' = cores s -> Counts s (s', []).
Proof. intros H k. unfold R, G. cbn [fst snd]. rewrite H. split; reflexivity. Qed.
Lemma Counts_none s s' o : cores s' = cores s -> (forall k, resolutions k o = 0 /\ releases k o = 0) -> Counts s (s', o).
Proof. intros H N k. unfold R, G. cbn [fst snd]. rewrite H. destruct (N k) as [-> ->]. split; reflexivity. Qed.
Lemma Counts_die s : Counts s (die s).
Proof. unfold die. apply Counts_none; [reflexivity|]. intros k. split; reflexivity. Qed.
Definition Keeps (f : creq -> creq) : Prop := forall c, resolved (f c) = resolved c /\ gone (f c) = gone c.
Lemma R_upd_keep f s k j : Keeps f -> R (set_cores (upd j f (cores s)) s) k = R s k /\ G (set_cores (upd j f (cores s)) s) k = G s k.
Proof.
  intros K. unfold R, G. cbn [set_cores cores]. rewrite nth_upd. destruct (Nat.eqb k j); [|split; reflexivity].
  destruct (nth_error (cores s) k) as [c|]; cbn [option_map]; [|split; reflexivity]. destruct (K c) as [-> ->]. split; reflexivity.
Qed.
Lemma Counts_keep f s j x : Keeps f -> Counts (set_cores (upd j f (cores s)) s) x -> Counts s x.
Proof. intros K C k. destruct (C k) as [C1 C2]. destruct (R_upd_keep f s k j K) as [E1 E2]. rewrite E1 in C1. rewrite E2 in C2. split; assumption. Qed.
Lemma Counts_leak b s x : Counts (leak b s) x -> Counts s x.
Proof. intros C k. apply (C k). Qed.
Lemma Counts_snoc s s' o x : Counts s (s', o) -> (forall k, resolutions k [x] = 0 /\ releases k [x] = 0) -> Counts s (s', o ++ [x]).
Proof. intros C N k. destruct (C k) as [C1 C2]. destruct (N k) as [N1 N2]. cbn [fst snd] in *. rewrite resolutions_app, releases_app. lia. Qed.
Lemma Counts_resolve e k s : Counts s (resolve e k s).
Proof.
  unfold resolve. destruct (nth_error (cores s) k) as [c|] eqn:E; [|apply Counts_die].
  destruct (resolved c) eqn:Er; [apply Counts_same; reflexivity|].
  destruct (nth_error (apis s) (who c)) as [a|]; [|apply Counts_die]. destruct (live a); [|apply Counts_die]. destruct (fut a) as [f|]; [|apply Counts_die].
  intros j. unfold R, G. cbn [fst snd set_apis set_cores cores]. rewrite nth_upd. destruct (Nat.eqb_spec j k) as [-> | N].
  - rewrite E. cbn [option_map]. unfold resolutions, releases, count. cbn [filter]. rewrite Nat.eqb_refl. cbn [set_resolved resolved gone List.length]. rewrite Er. split; reflexivity.
  - unfold resolutions, releases, count. cbn [filter]. rewrite (proj2 (Nat.eqb_neq k j)) by congruence. split; reflexivity.
Qed.
Lemma Counts_do_free k c s : nth_error (cores s) k = Some c -> gone c = false -> Counts s (do_free k s).
Proof.
  intros E Eg j. unfold do_free, R, G. cbn [fst snd set_cores cores]. rewrite nth_upd. destruct (Nat.eqb_spec j k) as [-> | N].
  - rewrite E. cbn [option_map]. unfold resolutions, releases, count. cbn [filter]. rewrite Nat.eqb_refl. cbn [set_gone resolved gone List.length]. rewrite Eg. split; reflexivity.
  - unfold resolutions, releases, count. cbn [filter]. rewrite (proj2 (Nat.eqb_neq k j)) by congruence. split; reflexivity.
Qed.
Lemma Keeps_sfreed : Keeps set_sfreed. Proof. intros c. split; reflexivity. Qed.
Lemma Keeps_cfreed : Keeps set_cfreed. Proof. intros c. split; reflexivity. Qed.
Lemma Keeps_closed : Keeps set_closed. Proof. intros c. split; reflexivity. Qed.
Lemma Keeps_resp a b z f r : Keeps (set_resp a b z f r). Proof. intros c. split; reflexivity. Qed.
Lemma Counts_server_free k c s : nth_error (cores s) k = Some c -> gone c = false -> Counts s (server_free k c s).
Proof.
  intros E Eg. unfold server_free. apply (Counts_keep set_sfreed s k); [apply Keeps_sfreed|]. destruct (cfreed c); [|apply Counts_same; reflexivity].
  apply (Counts_do_free k (set_sfreed c)); [|exact Eg]. cbn [set_cores cores]. rewrite nth_upd, Nat.eqb_refl, E. reflexivity.
Qed.
Lemma Counts_client_free k c s : nth_error (cores s) k = Some c -> gone c = false -> Counts s (client_free k c s).
Proof.
  intros E Eg. unfold client_free. apply (Counts_keep set_cfreed s k); [apply Keeps_cfreed|]. destruct (sfreed c); [|apply Counts_same; reflexivity].
  apply (Counts_do_free k (set_cfreed c)); [|exact Eg]. cbn [set_cores cores]. rewrite nth_upd, Nat.eqb_refl, E. reflexivity.
Qed.
Lemma Counts_trans s s1 o1 s2 o2 : Counts s (s1, o1) -> Counts s1 (s2, o2) -> Counts s (s2, o1 ++ o2).
Proof. intros A B k. destruct (A k) as [A1 A2]. destruct (B k) as [B1 B2]. cbn [fst snd] in *. rewrite resolutions_app, releases_app. lia. Qed.
Lemma Counts_close_all n : forall k s, Counts s (close_all n k s).
Proof.
  induction n as [|n IH]; intros k s; cbn [close_all]; [apply Counts_same; reflexivity|].
  destruct (nth_error (cores s) k) as [c|]; [|apply Counts_same; reflexivity]. destruct (gone c); [apply IH|].
  pose proof (Counts_keep set_closed s k _ Keeps_closed (Counts_resolve Stopped k _)) as H. destruct (resolve Stopped k _) as [s1 o1].
  destruct (dead s1); [exact H|]. pose proof (IH (S k) s1) as H1. destruct (close_all n (S k) s1) as [s2 o2]. eapply Counts_trans; eassumption.
Qed.
Lemma Counts_getting a s f : (forall k c, resolutions k [f c] = 0 /\ releases k [f c] = 0) -> Counts s (getting a s f).
Proof.
  intros F. unfold getting. destruct (negb (ready a)); [apply Counts_none; [reflexivity|split; reflexivity]|].
  destruct (negb (conn s)); [apply Counts_die|]. destruct (core a) as [k|]; [|apply Counts_die]. destruct (nth_error (cores s) k) as [c|]; [|apply Counts_die].
  destruct (gone c); [apply Counts_die|]. destruct (rready c); (apply Counts_none; [reflexivity|]); intros j; [apply F|split; reflexivity].
Qed.
Lemma Counts_new_core c s s' : resolved c = false -> gone c = false -> cores s' = cores s ++ [c] -> forall x, Counts s' x -> Counts s x.
Proof.
  intros H1 H2 E x C k. destruct (C k) as [C1 C2].
  assert (K : R s' k = R s k /\ G s' k = G s k).
  { unfold R, G. rewrite E, nth_snoc. destruct (Nat.eqb_spec k (List.length (cores s))) as [-> | N]; [|split; reflexivity].
    rewrite (proj2 (nth_error_None (cores s) _)) by lia. rewrite H1, H2. split; reflexivity. }
  destruct K as [K1 K2]. rewrite K1 in C1. rewrite K2 in C2. split; assumption.
Qed.
Lemma Counts_execute n f al found a s : Counts s (execute n f al found a s).
Proof.
  unfold execute. destruct al; cbn [negb]; [|apply Counts_none; [reflexivity|split; reflexivity]].
  destruct (match pay a with Some p => _ | None => _ end) as [p|]; [|apply Counts_die].
  set (c := {| who := n; resolved := false; rready := false; cfreed := false; sfreed := negb found; closed := false; gone := false; rpay := None; rsize := 0; rfmt := 0; rcode := 0 |}).
  set (s1 := set_apis _ _). apply (Counts_new_core c s s1); [reflexivity|reflexivity|reflexivity|].
  destruct found.
  - apply Counts_none; [reflexivity|]. split; reflexivity.
  - match goal with |- context [resolve Ok ?k ?s2] => pose proof (Counts_resolve Ok k s2) as H; destruct (resolve Ok k s2) as [s3 o3] end.
    apply Counts_keep in H; [|apply Keeps_resp]. change (Executed n (List.length (cores s)) :: o3) with ([Executed n (List.length (cores s))] ++ o3).
    eapply Counts_trans; [|exact H]. apply Counts_none; [reflexivity|]. split; reflexivity.
Qed.
Lemma Counts_step s v : Counts s (step s v).
Proof.
  unfold step. destruct (dead s); [apply Counts_same; reflexivity|].
  assert (OA : forall n f, (forall a, Counts s (f a)) -> Counts s (on_api n s f)).
  { intros n f F. unfold on_api. destruct (nth_error (apis s) n) as [a|]; [|apply Counts_die]. destruct (live a); [apply F|apply Counts_die]. }
  assert (OC : forall k f, (forall c, nth_error (cores s) k = Some c -> gone c = false -> Counts s (f c)) -> Counts s (on_core k s f)).
  { intros k f F. unfold on_core. destruct (nth_error (cores s) k) as [c|] eqn:E; [|apply Counts_die]. destruct (gone c) eqn:Eg; cbn [orb]; [apply Counts_die|]. destruct (sfreed c); [apply Counts_die|]. apply F; auto. }
  destruct v as [p a|n d a|n f|n f al found|n|n|n|n|k c|k d a|k f|k|k c m a|k|].
  - destruct (conn s); [|apply Counts_die]. unfold new_req. destruct a; cbn [negb]; [|apply Counts_none; [reflexivity|split; reflexivity]].
    destruct (segments p) as [g|]; [|apply Counts_die]. apply Counts_none; [reflexivity|split; reflexivity].
  - apply OA. intros x. unfold set_payload. apply (Counts_leak (is_some (pay x)) s). destruct a; (apply Counts_none; [reflexivity|split; reflexivity]).
  - apply OA. intros x. unfold set_format. apply Counts_none; [reflexivity|split; reflexivity].
  - apply OA. intros x. destruct (conn s); [|apply Counts_die]. apply Counts_execute.
  - apply OA. intros x. unfold req_free. destruct (core x) as [k|]; [|apply Counts_same; reflexivity].
    destruct (nth_error (cores s) k) as [c|] eqn:E; [|apply Counts_die]. destruct (gone c) eqn:Eg; [apply Counts_die|].
    pose proof (Counts_client_free k c (set_apis (upd n set_dead (apis s)) s) E Eg) as H. exact H.
  - apply OA. intros x. apply Counts_getting. split; reflexivity.
  - apply OA. intros x. apply Counts_getting. split; reflexivity.
  - apply OA. intros x. apply Counts_getting. intros k c. destruct (rpay c); split; reflexivity.
  - apply OC. intros x E Eg. unfold resp_code. eapply Counts_keep; [apply Keeps_resp|]. apply Counts_none; [reflexivity|split; reflexivity].
  - apply OC. intros x E Eg. unfold resp_payload. apply (Counts_leak (is_some (rpay x)) s). destruct a; (eapply Counts_keep; [apply Keeps_resp|]; apply Counts_none; [reflexivity|split; reflexivity]).
  - apply OC. intros x E Eg. unfold resp_format. eapply Counts_keep; [apply Keeps_resp|]. apply Counts_none; [reflexivity|split; reflexivity].
  - apply OC. intros x E Eg. unfold resp_ready. destruct (closed x); [apply Counts_none; [reflexivity|split; reflexivity]|].
    match goal with |- context [resolve Ok ?k ?s2] => pose proof (Counts_resolve Ok k s2) as H; destruct (resolve Ok k s2) as [s3 o3] end.
    apply Counts_keep in H; [|apply Keeps_resp]. apply Counts_snoc; [exact H|split; reflexivity].
  - apply OC. intros x E Eg. unfold resp_error. apply (Counts_leak (is_some m && is_some (rpay x)) s).
    match goal with |- context [resolve Ok ?k ?s2] => pose proof (Counts_resolve Ok k s2) as H; destruct (resolve Ok k s2) as [s3 o3] end.
    apply Counts_keep in H; [|apply Keeps_resp]. apply Counts_snoc; [exact H|split; reflexivity].
  - apply OC. intros x E Eg. apply Counts_server_free; auto.
  - unfold conn_free. destruct (negb (conn s)); [apply Counts_die|]. pose proof (Counts_close_all (List.length (cores s)) 0 s) as H. destruct (close_all _ 0 s) as [s1 o1]. exact H.
Qed.
Lemma counts l : forall k, resolutions k (snd (run init l)) = R (fst (run init l)) k /\ releases k (snd (run init l)) = G (fst (run init l)) k.
Proof.
  induction l as [|v l IH] using rev_ind; intros k.
  - cbn. unfold R, G. cbn. destruct k; split; reflexivity.
  - rewrite run_snoc. destruct (run init l) as [s1 o1]. destruct (IH k) as [H1 H2]. pose proof (Counts_step s1 v k) as [C1 C2]. destruct (step s1 v) as [s2 o2]. cbn [fst snd] in *.
    rewrite resolutions_app, releases_app. lia.
Qed.
