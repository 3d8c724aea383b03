(** * UDP sockets and the receive loop: theorems (C92) *)
From Coq Require Import List Arith Bool Lia.
From Verif Require Import UdpModel UdpSpec.
Import ListNotations.

(** ** Histories *)

Lemma runs_app : forall p a b s,
  runs p s (a ++ b) =
  let (s1, o1) := runs p s a in let (s2, o2) := runs p s1 b in (s2, o1 ++ o2).
Proof.
  intros p; induction a as [|i a IH]; intros b s; cbn [app runs].
  - destruct (runs p s b); reflexivity.
  - destruct (step p s i) as [s1 o1]. rewrite IH.
    destruct (runs p s1 a) as [s2 o2]. destruct (runs p s2 b) as [s3 o3].
    rewrite app_assoc. reflexivity.
Qed.

Lemma run_snoc : forall p l i,
  run p (l ++ [i]) =
  let (s1, o1) := run p l in let (s2, o2) := step p s1 i in (s2, o1 ++ o2).
Proof.
  intros. unfold run. rewrite runs_app. destruct (runs p init l) as [s1 o1].
  cbn [runs]. destruct (step p s1 i) as [s2 o2]. rewrite app_nil_r. reflexivity.
Qed.

Lemma count_app : forall f a b, count f (a ++ b) = count f a + count f b.
Proof. intros. unfold count. rewrite filter_app, app_length. reflexivity. Qed.

(** ** Descriptor table *)

Lemma look_drop_same : forall k t, look k (drop k t) = None.
Proof.
  induction t as [|[j w] t IH]; cbn [drop look]; [reflexivity|].
  destruct (Nat.eqb j k) eqn:E; [exact IH|]. cbn [look]. rewrite E. exact IH.
Qed.

Lemma look_drop_other : forall k j t, j <> k -> look j (drop k t) = look j t.
Proof.
  intros k j t H. induction t as [|[i w] t IH]; cbn [drop look]; [reflexivity|].
  destruct (Nat.eqb i k) eqn:E.
  - apply Nat.eqb_eq in E. subst i.
    destruct (Nat.eqb k j) eqn:E2; [apply Nat.eqb_eq in E2; congruence|exact IH].
  - cbn [look]. destruct (Nat.eqb i j); [reflexivity|exact IH].
Qed.

Lemma sys_socket_some : forall o t k,
  sys_socket o t = Some k -> o = Some k /\ look k t = None.
Proof.
  intros [j|] t k; cbn [sys_socket]; [|discriminate].
  destruct (look j t) eqn:E; [discriminate|]. intros [= ->]. auto.
Qed.

(** The descriptors of this socket are exactly those the trace says. *)
Definition held (s : st) (k : nat) : nat :=
  match look k (fds s) with Some Ours => 1 | _ => 0 end.

(** The invariant: what the trace says is open is what is open; nothing
    foreign was touched; the socket's own number is the only one open. *)
Record Inv (s : st) (o : list out) : Prop := mkInv {
  I_bal : forall k, count (is_opened k) o = count (is_closed k) o + held s k;
  I_harm : Harmless o;
  I_own : forall k, look k (fds s) = Some Ours <-> sk s = Some k;
  I_bound : bound s = true -> sk s <> None;
  I_sk : sk s <> None -> exists a b, o = a ++ Bound EOk :: b;
  I_wait : aborted s = true -> waiting s = false;
  I_dead : live s = false -> sk s = None /\ posted s = None /\ waiting s = false }.

Lemma inv_init : Inv init [].
Proof.
  constructor.
  - intros k. reflexivity.
  - intros k. repeat split; intros [].
  - intros k. split; discriminate.
  - discriminate.
  - intros H. elim H. reflexivity.
  - discriminate.
  - discriminate.
Qed.

Lemma norebind_last : forall a b o o1 e,
  o = a ++ Bound EOk :: b -> NoRebind (o ++ o1) -> ~ In (Bound e) o1.
Proof.
  intros a b o o1 e -> H Hin.
  apply (H a (b ++ o1) e); [rewrite <- app_assoc; reflexivity|].
  apply in_or_app. right. exact Hin.
Qed.

(** What a bind of a socket without descriptor does. *)
Inductive BindCase (p : platform) (s : st) : st -> list out -> Prop :=
  | BC_fail : forall e, e <> EOk -> BindCase p s (set_bound s false) [Bound e]
  | BC_ok : forall k, look k (fds s) = None ->
      BindCase p s (set_bound (set_sk (open_fd k s) (Some k)) true) [Opened k; Bound EOk]
  | BC_undo : forall k e, look k (fds s) = None -> e <> EOk ->
      BindCase p s (set_bound (set_sk (set_fds s (drop k ((k, Ours) :: fds s))) None) false)
        [Opened k; Closed k; Bound e]
  | BC_select : forall s1 o e, p = Select -> e <> EOk -> e <> EAborted ->
      BindCase p s s1 (o ++ [Bound e]).

Lemma st_eta : forall s, mk (fds s) (live s) (sk s) (aborted s) (waiting s) (bound s) (posted s) = s.
Proof. intros []; reflexivity. Qed.

Lemma bind_case : forall p b s s1 o1,
  sk s = None -> do_bind p b s = (s1, o1) -> BindCase p s s1 o1.
Proof.
  intros p b [t lv k0 ab w bd po] s1 o1 Hsk. cbn [sk] in Hsk. subst k0.
  unfold do_bind. destruct p.
  - unfold bind_select. cbn [aborted]. destruct ab.
    { intros [= <- <-]. apply (BC_fail _ _ EAborted). discriminate. }
    unfold create_any_select. cbn [fds sk].
    destruct (sys_socket (s6 b) t) as [k|] eqn:E6.
    + apply sys_socket_some in E6. destruct E6 as [_ Hk].
      destruct (optok b).
      * unfold bind_port_select. cbn [sk set_sk]. destruct (bres_in b).
        -- intros [= <- <-]. apply (BC_ok _ _ k). exact Hk.
        -- unfold close_sk, sys_close, open_fd. cbn [sk set_sk fds set_fds look].
           rewrite Nat.eqb_refl. intros [= <- <-].
           apply (BC_select _ _ _ [Opened k; Closed k]); [reflexivity|discriminate|discriminate].
        -- unfold close_sk, sys_close, open_fd. cbn [sk set_sk fds set_fds look].
           rewrite Nat.eqb_refl. intros [= <- <-].
           apply (BC_select _ _ _ [Opened k; Closed k]); [reflexivity|discriminate|discriminate].
      * unfold close_sk, open_fd. cbn [sk set_fds].
        intros [= <- <-].
        apply (BC_select _ _ _ [Opened k]); [reflexivity|discriminate|discriminate].
    + destruct (sys_socket (s4 b) t) as [k|] eqn:E4.
      * intros [= <- <-].
        apply (BC_select _ _ _ [Opened k]); [reflexivity|discriminate|discriminate].
      * intros [= <- <-]. apply (BC_fail _ _ ECreation). discriminate.
  - unfold bind_libevent. cbn [aborted]. destruct ab.
    { intros [= <- <-]. apply (BC_fail _ _ EAborted). discriminate. }
    unfold create_any_libevent. cbn [fds sk].
    assert (HB : forall k, look k t = None ->
      (let '(s2, o, e) :=
         match match bind_port_libevent b with
               | EOk => if evok b then EOk else ENoMem
               | e => e
               end with
         | EOk => (set_sk (open_fd k (mk t lv None false w bd po)) (Some k), [Opened k], EOk)
         | e => let (s2, o2) := close_sk (set_sk (open_fd k (mk t lv None false w bd po)) (Some k)) in
                (set_sk s2 None, [Opened k] ++ o2, e)
         end in
       (set_bound s2 match e with EOk => true | _ => false end, o ++ [Bound e])) = (s1, o1) ->
      BindCase Libevent (mk t lv None false w bd po) s1 o1).
    { intros k Hk. unfold close_sk, sys_close, open_fd. cbn [sk set_sk fds set_fds look].
      rewrite Nat.eqb_refl. unfold bind_port_libevent.
      destruct (bres_in b); [destruct (evok b)| |]; intros [= <- <-].
      - exact (BC_ok Libevent (mk t lv None false w bd po) k Hk).
      - refine (BC_undo Libevent (mk t lv None false w bd po) k ENoMem Hk _); discriminate.
      - refine (BC_undo Libevent (mk t lv None false w bd po) k EInUse Hk _); discriminate.
      - refine (BC_undo Libevent (mk t lv None false w bd po) k ECreation Hk _); discriminate. }
    destruct (sys_socket (s6 b) t) as [k|] eqn:E6.
    + apply sys_socket_some in E6. destruct E6 as [_ Hk].
      destruct (optok b).
      * apply HB. exact Hk.
      * unfold sys_close, open_fd. cbn [fds set_fds look]. rewrite Nat.eqb_refl.
        intros [= <- <-]. refine (BC_undo Libevent (mk t lv None false w bd po) k ECreation Hk _); discriminate.
    + destruct (sys_socket (s4 b) t) as [k|] eqn:E4.
      * apply sys_socket_some in E4. destruct E4 as [_ Hk]. apply HB. exact Hk.
      * intros [= <- <-]. apply (BC_fail _ _ ECreation). discriminate.
Qed.

Definition quiet (x : out) : bool :=
  match x with Bound _ | Deliver _ | Dropped _ | Failure => true | _ => false end.

Lemma quiet_count : forall o k, forallb quiet o = true ->
  count (is_opened k) o = 0 /\ count (is_closed k) o = 0.
Proof.
  induction o as [|x o IH]; intros k H; [split; reflexivity|].
  cbn [forallb] in H. apply andb_true_iff in H. destruct H as [Hx H].
  destruct (IH k H) as [A B]. unfold count in *. cbn [filter].
  destruct x; try discriminate Hx; cbn [is_opened is_closed]; auto.
Qed.

Lemma quiet_harmless : forall o o1, Harmless o -> forallb quiet o1 = true -> Harmless (o ++ o1).
Proof.
  intros o o1 H Hq k. destruct (H k) as (A & B & C).
  rewrite forallb_forall in Hq.
  repeat split; intros Hin; apply in_app_or in Hin;
    (destruct Hin as [Hin|Hin]; [contradiction|apply Hq in Hin; discriminate]).
Qed.

Lemma harmless_app : forall a b, Harmless a -> Harmless b -> Harmless (a ++ b).
Proof.
  intros a b Ha Hb k. destruct (Ha k) as (A & B & C). destruct (Hb k) as (A' & B' & C').
  repeat split; intros Hin; apply in_app_or in Hin; tauto.
Qed.

Lemma harmless_b : forall o,
  forallb (fun x => match x with ClosedOther _ | ClosedNone _ | ReadOther _ => false | _ => true end) o = true ->
  Harmless o.
Proof.
  intros o H k. rewrite forallb_forall in H.
  repeat split; intros Hin; apply H in Hin; discriminate.
Qed.

Lemma exists_mark : forall o o1, (exists a b, o = a ++ Bound EOk :: b) ->
  exists a b, o ++ o1 = a ++ Bound EOk :: b.
Proof.
  intros o o1 (a & b & ->). exists a, (b ++ o1). rewrite <- app_assoc. reflexivity.
Qed.

Lemma inv_quiet : forall s s' o o1,
  Inv s o -> forallb quiet o1 = true ->
  (forall k, look k (fds s') = Some Ours <-> look k (fds s) = Some Ours) -> sk s' = sk s ->
  (bound s' = true -> bound s = true) ->
  (aborted s' = true -> waiting s' = false) ->
  (live s' = false -> sk s' = None /\ posted s' = None /\ waiting s' = false) ->
  Inv s' (o ++ o1).
Proof.
  intros s s' o o1 [A B C D E F G] Hq Hf Hs Hb Hw Hl.
  constructor; auto.
  - intros k. rewrite !count_app. destruct (quiet_count o1 k Hq) as [-> ->].
    rewrite !Nat.add_0_r, A. f_equal. unfold held.
    specialize (Hf k). destruct (look k (fds s)) as [[]|], (look k (fds s')) as [[]|]; try reflexivity;
      try (destruct Hf as [Hf1 Hf2]; discriminate (Hf2 eq_refl));
      try (destruct Hf as [Hf1 Hf2]; discriminate (Hf1 eq_refl)).
  - apply quiet_harmless; assumption.
  - intros k. rewrite Hf, Hs. apply C.
  - rewrite Hs. auto.
  - rewrite Hs. intros H. apply exists_mark. auto.
Qed.

(** What waiting for and completing a wait leave alone. *)
Record Same (s s' : st) : Prop := mkSame {
  S_fds : fds s' = fds s; S_sk : sk s' = sk s; S_live : live s' = live s;
  S_bound : bound s' = bound s;
  S_wait : (aborted s = true -> waiting s = false) -> aborted s' = true -> waiting s' = false }.

Lemma same_refl : forall s, Same s s.
Proof. intros s. constructor; auto. Qed.

Lemma same_wait : forall s, Same s (recv_wait s).
Proof.
  intros s. unfold recv_wait. destruct (aborted s) eqn:A, (waiting s) eqn:W; constructor; cbn; try congruence; auto.
Qed.

Lemma same_complete : forall e s, Same s (complete e s).
Proof.
  intros e s. unfold complete. destruct (waiting s) eqn:W; constructor; cbn; try congruence; auto.
Qed.

Lemma same_posted : forall x s, Same s (set_posted s x).
Proof. intros. constructor; auto. Qed.

Lemma same_trans : forall a b c, Same a b -> Same b c -> Same a c.
Proof. intros a b c [] []. constructor; try congruence; auto. Qed.

Lemma inv_same : forall s s' o o1,
  Inv s o -> live s = true -> forallb quiet o1 = true -> Same s s' -> Inv s' (o ++ o1).
Proof.
  intros s s' o o1 HI Hl Hq [A B C D E].
  apply (inv_quiet s); try assumption.
  - intros k. rewrite A. reflexivity.
  - rewrite D. auto.
  - apply E. apply (I_wait _ _ HI).
  - congruence.
Qed.

Lemma same_readable : forall p s, Same s (do_readable p s).
Proof.
  intros p s. unfold do_readable.
  destruct p, (sk s); try apply same_complete; apply same_refl.
Qed.

(** With its own descriptor, or none, a dispatch reads nothing foreign. *)
Lemma dispatch_same : forall mem r s s1 o1,
  (forall k, sk s = Some k -> look k (fds s) <> Some Theirs) ->
  do_dispatch mem r s = (s1, o1) -> Same s s1 /\ forallb quiet o1 = true.
Proof.
  intros mem r s s1 o1 HT. unfold do_dispatch.
  destruct (posted s) as [[]|];
    try (intros [= <- <-]; split; [apply same_posted|reflexivity]).
  - unfold sys_recv. cbn [set_posted sk fds].
    assert (HR : exists r1, (match sk s with
                             | None => (RErr, [])
                             | Some k => match look k (fds s) with
                                         | Some Ours => (r, [])
                                         | Some Theirs => (r, [ReadOther k])
                                         | None => (RErr, [])
                                         end
                             end) = (r1, ([] : list out))).
    { destruct (sk s) as [k|] eqn:E; [|eexists; reflexivity].
      specialize (HT k eq_refl).
      destruct (look k (fds s)) as [[]|]; try (eexists; reflexivity). congruence. }
    destruct HR as [r1 ->]. cbn [app].
    assert (H2 := same_trans _ _ _ (same_posted None s) (same_wait (set_posted s None))).
    destruct mem; [destruct r1|]; intros [= <- <-];
      (split; [first [exact H2 | apply same_posted]|]); try reflexivity.
    destruct r1; reflexivity.
  - intros [= <- <-]. split; [apply same_refl|reflexivity].
Qed.

Lemma inv_step : forall p s o i s1 o1,
  Inv s o -> step p s i = (s1, o1) -> NoRebind (o ++ o1) ->
  (p = Select -> AllBound (o ++ o1)) -> Inv s1 (o ++ o1).
Proof.
  intros p s o i s1 o1 HI Hst HN HA.
  assert (Hdead : live s = false -> Inv s (o ++ [])).
  { intros _. rewrite app_nil_r. exact HI. }
  assert (Hl0 := I_dead _ _ HI). assert (Hw0 := I_wait _ _ HI).
  destruct i; cbn [step] in Hst.
  - (* Bind *)
    destruct (live s) eqn:Hl; [|injection Hst as <- <-; auto].
    assert (Hsk : sk s = None).
    { destruct (sk s) eqn:E; [|reflexivity]. exfalso.
      destruct (I_sk _ _ HI) as (a & c & Ho); [congruence|].
      unfold do_bind in Hst.
      destruct (match p with Select => bind_select b s | Libevent => bind_libevent b s end) as [[s2 o2] e].
      injection Hst as <- <-.
      apply (norebind_last _ _ _ _ e Ho HN). apply in_or_app. right. left. reflexivity. }
    destruct HI as [A B C D E F G].
    destruct (bind_case _ _ _ _ _ Hsk Hst) as [e He|k Hk|k e Hk He|s2 o2 e Hp He1 He2].
    + apply (inv_quiet s); try reflexivity; try discriminate; try (constructor; assumption); try assumption.
    + constructor; cbn [set_bound set_sk open_fd set_fds fds sk bound aborted waiting live posted]; try assumption.
      * intros j. rewrite !count_app. unfold count at 2 4. cbn [filter is_opened is_closed].
        unfold held. cbn [set_bound set_sk open_fd set_fds fds look].
        specialize (A j). unfold held in A.
        destruct (Nat.eqb k j) eqn:Ej; cbn [length].
        -- apply Nat.eqb_eq in Ej. subst j. rewrite Hk in A. lia.
        -- lia.
      * apply harmless_app; [exact B|apply harmless_b; reflexivity].
      * intros j. cbn [look]. destruct (Nat.eqb k j) eqn:Ej.
        -- apply Nat.eqb_eq in Ej. subst j. split; reflexivity.
        -- rewrite C, Hsk. apply Nat.eqb_neq in Ej. split; congruence.
      * discriminate.
      * intros _. exists (o ++ [Opened k]), []. rewrite <- app_assoc. reflexivity.
      * congruence.
    + assert (Hlk : forall j, look j (drop k ((k, Ours) :: fds s)) = look j (fds s)).
      { intros j. cbn [drop]. rewrite Nat.eqb_refl. destruct (Nat.eq_dec j k) as [-> |Hj].
        - rewrite look_drop_same. symmetry. exact Hk.
        - apply look_drop_other. exact Hj. }
      constructor; cbn [set_bound set_sk open_fd set_fds fds sk bound aborted waiting live posted]; try assumption.
      * intros j. rewrite !count_app. unfold count at 2 4. cbn [filter is_opened is_closed].
        unfold held. cbn [set_bound set_sk open_fd set_fds fds].
        specialize (A j). unfold held in A. rewrite Hlk.
        destruct (Nat.eqb k j); cbn [length]; lia.
      * apply harmless_app; [exact B|apply harmless_b; reflexivity].
      * intros j. rewrite Hlk, C, Hsk. reflexivity.
      * discriminate.
      * congruence.
      * congruence.
    + exfalso. specialize (HA Hp).
      destruct (HA e) as [H|H]; try contradiction.
      rewrite !in_app_iff. right. right. left. reflexivity.
  - (* StartRecv *)
    destruct (live s) eqn:Hl; [|injection Hst as <- <-; auto].
    injection Hst as <- <-.
    apply (inv_same s); try reflexivity; try assumption.
    destruct (bound s); [apply same_wait|apply same_refl].
  - (* Readable *)
    destruct (live s) eqn:Hl; [|injection Hst as <- <-; auto].
    injection Hst as <- <-.
    apply (inv_same s); try reflexivity; try assumption. apply same_readable.
  - (* Dispatch *)
    destruct (live s) eqn:Hl; [|injection Hst as <- <-; auto].
    destruct (dispatch_same mem r s s1 o1) as [A B]; [|exact Hst|].
    + intros k Hk. apply (I_own _ _ HI) in Hk. congruence.
    + exact (inv_same s s1 o o1 HI Hl B A).
  - (* Abort *)
    destruct (live s) eqn:Hl; [|injection Hst as <- <-; auto].
    injection Hst as <- <-.
    assert (Hsa := same_complete EAborted (set_aborted s true)). destruct Hsa as [A B C D E].
    apply (inv_quiet s); try reflexivity; try assumption.
    + intros k. unfold do_abort. rewrite A. reflexivity.
    + unfold do_abort. rewrite D. cbn. auto.
    + intros _. unfold do_abort, complete. destruct (waiting (set_aborted s true)) eqn:W; [reflexivity|exact W].
    + unfold do_abort. rewrite C. cbn. congruence.
  - (* Destroy *)
    destruct (live s) eqn:Hl; [|injection Hst as <- <-; auto].
    unfold do_destroy in Hst.
    assert (Hsa := same_complete EAborted (set_aborted s true)).
    fold (do_abort s) in Hsa. destruct Hsa as [A B _ _ _]. cbn [set_aborted fds sk] in A, B.
    unfold close_sk in Hst. rewrite B in Hst.
    destruct (sk s) as [k|] eqn:Hsk.
    + unfold sys_close in Hst. rewrite A in Hst.
      assert (Hk : look k (fds s) = Some Ours) by (apply (I_own _ _ HI); exact Hsk).
      rewrite Hk in Hst. injection Hst as <- <-.
      destruct HI as [IA IB IC ID IE IF IG].
      assert (Hlk : forall j, look j (drop k (fds s)) <> Some Ours).
      { intros j Hj. destruct (Nat.eq_dec j k) as [-> |Hjk].
        - rewrite look_drop_same in Hj. discriminate.
        - rewrite look_drop_other in Hj by exact Hjk. apply IC in Hj. congruence. }
      constructor; cbn [set_dead set_fds fds sk bound aborted waiting live posted]; try discriminate; auto.
      * intros j. rewrite !count_app. unfold count at 2 4. cbn [filter is_opened is_closed].
        specialize (IA j). unfold held in *. cbn [set_dead set_fds fds].
        specialize (Hlk j).
        destruct (Nat.eqb k j) eqn:Ej; cbn [length].
        -- apply Nat.eqb_eq in Ej. subst j. rewrite Hk in IA. rewrite look_drop_same. lia.
        -- apply Nat.eqb_neq in Ej.
           destruct (look j (fds s)) as [[]|] eqn:El; [apply IC in El; congruence| |];
             rewrite look_drop_other by congruence; rewrite El; lia.
      * apply harmless_app; [exact IB|apply harmless_b; reflexivity].
      * intros j. split; [intros H; elim (Hlk j H)|discriminate].
      * congruence.
    + injection Hst as <- <-.
      apply (inv_quiet s); try reflexivity; try assumption; cbn [set_dead fds sk live bound posted waiting aborted].
      * intros j. rewrite A. reflexivity.
      * symmetry. exact Hsk.
      * discriminate.
      * auto.
  - (* FOpen *)
    injection Hst as <- <-.
    apply (inv_quiet s); try reflexivity; try assumption.
    + intros j. destruct (look k (fds s)) eqn:E; [reflexivity|].
      cbn [set_fds fds look]. destruct (Nat.eqb k j) eqn:Ej; [|reflexivity].
      apply Nat.eqb_eq in Ej. subst j. rewrite E. split; discriminate.
    + destruct (look k (fds s)); reflexivity.
    + destruct (look k (fds s)); auto.
    + destruct (look k (fds s)); auto.
    + destruct (look k (fds s)); auto.
  - (* FClose *)
    injection Hst as <- <-.
    apply (inv_quiet s); try reflexivity; try assumption.
    + intros j. destruct (look k (fds s)) as [[]|] eqn:E; try reflexivity.
      cbn [set_fds fds look]. destruct (Nat.eq_dec j k) as [-> |Hj].
      * rewrite look_drop_same, E. split; discriminate.
      * rewrite look_drop_other by exact Hj. reflexivity.
    + destruct (look k (fds s)) as [[]|]; reflexivity.
    + destruct (look k (fds s)) as [[]|]; auto.
    + destruct (look k (fds s)) as [[]|]; auto.
    + destruct (look k (fds s)) as [[]|]; auto.
Qed.

Lemma norebind_pre : forall a b, NoRebind (a ++ b) -> NoRebind a.
Proof.
  intros a b H x y e -> Hin. apply (H x (y ++ b) e); [rewrite <- app_assoc; reflexivity|].
  apply in_or_app. left. exact Hin.
Qed.

Lemma allbound_pre : forall a b, AllBound (a ++ b) -> AllBound a.
Proof. intros a b H e Hin. apply H. apply in_or_app. left. exact Hin. Qed.

Lemma inv_run : forall p l s o, run p l = (s, o) ->
  NoRebind o -> (p = Select -> AllBound o) -> Inv s o.
Proof.
  intros p l. induction l as [|i l IH] using rev_ind; intros s o Hr HN HA.
  - injection Hr as <- <-. exact inv_init.
  - rewrite run_snoc in Hr. destruct (run p l) as [s1 o1].
    destruct (step p s1 i) as [s2 o2] eqn:Hst. injection Hr as <- <-.
    apply (inv_step p s1 o1 i); try assumption.
    apply IH; [reflexivity|exact (norebind_pre _ _ HN)|].
    intros Hp. exact (allbound_pre _ _ (HA Hp)).
Qed.

Lemma step_dead : forall p s i s1 o1, live s = false -> step p s i = (s1, o1) -> live s1 = false.
Proof.
  intros p s i s1 o1 Hl. destruct i; cbn [step]; try rewrite Hl; intros [= <- <-]; try assumption.
  - destruct (look k (fds s)); assumption.
  - destruct (look k (fds s)) as [[]|]; assumption.
Qed.

Lemma destroyed_dead : forall p l s o, run p l = (s, o) -> In Destroy l -> live s = false.
Proof.
  intros p l. induction l as [|i l IH] using rev_ind; intros s o Hr Hin; [destruct Hin|].
  rewrite run_snoc in Hr. destruct (run p l) as [s1 o1].
  destruct (step p s1 i) as [s2 o2] eqn:Hst. injection Hr as <- <-.
  apply in_app_or in Hin. destruct Hin as [Hin|[-> |[]]].
  - exact (step_dead _ _ _ _ _ (IH _ _ eq_refl Hin) Hst).
  - cbn [step] in Hst. destruct (live s1) eqn:Hl; [|injection Hst as <- <-; exact Hl].
    unfold do_destroy in Hst. destruct (close_sk (do_abort s1)). injection Hst as <- <-. reflexivity.
Qed.

(** ** Descriptors *)

(** On libevent, as long as the device is not started again after its
    socket was bound: nothing foreign is closed or read, at most one
    descriptor is open, and once the socket is destroyed every descriptor
    opened has been closed exactly as often as it was opened.  With the
    select module this needs in addition that no bind fails. *)
Theorem C92_descriptors_partial : forall p l,
  NoRebind (trace p l) -> (p = Select -> AllBound (trace p l)) ->
  Harmless (trace p l) /\ OneOpen (trace p l) /\
  (In Destroy l -> Balanced (trace p l)).
Proof.
  intros p l HN HA. unfold trace in *. destruct (run p l) as [s o] eqn:Hr. cbn [snd] in *.
  assert (HI := inv_run p l s o Hr HN HA).
  split; [exact (I_harm _ _ HI)|]. split.
  - intros k. rewrite (I_bal _ _ HI). unfold held. destruct (look k (fds s)) as [[]|]; lia.
  - intros Hin. assert (Hl := destroyed_dead _ _ _ _ Hr Hin).
    destruct (I_dead _ _ HI Hl) as (Hsk & _). intros k. rewrite (I_bal _ _ HI). unfold held.
    destruct (look k (fds s)) as [[]|] eqn:E; try apply Nat.add_0_r.
    apply (I_own _ _ HI) in E. congruence.
Qed.
Print Assumptions C92_descriptors_partial.

(** The hypotheses are met by a socket which is bound at its second
    attempt, receives a packet while the rest of the process opens and
    closes descriptors, and is destroyed. *)
Definition good6 (k : nat) := BI (Some k) None true BOk true.
Definition used6 (k : nat) := BI (Some k) None true BInUse true.
Definition only4 (k : nat) := BI None (Some k) true BOk true.

Definition life : list op :=
  [FOpen 3; Bind (used6 4); FOpen 4; Bind (good6 5); StartRecv; Readable;
   Dispatch true (RPacket 7); Readable; FClose 3; Dispatch false (RPacket 8);
   Readable; Dispatch true (RPacket 9); Destroy].

Example C92_ex_life :
  trace Libevent life =
    [Opened 4; Closed 4; Bound EInUse; Opened 5; Bound EOk; Deliver 7; Dropped 8; Deliver 9; Closed 5].
Proof. vm_compute. reflexivity. Qed.

Example C92_ex_life_hyp : NoRebind (trace Libevent life).
Proof.
  rewrite C92_ex_life. intros a b e H Hin.
  do 9 (destruct a as [|? a];
        [try discriminate H; injection H as <-; cbn in Hin; intuition discriminate|];
        injection H as _ H).
  destruct a; discriminate.
Qed.

(** Starting the device again after a start which failed later on opens the
    socket a second time; the first descriptor is never closed, on either
    platform. *)
Theorem C92_rebind_refuted : forall p,
  exists l, In Destroy l /\ ~ Balanced (trace p l) /\
            AllBound (trace p l) /\ Harmless (trace p l).
Proof.
  intros p. exists [Bind (good6 3); Bind (good6 4); Destroy].
  assert (Ht : trace p [Bind (good6 3); Bind (good6 4); Destroy] =
               [Opened 3; Bound EOk; Opened 4; Bound EOk; Closed 4]) by (destruct p; vm_compute; reflexivity).
  rewrite Ht. split; [right; right; left; reflexivity|]. split.
  - intros H. specialize (H 3). vm_compute in H. discriminate.
  - split.
    + intros e [H|[H|[H|[H|[H|[]]]]]]; try discriminate; injection H as <-; auto.
    + apply harmless_b. reflexivity.
Qed.
Print Assumptions C92_rebind_refuted.

(** With the select module a bind which fails leaves the closed descriptor
    behind, and destroying the socket closes whatever the process opened
    under that number since. *)
Theorem C92_close_refuted : forall k,
  let l := [Bind (used6 k); FOpen k; Destroy] in
  NoRebind (trace Select l) /\ In (ClosedOther k) (trace Select l).
Proof.
  intros k l.
  assert (Ht : trace Select l = [Opened k; Closed k; Bound ECreation; ClosedOther k]).
  { unfold l, trace, run. cbn [runs step live init].
    unfold do_bind, bind_select. cbn [aborted init]. unfold create_any_select, used6.
    cbn [s6 s4 optok bres_in sys_socket look fds init].
    unfold bind_port_select, close_sk, sys_close, open_fd.
    cbn [sk set_sk set_fds fds look init bres_in]. rewrite Nat.eqb_refl.
    cbn [drop]. rewrite Nat.eqb_refl. cbn [set_bound fds set_fds set_sk look live init].
    unfold do_destroy, close_sk, sys_close, do_abort, complete.
    cbn [set_aborted waiting sk fds set_bound set_fds set_sk init look]. rewrite Nat.eqb_refl. reflexivity. }
  rewrite Ht. split.
  - intros a b e H _.
    do 4 (destruct a as [|? a]; [discriminate|]; injection H as _ H).
    destruct a; discriminate.
  - right. right. right. left. reflexivity.
Qed.
Print Assumptions C92_close_refuted.

(** ** What leaves the socket alive *)

(** Unchanged life and abort flags, and loop state. *)
Definition Keeps (s s' : st) : Prop :=
  live s' = live s /\ aborted s' = aborted s /\ waiting s' = waiting s /\ posted s' = posted s.

Lemma keeps_close : forall k s s1 o, sys_close k s = (s1, o) -> Keeps s s1 /\ sk s1 = sk s.
Proof.
  intros k s s1 o. unfold sys_close. destruct (look k (fds s)) as [[]|]; intros [= <- _]; repeat split.
Qed.

Lemma keeps_close_sk : forall s s1 o, close_sk s = (s1, o) -> Keeps s s1 /\ sk s1 = sk s.
Proof.
  intros s s1 o. unfold close_sk. destruct (sk s) eqn:E; [|intros [= <- _]; repeat split; assumption].
  rewrite <- E. apply keeps_close.
Qed.

Lemma keeps_create : forall p b s s1 o e,
  match p with Select => create_any_select b s | Libevent => create_any_libevent b s end = (s1, o, e) ->
  Keeps s s1.
Proof.
  intros p b s s1 o e. destruct p.
  - unfold create_any_select. destruct (sys_socket (s6 b) (fds s)).
    + destruct (optok b); [intros [= <- _ _]; repeat split|].
      destruct (close_sk (open_fd n s)) as [s2 o2] eqn:E. apply keeps_close_sk in E.
      intros [= <- _ _]. apply E.
    + destruct (sys_socket (s4 b) (fds s)), (sk s); intros [= <- _ _]; repeat split.
  - unfold create_any_libevent. destruct (sys_socket (s6 b) (fds s)).
    + destruct (optok b); [intros [= <- _ _]; repeat split|].
      destruct (sys_close n (open_fd n s)) as [s2 o2] eqn:E. apply keeps_close in E.
      intros [= <- _ _]. apply E.
    + destruct (sys_socket (s4 b) (fds s)); intros [= <- _ _]; repeat split.
Qed.

Lemma keeps_trans : forall a b c, Keeps a b -> Keeps b c -> Keeps a c.
Proof. unfold Keeps. intros a b c (A & B & C & D) (E & F & G & H). repeat split; congruence. Qed.

Lemma keeps_bind : forall p b s s1 o, do_bind p b s = (s1, o) -> Keeps s s1.
Proof.
  intros p b s s1 o. unfold do_bind.
  assert (H : forall s2 o2 e, match p with Select => bind_select b s | Libevent => bind_libevent b s end = (s2, o2, e) -> Keeps s s2).
  { intros s2 o2 e. destruct p.
    - unfold bind_select. destruct (aborted s); [intros [= <- _ _]; repeat split|].
      assert (HK := keeps_create Select b s).
      destruct (create_any_select b s) as [[s3 o3] e3]. specialize (HK _ _ _ eq_refl).
      destruct e3; try (intros [= <- _ _]; exact HK).
      destruct (bind_port_select b s3); try (intros [= <- _ _]; exact HK);
        (destruct (close_sk s3) as [s4 o4] eqn:E; apply keeps_close_sk in E;
         intros [= <- _ _]; exact (keeps_trans _ _ _ HK (proj1 E))).
    - unfold bind_libevent. destruct (aborted s); [intros [= <- _ _]; repeat split|].
      assert (HK := keeps_create Libevent b s).
      destruct (create_any_libevent b s) as [[s3 o3] e3]. specialize (HK _ _ _ eq_refl).
      destruct e3; try (intros [= <- _ _]; exact HK).
      destruct (match bind_port_libevent b with EOk => if evok b then EOk else ENoMem | e0 => e0 end);
        try (intros [= <- _ _]; exact HK);
        (destruct (close_sk s3) as [s4 o4] eqn:E; apply keeps_close_sk in E;
         intros [= <- _ _]; apply (keeps_trans _ _ _ HK); exact (proj1 E)). }
  destruct (match p with Select => bind_select b s | Libevent => bind_libevent b s end) as [[s2 o2] e].
  intros [= <- _]. exact (H _ _ _ eq_refl).
Qed.

Lemma alive_step : forall p s i s1 o1, i <> Abort -> i <> Destroy ->
  step p s i = (s1, o1) -> live s1 = live s /\ aborted s1 = aborted s.
Proof.
  intros p s i s1 o1 Ha Hd. destruct i; cbn [step]; try contradiction.
  - destruct (live s) eqn:Hl; [|intros [= <- _]; auto].
    intros H. apply keeps_bind in H. destruct H as (A & B & _). split; congruence.
  - destruct (live s) eqn:Hl; intros [= <- _]; auto.
    destruct (bound s); [|auto]. unfold recv_wait.
    destruct (aborted s) eqn:E, (waiting s); cbn; auto.
  - destruct (live s) eqn:Hl; intros [= <- _]; auto.
    unfold do_readable, complete. destruct p, (sk s), (waiting s); cbn; auto.
  - destruct (live s) eqn:Hl; [|intros [= <- _]; auto].
    unfold do_dispatch. destruct (posted s) as [[]|]; try (intros [= <- _]; cbn; auto).
    + destruct (sys_recv (set_posted s None) r) as [r1 o].
      assert (HW : live (recv_wait (set_posted s None)) = true /\ aborted (recv_wait (set_posted s None)) = aborted s).
      { unfold recv_wait. cbn [set_posted aborted waiting]. destruct (aborted s) eqn:E, (waiting s); cbn; auto. }
      destruct mem; [destruct r1|]; intros [= <- _]; auto.
  - intros [= <- _]. destruct (look k (fds s)); auto.
  - intros [= <- _]. destruct (look k (fds s)) as [[]|]; auto.
Qed.

Lemma alive_runs : forall p l s s1 o1, ~ In Abort l -> ~ In Destroy l ->
  runs p s l = (s1, o1) -> live s1 = live s /\ aborted s1 = aborted s.
Proof.
  intros p. induction l as [|i l IH]; intros s s1 o1 Ha Hd; cbn [runs].
  - intros [= <- _]. auto.
  - destruct (step p s i) as [s2 o2] eqn:Hst. destruct (runs p s2 l) as [s3 o3] eqn:Hr.
    intros [= <- _].
    destruct (alive_step _ _ _ _ _ (fun H => Ha (or_introl H)) (fun H => Hd (or_introl H)) Hst) as [A B].
    destruct (IH _ _ _ (fun H => Ha (or_intror H)) (fun H => Hd (or_intror H)) Hr) as [C D].
    split; congruence.
Qed.

(** ** Answers of bind *)

(** On libevent a host without IPv6 gets an IPv4 socket. *)
Theorem C92_ipv4_partial : forall l k b,
  ~ In Abort l -> ~ In Destroy l ->
  s6 b = None -> s4 b = Some k -> bres_in b = BOk -> evok b = true ->
  look k (fds (fst (run Libevent l))) = None ->
  trace Libevent (l ++ [Bind b]) = trace Libevent l ++ [Opened k; Bound EOk].
Proof.
  intros l k b Ha Hd H6 H4 Hb He Hk. unfold trace. rewrite run_snoc.
  destruct (run Libevent l) as [s o] eqn:Hr. cbn [fst snd] in *.
  destruct (alive_runs _ _ _ _ _ Ha Hd Hr) as [Hl Hab]. cbn in Hl, Hab.
  cbn [step]. rewrite Hl. unfold do_bind, bind_libevent. rewrite Hab.
  unfold create_any_libevent. rewrite H6, H4. cbn [sys_socket]. rewrite Hk.
  unfold bind_port_libevent. rewrite Hb, He. reflexivity.
Qed.
Print Assumptions C92_ipv4_partial.

Example C92_ex_ipv4 :
  trace Libevent [FOpen 3; Bind (only4 4)] = [Opened 4; Bound EOk].
Proof. vm_compute. reflexivity. Qed.

(** With the select module the same host gets an error, whichever
    descriptor the IPv4 socket has, and the descriptor is leaked. *)
Theorem C92_ipv4_refuted : forall k b,
  s6 b = None -> s4 b = Some k ->
  trace Select [Bind b; Destroy] = [Opened k; Bound ECreation] /\
  ~ Balanced (trace Select [Bind b; Destroy]).
Proof.
  intros k b H6 H4.
  assert (Ht : trace Select [Bind b; Destroy] = [Opened k; Bound ECreation]).
  { unfold trace, run. cbn [runs step live init]. unfold do_bind, bind_select. cbn [aborted init].
    unfold create_any_select. rewrite H6, H4. reflexivity. }
  rewrite Ht. split; [reflexivity|].
  intros H. specialize (H k). unfold count in H. cbn [filter is_opened is_closed] in H.
  rewrite Nat.eqb_refl in H. discriminate.
Qed.
Print Assumptions C92_ipv4_refuted.

(** On libevent a port which is in use is reported as such. *)
Theorem C92_in_use_partial : forall l k b,
  ~ In Abort l -> ~ In Destroy l ->
  s6 b = Some k -> optok b = true -> bres_in b = BInUse ->
  look k (fds (fst (run Libevent l))) = None ->
  trace Libevent (l ++ [Bind b]) = trace Libevent l ++ [Opened k; Closed k; Bound EInUse].
Proof.
  intros l k b Ha Hd H6 Ho Hb Hk. unfold trace. rewrite run_snoc.
  destruct (run Libevent l) as [s o] eqn:Hr. cbn [fst snd] in *.
  destruct (alive_runs _ _ _ _ _ Ha Hd Hr) as [Hl Hab]. cbn in Hl, Hab.
  cbn [step]. rewrite Hl. unfold do_bind, bind_libevent. rewrite Hab.
  unfold create_any_libevent. rewrite H6. cbn [sys_socket]. rewrite Hk, Ho.
  unfold bind_port_libevent. rewrite Hb.
  unfold close_sk, sys_close, open_fd. cbn [sk set_sk fds set_fds look]. rewrite Nat.eqb_refl. reflexivity.
Qed.
Print Assumptions C92_in_use_partial.

(** With the select module it never is. *)
Theorem C92_in_use_refuted : forall l, ~ In (Bound EInUse) (trace Select l).
Proof.
  assert (HC : forall k s s1 o x, sys_close k s = (s1, o) -> ~ In (Bound x) o).
  { intros k s s1 o x. unfold sys_close. destruct (look k (fds s)) as [[]|]; intros [= _ <-] H; cbn in H; intuition discriminate. }
  assert (HCS : forall s s1 o x, close_sk s = (s1, o) -> ~ In (Bound x) o).
  { intros s s1 o x. unfold close_sk. destruct (sk s); [apply HC|]. intros [= _ <-] []. }
  assert (HB : forall b s s1 o e, bind_select b s = (s1, o, e) -> e <> EInUse /\ (forall x, ~ In (Bound x) o)).
  { assert (HX : forall b s s1 o e, create_any_select b s = (s1, o, e) -> e <> EInUse /\ (forall x, ~ In (Bound x) o)).
    { intros b s s1 o e. unfold create_any_select.
      destruct (sys_socket (s6 b) (fds s)).
      - destruct (optok b); [intros [= _ <- <-]; split; [discriminate|intros x H; cbn in H; intuition discriminate]|].
        destruct (close_sk (open_fd n s)) as [s2 o2] eqn:E.
        intros [= _ <- <-]. split; [discriminate|]. intros x [H|H]; [discriminate|].
        exact (HCS _ _ _ _ E H).
      - destruct (sys_socket (s4 b) (fds s)), (sk s); intros [= _ <- <-];
          (split; [discriminate|intros x H; cbn in H; intuition discriminate]). }
    intros b s s1 o e. unfold bind_select.
    destruct (aborted s); [intros [= _ <- <-]; split; [discriminate|intros x []]|].
    destruct (create_any_select b s) as [[s2 o2] e2] eqn:E. apply HX in E. destruct E as [E1 E2].
    destruct e2; try (intros [= _ <- <-]; auto).
    assert (Hbp : bind_port_select b s2 = EOk \/ bind_port_select b s2 = ECreation).
    { unfold bind_port_select. destruct (sk s2); [destruct (bres_in b)|]; auto. }
    destruct Hbp as [-> | ->]; [intros [= _ <- <-]; auto|].
    destruct (close_sk s2) as [s3 o3] eqn:E3. intros [= _ <- <-].
    split; [discriminate|]. intros x H. apply in_app_or in H. destruct H as [H|H]; [exact (E2 x H)|].
    exact (HCS _ _ _ _ E3 H). }
  intros l. unfold trace. induction l as [|i l IH] using rev_ind; [intros []|].
  rewrite run_snoc. destruct (run Select l) as [s o]. cbn [snd] in IH.
  destruct (step Select s i) as [s1 o1] eqn:Hst. cbn [snd]. intros Hin.
  apply in_app_or in Hin. destruct Hin as [Hin|Hin]; [exact (IH Hin)|]. clear IH.
  destruct i; cbn [step] in Hst; try (destruct (live s); [|injection Hst as <- <-; destruct Hin]);
    try (injection Hst as <- <-; destruct Hin; fail).
  - unfold do_bind in Hst. destruct (bind_select b s) as [[s2 o2] e] eqn:E.
    apply HB in E. destruct E as [E1 E2]. injection Hst as <- <-.
    apply in_app_or in Hin. destruct Hin as [Hin|[H|[]]]; [exact (E2 _ Hin)|]. congruence.
  - unfold do_dispatch in Hst. destruct (posted s) as [[]|];
      try (injection Hst as <- <-; cbn in Hin; intuition discriminate).
    unfold sys_recv in Hst.
    destruct (sk (set_posted s None)) as [k|]; [destruct (look k (fds (set_posted s None))) as [[]|]|];
      destruct mem; try destruct r; injection Hst as <- <-; cbn in Hin; intuition discriminate.
  - unfold do_destroy in Hst. destruct (close_sk (do_abort s)) as [s2 o2] eqn:E.
    injection Hst as <- <-. exact (HCS _ _ _ _ E Hin).
Qed.
Print Assumptions C92_in_use_refuted.

Example C92_ex_in_use :
  trace Libevent [Bind (used6 4)] = [Opened 4; Closed 4; Bound EInUse] /\
  trace Select [Bind (used6 4)] = [Opened 4; Closed 4; Bound ECreation].
Proof. vm_compute. split; reflexivity. Qed.

(** ** Reception *)

Definition Good (s : st) : Prop :=
  bound s = true /\ exists k, sk s = Some k /\ look k (fds s) = Some Ours.

Lemma dispatch_frame : forall mem r s s1 o1,
  do_dispatch mem r s = (s1, o1) -> Same s s1 /\ forall e, ~ In (Bound e) o1.
Proof.
  intros mem r s s1 o1. unfold do_dispatch.
  assert (H2 := same_trans _ _ _ (same_posted None s) (same_wait (set_posted s None))).
  destruct (posted s) as [[]|];
    try (intros [= <- <-]; split; [first [apply same_refl|apply same_posted]|intros e H; cbn in H; intuition discriminate]).
  assert (HR : forall e, ~ In (Bound e) (snd (sys_recv (set_posted s None) r))).
  { intros e. unfold sys_recv. destruct (sk (set_posted s None)) as [k|]; [destruct (look k (fds (set_posted s None))) as [[]|]|];
      intros H; cbn in H; intuition discriminate. }
  destruct (sys_recv (set_posted s None) r) as [r1 o]. cbn [snd] in HR.
  destruct mem; [destruct r1|destruct r1]; intros [= <- <-];
    (split; [first [exact H2|apply same_posted]|]);
    intros e H; rewrite ?app_nil_r in H; try (exact (HR e H));
    apply in_app_or in H; (destruct H as [H|[H|[]]]; [exact (HR e H)|discriminate]).
Qed.

Lemma bind_good : forall p b s s1 o1,
  do_bind p b s = (s1, o1) ->
  (exists e, In (Bound e) o1) /\ (In (Bound EOk) o1 -> Good s1) /\ (bound s1 = true -> In (Bound EOk) o1).
Proof.
  intros p b s s1 o1. unfold do_bind.
  assert (HC : forall k s s1 o x, sys_close k s = (s1, o) -> ~ In (Bound x) o).
  { clear. intros k s s1 o x. unfold sys_close. destruct (look k (fds s)) as [[]|]; intros [= _ <-] H; cbn in H; intuition discriminate. }
  assert (HCS : forall s s1 o x, close_sk s = (s1, o) -> ~ In (Bound x) o).
  { intros s0 s2 o x. unfold close_sk. destruct (sk s0); [apply HC|]. intros [= _ <-] []. }
  assert (HB : forall s2 o2 e, match p with Select => bind_select b s | Libevent => bind_libevent b s end = (s2, o2, e) ->
    (forall x, ~ In (Bound x) o2) /\ (e = EOk -> exists k, sk s2 = Some k /\ look k (fds s2) = Some Ours)).
  { intros s2 o2 e. destruct p.
    - unfold bind_select. destruct (aborted s); [intros [= <- <- <-]; split; [intros x []|discriminate]|].
      assert (HX : forall s3 o3 e3, create_any_select b s = (s3, o3, e3) ->
        (forall x, ~ In (Bound x) o3) /\ (e3 = EOk -> sk s3 <> None -> exists k, sk s3 = Some k /\ look k (fds s3) = Some Ours)).
      { intros s3 o3 e3. unfold create_any_select.
        destruct (sys_socket (s6 b) (fds s)) as [k|].
        - destruct (optok b).
          + intros [= <- <- <-]. split; [intros x H; cbn in H; intuition discriminate|].
            intros _ _. exists k. cbn. rewrite Nat.eqb_refl. auto.
          + destruct (close_sk (open_fd k s)) as [s4 o4] eqn:E. intros [= <- <- <-].
            split; [intros x [H|H]; [discriminate|exact (HCS _ _ _ _ E H)]|discriminate].
        - destruct (sys_socket (s4 b) (fds s)) as [k|], (sk s); intros [= <- <- <-];
            (split; [intros x H; cbn in H; intuition discriminate|]); try discriminate.
          + intros _ _. exists k. cbn. rewrite Nat.eqb_refl. auto.
          + intros _ H. elim H. reflexivity. }
      destruct (create_any_select b s) as [[s3 o3] e3]. destruct (HX _ _ _ eq_refl) as [E2 E3].
      destruct e3; try (intros [= <- <- <-]; split; [exact E2|discriminate]).
      destruct (bind_port_select b s3) eqn:Ebp;
        try (destruct (close_sk s3) as [s4 o4] eqn:E4; intros [= <- <- <-];
             split; [intros x H; apply in_app_or in H; destruct H as [H|H]; [exact (E2 x H)|exact (HCS _ _ _ _ E4 H)]|discriminate]).
      intros [= <- <- <-]. split; [exact E2|]. intros _. apply (E3 eq_refl).
      intros Hn. unfold bind_port_select in Ebp. rewrite Hn in Ebp. discriminate.
    - unfold bind_libevent. destruct (aborted s); [intros [= <- <- <-]; split; [intros x []|discriminate]|].
      assert (HX : forall s3 o3 e3, create_any_libevent b s = (s3, o3, e3) ->
        (forall x, ~ In (Bound x) o3) /\ (e3 = EOk -> exists k, sk s3 = Some k /\ look k (fds s3) = Some Ours)).
      { intros s3 o3 e3. unfold create_any_libevent.
        destruct (sys_socket (s6 b) (fds s)) as [k|].
        - destruct (optok b).
          + intros [= <- <- <-]. split; [intros x H; cbn in H; intuition discriminate|].
            intros _. exists k. cbn. rewrite Nat.eqb_refl. auto.
          + destruct (sys_close k (open_fd k s)) as [s4 o4] eqn:E. intros [= <- <- <-].
            split; [intros x [H|H]; [discriminate|exact (HC _ _ _ _ _ E H)]|discriminate].
        - destruct (sys_socket (s4 b) (fds s)) as [k|]; intros [= <- <- <-];
            (split; [intros x H; cbn in H; intuition discriminate|]); try discriminate.
          intros _. exists k. cbn. rewrite Nat.eqb_refl. auto. }
      destruct (create_any_libevent b s) as [[s3 o3] e3]. destruct (HX _ _ _ eq_refl) as [E2 E3].
      destruct e3; try (intros [= <- <- <-]; split; [exact E2|discriminate]).
      destruct (match bind_port_libevent b with EOk => if evok b then EOk else ENoMem | e0 => e0 end);
        try (destruct (close_sk s3) as [s4 o4] eqn:E4; intros [= <- <- <-];
             split; [intros x H; apply in_app_or in H; destruct H as [H|H]; [exact (E2 x H)|exact (HCS _ _ _ _ E4 H)]|discriminate]).
      intros [= <- <- <-]. split; [exact E2|]. intros _. exact (E3 eq_refl). }
  destruct (match p with Select => bind_select b s | Libevent => bind_libevent b s end) as [[s2 o2] e].
  destruct (HB _ _ _ eq_refl) as [H1 H2]. intros [= <- <-].
  split; [exists e; apply in_or_app; right; left; reflexivity|]. split.
  - intros H. apply in_app_or in H. destruct H as [H|[H|[]]]; [elim (H1 _ H)|].
    injection H as ->. split; [reflexivity|]. exact (H2 eq_refl).
  - cbn [set_bound bound]. destruct e; try discriminate. intros _. apply in_or_app. right. left. reflexivity.
Qed.

Lemma good_same : forall s s1, Same s s1 -> Good s -> Good s1.
Proof.
  intros s s1 [A B _ D _] (Hb & k & E & F). split; [congruence|]. exists k. split; congruence.
Qed.

Lemma good_foreign : forall p s i s1 o1, (exists k, i = FOpen k \/ i = FClose k) ->
  step p s i = (s1, o1) -> o1 = [] /\ bound s1 = bound s /\ sk s1 = sk s /\
  (forall k, look k (fds s) = Some Ours -> look k (fds s1) = Some Ours) /\ Keeps s s1.
Proof.
  intros p s i s1 o1 (k & [-> | ->]); cbn [step]; intros [= <- <-]; (split; [reflexivity|]).
  - destruct (look k (fds s)) eqn:E; (split; [reflexivity|]; split; [reflexivity|]; split; [|repeat split]); auto.
    intros j Hj. cbn. destruct (Nat.eqb k j) eqn:Ej; [|exact Hj]. apply Nat.eqb_eq in Ej. congruence.
  - destruct (look k (fds s)) as [[]|] eqn:E; (split; [reflexivity|]; split; [reflexivity|]; split; [|repeat split]); auto.
    intros j Hj. cbn. rewrite look_drop_other; [exact Hj|]. congruence.
Qed.

(** A step which is neither bind nor destroy keeps a good socket good and
    answers no bind. *)
Lemma good_step : forall p s i s1 o1,
  i <> Destroy -> (forall b, i <> Bind b) -> step p s i = (s1, o1) ->
  (forall e, ~ In (Bound e) o1) /\ bound s1 = bound s /\ (Good s -> Good s1).
Proof.
  intros p s i s1 o1 Hd Hnb. destruct i; try contradiction; try (elim (Hnb b eq_refl));
    cbn [step].
  - destruct (live s); intros [= <- <-]; (split; [intros e []|]); auto.
    destruct (bound s) eqn:Hb; [|auto]. assert (HS := same_wait s).
    split; [rewrite (S_bound _ _ HS); exact Hb|]. exact (good_same _ _ HS).
  - destruct (live s); intros [= <- <-]; (split; [intros e []|]); auto.
    assert (HS := same_readable p s).
    split; [rewrite (S_bound _ _ HS); reflexivity|]. exact (good_same _ _ HS).
  - destruct (live s); [|intros [= <- <-]; split; [intros e []|]; auto].
    intros H. apply dispatch_frame in H. destruct H as [HS HB].
    split; [exact HB|]. split; [rewrite (S_bound _ _ HS); reflexivity|]. exact (good_same _ _ HS).
  - destruct (live s); intros [= <- <-]; (split; [intros e []|]); auto.
    assert (HS := same_complete EAborted (set_aborted s true)). fold (do_abort s) in HS.
    split; [rewrite (S_bound _ _ HS); reflexivity|].
    intros HG. apply (good_same _ _ HS). exact HG.
  - intros H. assert (HF := good_foreign p s (FOpen k) s1 o1 (ex_intro _ k (or_introl eq_refl)) H).
    destruct HF as (-> & Hb & Hs & Hf & _). split; [intros e []|]. split; [exact Hb|].
    intros (G1 & j & G2 & G3). split; [congruence|]. exists j. split; [congruence|auto].
  - intros H. assert (HF := good_foreign p s (FClose k) s1 o1 (ex_intro _ k (or_intror eq_refl)) H).
    destruct HF as (-> & Hb & Hs & Hf & _). split; [intros e []|]. split; [exact Hb|].
    intros (G1 & j & G2 & G3). split; [congruence|]. exists j. split; [congruence|auto].
Qed.

Lemma in_mark : forall o, In (Bound EOk) o -> exists a b, o = a ++ Bound EOk :: b.
Proof. intros o H. apply in_split in H. exact H. Qed.

(** A bound socket stays good until it is destroyed. *)
Lemma good_runs : forall p l s o s1 o1,
  live s = true -> Good s -> In (Bound EOk) o -> ~ In Destroy l -> ~ In Abort l ->
  runs p s l = (s1, o1) -> NoRebind (o ++ o1) ->
  Good s1 /\ forall b, ~ In (Bind b) l.
Proof.
  intros p. induction l as [|i l IH]; intros s o s1 o1 Hl HG HB Hd Ha Hr HN; cbn [runs] in Hr.
  - injection Hr as <- <-. split; [exact HG|intros b []].
  - destruct (step p s i) as [s2 o2] eqn:Hst. destruct (runs p s2 l) as [s3 o3] eqn:Hr3.
    injection Hr as <- <-. rewrite app_assoc in HN.
    assert (Hi : forall b, i <> Bind b).
    { intros b ->. cbn [step] in Hst. rewrite Hl in Hst. apply bind_good in Hst.
      destruct Hst as [(e & He) _]. apply in_mark in HB. destruct HB as (x & y & HB).
      exact (norebind_last _ _ _ _ e HB (norebind_pre _ _ HN) He). }
    destruct (good_step p s i s2 o2) as (_ & _ & HG2); try assumption.
    { intros ->. apply Hd. left. reflexivity. }
    destruct (alive_step p s i s2 o2) as [Hl2 _]; try assumption.
    { intros ->. apply Ha. left. reflexivity. }
    { intros ->. apply Hd. left. reflexivity. }
    destruct (IH s2 (o ++ o2) s3 o3) as [A B]; auto.
    + congruence.
    + apply in_or_app. left. exact HB.
    + intros H. apply Hd. right. exact H.
    + intros H. apply Ha. right. exact H.
    + split; [exact A|]. intros b [H|H]; [exact (Hi b H)|exact (B b H)].
Qed.

Lemma good_run : forall p l s o,
  run p l = (s, o) -> ~ In Destroy l -> ~ In Abort l -> NoRebind o ->
  (In (Bound EOk) o -> Good s) /\ (bound s = true -> In (Bound EOk) o).
Proof.
  intros p l. induction l as [|i l IH] using rev_ind; intros s o Hr Hd Ha HN.
  - injection Hr as <- <-. split; [intros []|discriminate].
  - rewrite run_snoc in Hr. destruct (run p l) as [s1 o1] eqn:Hr1.
    destruct (step p s1 i) as [s2 o2] eqn:Hst. injection Hr as <- <-.
    assert (Hd1 : ~ In Destroy l) by (intros H; apply Hd; apply in_or_app; left; exact H).
    assert (Ha1 : ~ In Abort l) by (intros H; apply Ha; apply in_or_app; left; exact H).
    destruct (alive_runs _ _ _ _ _ Ha1 Hd1 Hr1) as [Hl _]. cbn in Hl.
    destruct (IH _ _ eq_refl Hd1 Ha1 (norebind_pre _ _ HN)) as [IHa IHb].
    assert (Hdec : (exists b, i = Bind b) \/ forall b, i <> Bind b).
    { destruct i; try (right; discriminate). left. eexists. reflexivity. }
    destruct Hdec as [(b & ->)|Hnb].
    + cbn [step] in Hst. rewrite Hl in Hst. apply bind_good in Hst.
      destruct Hst as [(e & He) [H1 H2]].
      assert (Hno : ~ In (Bound EOk) o1).
      { intros HB. apply in_mark in HB. destruct HB as (x & y & HB).
        exact (norebind_last _ _ _ _ e HB HN He). }
      split.
      * intros H. apply in_app_or in H. destruct H as [H|H]; [contradiction|auto].
      * intros H. apply in_or_app. right. auto.
    + destruct (good_step p s1 i s2 o2) as (HB & Hb & HG); try assumption.
      { intros ->. apply Hd. apply in_or_app. right. left. reflexivity. }
      split.
      * intros H. apply in_app_or in H. destruct H as [H|H]; [|elim (HB _ H)]. auto.
      * intros H. apply in_or_app. left. apply IHb. congruence.
Qed.

Definition Listening (s : st) : Prop := waiting s = true \/ posted s = Some EOk.

Lemma wait_listens : forall s, aborted s = false -> waiting (recv_wait s) = true.
Proof.
  intros s H. unfold recv_wait. rewrite H. destruct (waiting s) eqn:E; [exact E|reflexivity].
Qed.

Lemma listening_step : forall p s i s1 o1,
  live s = true -> aborted s = false -> Listening s ->
  i <> Abort -> i <> Destroy -> (forall b, i <> Bind b) ->
  step p s i = (s1, o1) -> ~ In Failure o1 -> Listening s1.
Proof.
  intros p s i s1 o1 Hl Ha HL Hna Hnd Hnb Hst HF.
  destruct i; try contradiction; try (elim (Hnb b eq_refl)); cbn [step] in Hst; try rewrite Hl in Hst.
  - injection Hst as <- <-. destruct (bound s); [|exact HL]. left. apply wait_listens. exact Ha.
  - injection Hst as <- <-. unfold do_readable, complete.
    destruct p, (sk s); try exact HL; (destruct (waiting s) eqn:W; [right; reflexivity|]); destruct HL as [H|H]; try congruence; right; exact H.
  - unfold do_dispatch in Hst. destruct (posted s) as [[]|] eqn:Hp.
    + destruct (sys_recv (set_posted s None) r) as [r1 o].
      assert (HW : waiting (recv_wait (set_posted s None)) = true) by (apply wait_listens; exact Ha).
      destruct mem; [destruct r1|]; injection Hst as <- <-; try (left; exact HW).
      elim HF. apply in_or_app. right. left. reflexivity.
    + injection Hst as <- <-. elim HF. left. reflexivity.
    + injection Hst as <- <-. elim HF. left. reflexivity.
    + injection Hst as <- <-. elim HF. left. reflexivity.
    + injection Hst as <- <-. elim HF. left. reflexivity.
    + injection Hst as <- <-. elim HF. left. reflexivity.
    + injection Hst as <- <-. exact HL.
  - injection Hst as <- <-. destruct (look k (fds s)); exact HL.
  - injection Hst as <- <-. destruct (look k (fds s)) as [[]|]; exact HL.
Qed.

Lemma listening_runs : forall p l s s1 o1,
  live s = true -> aborted s = false -> Listening s ->
  ~ In Abort l -> ~ In Destroy l -> (forall b, ~ In (Bind b) l) ->
  runs p s l = (s1, o1) -> ~ In Failure o1 -> Listening s1.
Proof.
  intros p. induction l as [|i l IH]; intros s s1 o1 Hl Ha HL Hna Hnd Hnb Hr HF; cbn [runs] in Hr.
  - injection Hr as <- <-. exact HL.
  - destruct (step p s i) as [s2 o2] eqn:Hst. destruct (runs p s2 l) as [s3 o3] eqn:Hr3.
    injection Hr as <- <-.
    assert (Hi1 : i <> Abort) by (intros ->; apply Hna; left; reflexivity).
    assert (Hi2 : i <> Destroy) by (intros ->; apply Hnd; left; reflexivity).
    destruct (alive_step p s i s2 o2 Hi1 Hi2 Hst) as [Hl2 Ha2].
    apply (IH s2 s3 o3); try congruence.
    + apply (listening_step p s i s2 o2); try assumption.
      * intros b ->. apply (Hnb b). left. reflexivity.
      * intros H. apply HF. apply in_or_app. left. exact H.
    + intros H. apply Hna. right. exact H.
    + intros H. apply Hnd. right. exact H.
    + intros b H. apply (Hnb b). right. exact H.
    + intros H. apply HF. apply in_or_app. right. exact H.
Qed.

(** Once the socket is bound and reception is started, reception goes on:
    after any further history, with allocations failing, reads finding
    nothing and foreign descriptors coming and going, the next packet which
    makes the socket readable is delivered, unless the socket was aborted or
    destroyed or a platform failure was reported to the application. *)
Theorem C92_reception : forall p a b q,
  In (Bound EOk) (trace p a) ->
  ~ In Abort (a ++ b) -> ~ In Destroy (a ++ b) ->
  NoRebind (trace p (a ++ StartRecv :: b)) ->
  ~ In Failure (trace p (a ++ StartRecv :: b)) ->
  trace p (a ++ StartRecv :: b ++ [Readable; Dispatch true (RPacket q)]) =
  trace p (a ++ StartRecv :: b) ++ [Deliver q].
Proof.
  intros p a b q HB Hna Hnd HN HF.
  replace (a ++ StartRecv :: b ++ [Readable; Dispatch true (RPacket q)])
    with ((a ++ StartRecv :: b) ++ [Readable; Dispatch true (RPacket q)])
    by (rewrite <- app_assoc; reflexivity).
  unfold trace in *. unfold run in *. rewrite !runs_app in *.
  destruct (runs p init a) as [s1 o1] eqn:Hr1. cbn [snd] in HB.
  destruct (runs p s1 (StartRecv :: b)) as [s2 o2] eqn:Hr2. cbn [snd] in *.
  assert (Hna1 : ~ In Abort a) by (intros H; apply Hna; apply in_or_app; left; exact H).
  assert (Hnd1 : ~ In Destroy a) by (intros H; apply Hnd; apply in_or_app; left; exact H).
  assert (Hna2 : ~ In Abort (StartRecv :: b)) by (intros [H|H]; [discriminate|]; apply Hna; apply in_or_app; right; exact H).
  assert (Hnd2 : ~ In Destroy (StartRecv :: b)) by (intros [H|H]; [discriminate|]; apply Hnd; apply in_or_app; right; exact H).
  destruct (alive_runs _ _ _ _ _ Hna1 Hnd1 Hr1) as [Hl1 Ha1]. cbn in Hl1, Ha1.
  destruct (good_run p a s1 o1 Hr1 Hnd1 Hna1 (norebind_pre _ _ HN)) as [HG1 _]. specialize (HG1 HB).
  destruct (good_runs p _ s1 o1 s2 o2 Hl1 HG1 HB Hnd2 Hna2 Hr2 HN) as [HG2 Hnb].
  destruct (alive_runs _ _ _ _ _ Hna2 Hnd2 Hr2) as [Hl2 Ha2]. rewrite Hl1 in Hl2. rewrite Ha1 in Ha2.
  assert (HL : Listening s2).
  { cbn [runs step] in Hr2. rewrite Hl1 in Hr2. destruct HG1 as [Hb1 _]. rewrite Hb1 in Hr2.
    destruct (runs p (recv_wait s1) b) as [s3 o3] eqn:Hr3. injection Hr2 as <- <-.
    assert (HS := same_wait s1).
    apply (listening_runs p b (recv_wait s1) s3 o3); try assumption.
    - rewrite (S_live _ _ HS). exact Hl1.
    - unfold recv_wait. rewrite Ha1. destruct (waiting s1); exact Ha1.
    - left. apply wait_listens. exact Ha1.
    - intros H. apply Hna2. right. exact H.
    - intros H. apply Hnd2. right. exact H.
    - intros x H. apply (Hnb x). right. exact H.
    - intros H. apply HF. apply in_or_app. right. exact H. }
  destruct HG2 as (_ & k & Hsk & Hk).
  cbn [runs step]. rewrite Hl2.
  assert (HP : posted (do_readable p s2) = Some EOk /\ Same s2 (do_readable p s2)).
  { split; [|apply same_readable]. unfold do_readable. rewrite Hsk.
    replace (match p with Select => complete EOk s2 | Libevent => complete EOk s2 end)
      with (complete EOk s2) by (destruct p; reflexivity).
    unfold complete. destruct (waiting s2) eqn:W; [reflexivity|].
    destruct HL as [H|H]; [congruence|exact H]. }
  destruct HP as [HP [HA HS HV _ _]]. rewrite HV, Hl2. unfold do_dispatch. rewrite HP.
  unfold sys_recv. cbn [set_posted sk fds]. rewrite HS, Hsk, HA, Hk. reflexivity.
Qed.
Print Assumptions C92_reception.

Example C92_ex_reception :
  let a := [Bind (good6 5)] in
  let b := [Readable; Dispatch false (RPacket 1); Readable; FOpen 6; Dispatch true RAgain] in
  trace Select (a ++ StartRecv :: b ++ [Readable; Dispatch true (RPacket 2)]) =
  [Opened 5; Bound EOk; Dropped 1; Deliver 2].
Proof. vm_compute. reflexivity. Qed.

(** Packets are delivered in the order in which they are read, none twice
    and none which was not read. *)
Lemma sub_app : forall {A} (a b c d : list A), Sub a b -> Sub c d -> Sub (a ++ c) (b ++ d).
Proof.
  intros A a b c d H1 H2. induction H1; cbn [app]; [exact H2|apply Sub_skip; assumption|apply Sub_take; assumption].
Qed.

Lemma sub_none : forall {A} (b : list A), Sub [] b.
Proof. induction b; [apply Sub_nil|apply Sub_skip; assumption]. Qed.

Lemma delivered_app : forall a b, delivered (a ++ b) = delivered a ++ delivered b.
Proof. intros. unfold delivered. apply flat_map_app. Qed.

Lemma delivered_close_sk : forall s s1 o, close_sk s = (s1, o) -> delivered o = [].
Proof.
  intros s s1 o. unfold close_sk, sys_close.
  destruct (sk s) as [k|]; [destruct (look k (fds s)) as [[]|]|]; intros [= _ <-]; reflexivity.
Qed.

Lemma delivered_bind : forall p b s s1 o, do_bind p b s = (s1, o) -> delivered o = [].
Proof.
  intros p b s s1 o. unfold do_bind.
  assert (HC : forall k s s1 o, sys_close k s = (s1, o) -> delivered o = []).
  { clear. intros k s s1 o. unfold sys_close. destruct (look k (fds s)) as [[]|]; intros [= _ <-]; reflexivity. }
  assert (H : forall s2 o2 e, match p with Select => bind_select b s | Libevent => bind_libevent b s end = (s2, o2, e) -> delivered o2 = []).
  { intros s2 o2 e. destruct p.
    - unfold bind_select. destruct (aborted s); [intros [= _ <- _]; reflexivity|].
      assert (HX : forall s3 o3 e3, create_any_select b s = (s3, o3, e3) -> delivered o3 = []).
      { intros s3 o3 e3. unfold create_any_select. destruct (sys_socket (s6 b) (fds s)) as [k|].
        - destruct (optok b); [intros [= _ <- _]; reflexivity|].
          destruct (close_sk (open_fd k s)) as [s4 o4] eqn:E. apply delivered_close_sk in E.
          intros [= _ <- _]. exact E.
        - destruct (sys_socket (s4 b) (fds s)), (sk s); intros [= _ <- _]; reflexivity. }
      destruct (create_any_select b s) as [[s3 o3] e3]. specialize (HX _ _ _ eq_refl).
      destruct e3; try (intros [= _ <- _]; exact HX).
      destruct (bind_port_select b s3); try (intros [= _ <- _]; exact HX);
        (destruct (close_sk s3) as [s4 o4] eqn:E; apply delivered_close_sk in E;
         intros [= _ <- _]; rewrite delivered_app, HX, E; reflexivity).
    - unfold bind_libevent. destruct (aborted s); [intros [= _ <- _]; reflexivity|].
      assert (HX : forall s3 o3 e3, create_any_libevent b s = (s3, o3, e3) -> delivered o3 = []).
      { intros s3 o3 e3. unfold create_any_libevent. destruct (sys_socket (s6 b) (fds s)) as [k|].
        - destruct (optok b); [intros [= _ <- _]; reflexivity|].
          destruct (sys_close k (open_fd k s)) as [s4 o4] eqn:E. apply HC in E.
          intros [= _ <- _]. exact E.
        - destruct (sys_socket (s4 b) (fds s)); intros [= _ <- _]; reflexivity. }
      destruct (create_any_libevent b s) as [[s3 o3] e3]. specialize (HX _ _ _ eq_refl).
      destruct e3; try (intros [= _ <- _]; exact HX).
      destruct (match bind_port_libevent b with EOk => if evok b then EOk else ENoMem | e0 => e0 end);
        try (intros [= _ <- _]; exact HX);
        (destruct (close_sk s3) as [s4 o4] eqn:E; apply delivered_close_sk in E;
         intros [= _ <- _]; rewrite delivered_app, HX, E; reflexivity). }
  destruct (match p with Select => bind_select b s | Libevent => bind_libevent b s end) as [[s2 o2] e].
  intros [= _ <-]. rewrite delivered_app, (H _ _ _ eq_refl). reflexivity.
Qed.

Theorem C92_order : forall p l, Sub (delivered (trace p l)) (arrived l).
Proof.
  intros p l. unfold trace. induction l as [|i l IH] using rev_ind; [apply Sub_nil|].
  rewrite run_snoc. destruct (run p l) as [s o]. cbn [snd] in IH.
  destruct (step p s i) as [s1 o1] eqn:Hst. cbn [snd].
  rewrite delivered_app. unfold arrived. rewrite flat_map_app. apply sub_app; [exact IH|]. clear IH.
  destruct i; cbn [step] in Hst;
    try (destruct (live s); [|injection Hst as <- <-; apply sub_none]);
    try (injection Hst as <- <-; apply sub_none).
  - rewrite (delivered_bind _ _ _ _ _ Hst). apply sub_none.
  - unfold do_dispatch in Hst. destruct (posted s) as [[]|];
      try (injection Hst as <- <-; apply sub_none).
    unfold sys_recv in Hst.
    destruct (sk (set_posted s None)) as [k|]; [destruct (look k (fds (set_posted s None))) as [[]|]|];
      destruct mem; try destruct r; injection Hst as <- <-;
      first [apply sub_none | apply Sub_take; apply Sub_nil].
  - unfold do_destroy in Hst. destruct (close_sk (do_abort s)) as [s2 o2] eqn:E.
    injection Hst as <- <-. rewrite (delivered_close_sk _ _ _ E). apply sub_none.
Qed.
Print Assumptions C92_order.

Example C92_ex_order : delivered (trace Libevent life) = [7; 9] /\ arrived life = [7; 9].
Proof. vm_compute. split; reflexivity. Qed.

(** ** Reported failures *)

Record FI (s : st) (o : list out) (n : nat) : Prop := mkFI {
  F_ab : live s = true -> aborted s = false;
  F_post : posted s = None \/ (posted s = Some EOk /\ waiting s = false);
  F_dead : live s = false -> posted s = None;
  F_bound : live s = true -> bound s = true -> Good s /\ In (Bound EOk) o;
  F_busy : live s = true -> waiting s = true \/ posted s <> None -> bound s = true /\ 1 <= n }.

Definition one_start (i : op) : nat := match i with StartRecv => 1 | _ => 0 end.

Lemma fi_step : forall p s o n i s1 o1,
  FI s o n -> step p s i = (s1, o1) -> NoRebind (o ++ o1) -> n + one_start i <= 1 ->
  i <> Abort -> i <> Dispatch true RErr ->
  FI s1 (o ++ o1) (n + one_start i) /\ ~ In Failure o1.
Proof.
  intros p s o n i s1 o1 HI Hst HN Hn Hna Hnr.
  destruct (live s) eqn:Hl.
  2: { assert (Hd := step_dead _ _ _ _ _ Hl Hst).
       assert (Hq : posted s1 = posted s /\ o1 = [] /\ waiting s1 = waiting s).
       { destruct i; cbn [step] in Hst; try rewrite Hl in Hst; injection Hst as <- <-; auto.
         - destruct (look k (fds s)); auto.
         - destruct (look k (fds s)) as [[]|]; auto. }
       destruct Hq as (Hp & -> & Hw). split; [|intros []].
       constructor; try congruence.
       - rewrite Hp, Hw. apply (F_post _ _ _ HI).
       - intros _. rewrite Hp. apply (F_dead _ _ _ HI Hl). }
  assert (HG : forall s2 o2, Good s2 /\ In (Bound EOk) o -> Good s2 /\ In (Bound EOk) (o ++ o2)).
  { intros s2 o2 [A B]. split; [exact A|]. apply in_or_app. left. exact B. }
  assert (Hab := F_ab _ _ _ HI Hl). assert (Hpost := F_post _ _ _ HI).
  assert (Hbd := F_bound _ _ _ HI Hl). assert (Hbusy := F_busy _ _ _ HI Hl).
  assert (Hdec : (exists b, i = Bind b) \/ i = Destroy \/ (i <> Destroy /\ forall b, i <> Bind b)).
  { destruct i; try (right; right; split; discriminate); [left; eexists; reflexivity|right; left; reflexivity]. }
  destruct Hdec as [(b & ->)|[-> |[Hnd Hnb]]].
  - cbn [step] in Hst. rewrite Hl in Hst. assert (HK := keeps_bind _ _ _ _ _ Hst).
    assert (HF : ~ In Failure o1).
    { assert (HX : forall k s s1 o, sys_close k s = (s1, o) -> ~ In Failure o).
      { clear. intros k s s1 o. unfold sys_close. destruct (look k (fds s)) as [[]|]; intros [= _ <-] H; cbn in H; intuition discriminate. }
      assert (HY : forall s s1 o, close_sk s = (s1, o) -> ~ In Failure o).
      { intros s0 s2 o2. unfold close_sk. destruct (sk s0); [apply HX|intros [= _ <-] []]. }
      clear - Hst HX HY. unfold do_bind, bind_select, bind_libevent in Hst.
      destruct p; (destruct (aborted s); [injection Hst as <- <-; cbn; intuition discriminate|]).
      - unfold create_any_select in Hst. destruct (sys_socket (s6 b) (fds s)) as [k|].
        + destruct (optok b).
          * destruct (bind_port_select b (set_sk (open_fd k s) (Some k)));
              try (destruct (close_sk (set_sk (open_fd k s) (Some k))) as [s4 o4] eqn:E; apply HY in E);
              injection Hst as <- <-; cbn [app In]; rewrite ?in_app_iff; cbn [In]; intuition discriminate.
          * destruct (close_sk (open_fd k s)) as [s4 o4] eqn:E. apply HY in E.
            injection Hst as <- <-; cbn [app In]; rewrite ?in_app_iff; cbn [In]; intuition discriminate.
        + destruct (sys_socket (s4 b) (fds s)) as [k|], (sk s) as [j|].
          * destruct (bind_port_select b (set_sk (open_fd k s) (Some k)));
              try (destruct (close_sk (set_sk (open_fd k s) (Some k))) as [s4 o4] eqn:E; apply HY in E);
              injection Hst as <- <-; cbn [app In]; rewrite ?in_app_iff; cbn [In]; intuition discriminate.
          * injection Hst as <- <-; cbn [app In]; intuition discriminate.
          * destruct (bind_port_select b (set_sk s None));
              try (destruct (close_sk (set_sk s None)) as [s4 o4] eqn:E; apply HY in E);
              injection Hst as <- <-; cbn [app In]; rewrite ?in_app_iff; cbn [In]; intuition discriminate.
          * injection Hst as <- <-; cbn [app In]; intuition discriminate.
      - unfold create_any_libevent in Hst. destruct (sys_socket (s6 b) (fds s)) as [k|].
        + destruct (optok b).
          * destruct (match bind_port_libevent b with EOk => if evok b then EOk else ENoMem | e0 => e0 end);
              try (destruct (close_sk (set_sk (open_fd k s) (Some k))) as [s4 o4] eqn:E; apply HY in E);
              injection Hst as <- <-; cbn [app In]; rewrite ?in_app_iff; cbn [In]; intuition discriminate.
          * destruct (sys_close k (open_fd k s)) as [s4 o4] eqn:E. apply HX in E.
            injection Hst as <- <-; cbn [app In]; rewrite ?in_app_iff; cbn [In]; intuition discriminate.
        + destruct (sys_socket (s4 b) (fds s)) as [k|].
          * destruct (match bind_port_libevent b with EOk => if evok b then EOk else ENoMem | e0 => e0 end);
              try (destruct (close_sk (set_sk (open_fd k s) (Some k))) as [s4 o4] eqn:E; apply HY in E);
              injection Hst as <- <-; cbn [app In]; rewrite ?in_app_iff; cbn [In]; intuition discriminate.
          * injection Hst as <- <-; cbn [app In]; intuition discriminate. }
    apply bind_good in Hst. destruct Hst as [(e & He) [HB1 HB2]].
    assert (Hnbd : bound s <> true).
    { intros Hb. destruct (Hbd Hb) as [_ HB]. apply in_mark in HB. destruct HB as (x & y & HB).
      exact (norebind_last _ _ _ _ e HB HN He). }
    assert (Hidle : waiting s = false /\ posted s = None).
    { split.
      - destruct (waiting s) eqn:W; [|reflexivity]. elim Hnbd. apply Hbusy. left. reflexivity.
      - destruct (posted s) eqn:W; [|reflexivity]. elim Hnbd. apply Hbusy. right. discriminate. }
    destruct Hidle as [Hw0 Hp0]. destruct HK as (K1 & K2 & K3 & K4).
    split; [|exact HF]. constructor.
    + congruence.
    + left. congruence.
    + congruence.
    + intros _ Hb. split; [apply HB1; apply HB2; exact Hb|]. apply in_or_app. right. apply HB2. exact Hb.
    + intros _ [H|H]; congruence.
  - cbn [step] in Hst. rewrite Hl in Hst. unfold do_destroy in Hst.
    destruct (close_sk (do_abort s)) as [s2 o2] eqn:E. injection Hst as <- <-.
    split.
    + constructor; cbn; auto; discriminate.
    + unfold close_sk, sys_close in E.
      destruct (sk (do_abort s)) as [k|]; [destruct (look k (fds (do_abort s))) as [[]|]|];
        injection E as <- <-; cbn; intuition discriminate.
  - assert (HGS := good_step p s i s1 o1 Hnd Hnb Hst). destruct HGS as (_ & Hb1 & HG1).
    destruct (alive_step p s i s1 o1 Hna Hnd Hst) as [Hl1 Ha1].
    assert (Hbd1 : live s1 = true -> bound s1 = true -> Good s1 /\ In (Bound EOk) (o ++ o1)).
    { intros _ Hb. rewrite Hb1 in Hb. destruct (Hbd Hb) as [A B]. apply HG. split; [exact (HG1 A)|exact B]. }
    destruct i; try contradiction; cbn [step] in Hst; rewrite ?Hl in Hst; try (elim (Hnb b eq_refl)).
    + (* StartRecv *) injection Hst as <- <-. split; [|intros []].
      cbn [one_start] in *. assert (n = 0) by lia. subst n.
      assert (Hidle : waiting s = false /\ posted s = None).
      { split.
        - destruct (waiting s) eqn:W; [|reflexivity]. destruct Hbusy as [_ H]; [left; reflexivity|lia].
        - destruct (posted s) eqn:W; [|reflexivity]. destruct Hbusy as [_ H]; [right; discriminate|lia]. }
      destruct Hidle as [Hw0 Hp0].
      destruct (bound s) eqn:Hb.
      * unfold recv_wait in *. rewrite Hab, Hw0 in *.
        constructor; cbn [set_waiting live aborted posted waiting bound] in *; auto; try congruence.
      * constructor; auto; try congruence.
        intros _ [H|H]; congruence.
    + (* Readable *) injection Hst as <- <-. split; [|intros []]. cbn [one_start] in *. rewrite Nat.add_0_r.
      assert (HR : do_readable p s = s \/ (waiting s = true /\ do_readable p s = resolve EOk (set_waiting s false))).
      { unfold do_readable, complete. destruct p, (sk s); auto; destruct (waiting s); auto. }
      destruct HR as [HR|[W HR]]; rewrite HR in *.
      * constructor; auto; try (rewrite Hl; discriminate).
      * constructor; cbn [resolve set_posted set_waiting live aborted posted waiting bound] in *; auto; try congruence.
    + (* Dispatch *)
      cbn [one_start] in *. rewrite Nat.add_0_r.
      unfold do_dispatch in Hst. destruct Hpost as [Hp|[Hp Hw]]; rewrite Hp in Hst.
      * injection Hst as <- <-. split; [|intros []]. constructor; auto; try congruence.
      * destruct Hbusy as [Hb Hn1]; [right; congruence|].
        destruct (Hbd Hb) as [(_ & k & Hsk & Hk) _].
        unfold sys_recv in Hst. cbn [set_posted sk fds] in Hst. rewrite Hsk, Hk in Hst.
        assert (HW : recv_wait (set_posted s None) = set_waiting (set_posted s None) true).
        { unfold recv_wait. cbn [set_posted aborted waiting]. rewrite Hab, Hw. reflexivity. }
        rewrite HW in Hst.
        assert (HX : s1 = set_waiting (set_posted s None) true /\ ~ In Failure o1).
        { destruct mem; destruct r; try contradiction; injection Hst as <- <-;
            (split; [reflexivity|cbn; intuition discriminate]). }
        destruct HX as [-> HX]. split; [|exact HX].
        constructor; cbn [set_waiting set_posted live aborted posted waiting bound] in *; auto.
    + (* FOpen *)
      injection Hst as <- <-. split; [|intros []]. cbn [one_start] in *. rewrite Nat.add_0_r.
      destruct (look k (fds s)); constructor; auto; cbn [set_fds live posted waiting bound]; congruence.
    + injection Hst as <- <-. split; [|intros []]. cbn [one_start] in *. rewrite Nat.add_0_r.
      destruct (look k (fds s)) as [[]|]; constructor; auto; cbn [set_fds live posted waiting bound]; congruence.
Qed.

Lemma starts_app : forall a b, starts (a ++ b) = starts a + starts b.
Proof. intros. unfold starts. rewrite filter_app, app_length. reflexivity. Qed.

(** A platform failure is reported to the application only if the socket
    was aborted, reading from it failed, or reception was started twice. *)
Theorem C92_failure_partial : forall p l,
  NoRebind (trace p l) -> starts l <= 1 ->
  ~ In Abort l -> ~ In (Dispatch true RErr) l ->
  ~ In Failure (trace p l).
Proof.
  intros p l HN Hs Ha Hr.
  assert (HM : let (s, o) := run p l in FI s o (starts l) /\ ~ In Failure o).
  { unfold trace in HN. induction l as [|i l IH] using rev_ind.
    - split; [|intros []]. constructor; cbn; auto; try discriminate. intros _ [H|H]; [discriminate|contradiction].
    - rewrite run_snoc in *. destruct (run p l) as [s1 o1]. destruct (step p s1 i) as [s2 o2] eqn:Hst.
      cbn [snd] in *. rewrite starts_app in Hs.
      destruct IH as [IH1 IH2].
      + exact (norebind_pre _ _ HN).
      + lia.
      + intros H. apply Ha. apply in_or_app. left. exact H.
      + intros H. apply Hr. apply in_or_app. left. exact H.
      + assert (Ho : starts [i] = one_start i) by (destruct i; reflexivity).
        destruct (fi_step p s1 o1 (starts l) i s2 o2) as [A B]; try assumption.
        * rewrite <- Ho. exact Hs.
        * intros ->. apply Ha. apply in_or_app. right. left. reflexivity.
        * intros ->. apply Hr. apply in_or_app. right. left. reflexivity.
        * rewrite starts_app, Ho. split; [exact A|].
          intros H. apply in_app_or in H. tauto. }
  unfold trace. destruct (run p l) as [s o]. apply HM.
Qed.
Print Assumptions C92_failure_partial.

Example C92_ex_failure : starts life = 1 /\ ~ In Failure (trace Libevent life).
Proof. rewrite C92_ex_life. split; [reflexivity|]. cbn. intuition discriminate. Qed.

(** Stopping or closing a running device without any error reports a
    platform failure, on either platform. *)
Theorem C92_failure_refuted : forall p,
  exists l, (forall mem, ~ In (Dispatch mem RErr) l) /\ NoRebind (trace p l) /\ starts l = 1 /\
            In Failure (trace p l).
Proof.
  intros p. exists [Bind (good6 3); StartRecv; Abort; Dispatch true RAgain].
  assert (Ht : trace p [Bind (good6 3); StartRecv; Abort; Dispatch true RAgain] =
               [Opened 3; Bound EOk; Failure]) by (destruct p; vm_compute; reflexivity).
  rewrite Ht. split; [intros mem H; cbn in H; intuition discriminate|]. split.
  - intros a b e H Hin.
    do 3 (destruct a as [|? a];
          [try discriminate H; injection H as <-; cbn in Hin; intuition discriminate|];
          injection H as _ H).
    destruct a; discriminate.
  - split; [reflexivity|]. right. right. left. reflexivity.
Qed.
Print Assumptions C92_failure_refuted.
