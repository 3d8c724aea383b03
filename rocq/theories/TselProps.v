(** * TCP sockets of the select module: theorems (C93) *)
From Coq Require Import List Arith Bool Lia.
From Verif Require Import TselModel TselSpec.
Import ListNotations.

Lemma runs_app : forall a b s,
  runs s (a ++ b) =
  let (s1, o1) := runs s a in let (s2, o2) := runs s1 b in (s2, o1 ++ o2).
Proof.
  induction a as [|i a IH]; intros b s; cbn [app runs].
  - destruct (runs s b); reflexivity.
  - destruct (step s i) as [s1 o1]. rewrite IH.
    destruct (runs s1 a) as [s2 o2]. destruct (runs s2 b) as [s3 o3].
    rewrite app_assoc. reflexivity.
Qed.

Lemma run_snoc : forall l i,
  run (l ++ [i]) =
  let (s1, o1) := run l in let (s2, o2) := step s1 i in (s2, o1 ++ o2).
Proof.
  intros. unfold run. rewrite runs_app. destruct (runs init l) as [s1 o1].
  cbn [runs]. destruct (step s1 i) as [s2 o2]. rewrite app_nil_r. reflexivity.
Qed.

Lemma excl_app : forall a b s,
  excl s (a ++ b) = excl s a && excl (fst (runs s a)) b.
Proof.
  induction a as [|i a IH]; intros b s; cbn [app excl runs]; [reflexivity|].
  rewrite IH. destruct (step s i) as [s1 o1]. cbn [fst]. destruct (runs s1 a) as [s2 o2]. cbn [fst].
  rewrite andb_assoc. reflexivity.
Qed.

Lemma excl_snoc : forall l i, Exclusive (l ++ [i]) -> Exclusive l /\ allowed (fst (run l)) i = true.
Proof.
  intros l i H. unfold Exclusive in *. rewrite excl_app in H. apply andb_true_iff in H.
  destruct H as [A B]. split; [exact A|]. cbn [excl] in B. apply andb_true_iff in B. apply B.
Qed.

Lemma count_app : forall f a b, count f (a ++ b) = count f a + count f b.
Proof. intros. unfold count. rewrite filter_app, app_length. reflexivity. Qed.

(** ** The invariant of exclusive histories *)

Definition in_abort (c : cpc_t) : bool :=
  match c with AbR | AbR1 | AbW | AbW1 | AbC | AbC1 => true | _ => false end.

Record Inv (s : st) : Prop := mkInv {
  V_lock : locked s = true -> cpc s = CIdle;
  V_live : live s = false -> locked s = false /\ aborted s = true;
  V_npc : match npc s with
          | NRGot _ _ => rev_ s = true
          | NCGot _ => cev s = true
          | NWGot e => wev s = true /\ (e = EOk -> wdata s = []) /\ e <> EInProgress
          | NDead => False
          | _ => True
          end;
  V_cpc : match cpc s with
          | CConn1 | CConn2 | CConnRes _ => cev s = true
          | CWrite _ => wev s = true
          | CIdle | CNotify => True
          | AbR => True
          | AbR1 => rev_ s = true
          | AbW => rev_ s = false
          | AbW1 => rev_ s = false /\ wev s = true
          | AbC => rev_ s = false /\ wev s = false
          | AbC1 => rev_ s = false /\ wev s = false /\ cev s = true
          end;
  V_ab1 : in_abort (cpc s) = true -> aborted s = true;
  V_ab2 : in_abort (cpc s) = false -> aborted s = true ->
          cpc s = CIdle /\ rev_ s = false /\ wev s = false /\ cev s = false }.

Lemma inv_init : Inv init.
Proof. constructor; cbn; try discriminate; auto. Qed.

Definition pend (k : kind) (s : st) : nat :=
  match k with
  | Connect => if cev s then 1 else 0
  | Read => if rev_ s then 1 else 0
  | Write => if wev s then 1 else 0
  end.

(** What is left of the write in progress. *)
Definition left_ (s : st) : option (list nat) :=
  match cpc s with
  | CWrite d => Some d
  | _ => if wev s then Some (wdata s) else None
  end.

Fixpoint final (w : option (list nat)) (o : list out) : option (list nat) :=
  match o with
  | [] => w
  | Accepted d :: o' => final (Some d) o'
  | Sent x :: o' => final (match w with Some y => Some (skipn (length x) y) | None => None end) o'
  | Done Write EInProgress :: o' => final w o'
  | Done Write _ :: o' => final None o'
  | _ :: o' => final w o'
  end.

Lemma skipn_app_len : forall (x y : list nat), skipn (length x) (x ++ y) = y.
Proof. intros. rewrite skipn_app, skipn_all, Nat.sub_diag. reflexivity. Qed.

Lemma writes_app : forall a b w, Writes w a -> Writes (final w a) b -> Writes w (a ++ b).
Proof.
  induction a as [|x a IH]; intros b w Ha Hb; cbn [app]; [exact Hb|].
  destruct x as [k|d|k e|d| | |]; cbn [Writes final] in *; auto.
  - destruct Ha as [A B]. split; [exact A|]. auto.
  - destruct k; auto. destruct e; auto; destruct Ha as [A B]; split; auto.
  - destruct Ha as (r & -> & A). exists r. split; [reflexivity|]. apply IH; [exact A|].
    rewrite skipn_app_len in Hb. exact Hb.
Qed.

Lemma final_app : forall a b w, final w (a ++ b) = final (final w a) b.
Proof.
  induction a as [|x a IH]; intros b w; cbn [app final]; [reflexivity|].
  destruct x as [k|d|k e|d| | |]; auto. destruct k; auto. destruct e; auto.
Qed.

(** One step of an exclusive history: what it keeps, what it completes, and
    what it does to the writes. *)
Record Eff (s s1 : st) (o1 : list out) : Prop := mkEff {
  E_inv : Inv s1;
  E_bal : forall k, count (is_asked k) o1 + pend k s = count (is_done k) o1 + pend k s1;
  E_once : forall k a b, o1 = a ++ b -> count (is_done k) a <= count (is_asked k) a + pend k s;
  E_writes : Writes (left_ s) o1;
  E_final : final (left_ s) o1 = left_ s1;
  E_crash : ~ In Crash o1 }.

Ltac pre2 :=
  let k := fresh in let a := fresh in let b := fresh in let H := fresh in
  intros k a b H;
  destruct a as [|? [|? [|? a]]]; cbn [app] in H; inversion H; subst;
  destruct k; cbn; try lia.

Ltac eff :=
  constructor;
  [ constructor; unfold locked in *; cbn in *; intuition (try congruence; try discriminate);
    try (match goal with n : npc_t |- _ => destruct n end; cbn in *; intuition (try congruence; try discriminate))
  | intros []; cbn; try lia
  | pre2
  | cbn; intuition (try congruence; try discriminate)
  | cbn; try reflexivity; try congruence
  | cbn; intuition (try congruence; try discriminate) ].

Lemma eff_call : forall c s s1 o1,
  Inv s -> allowed s (Call c) = true -> do_call c s = (s1, o1) -> Eff s s1 o1.
Proof.
  intros c [lv cn ce re we wd ab pi cp np] s1 o1 [A B C D E F] HA.
  cbn [allowed] in HA. apply negb_true_iff in HA.
  unfold do_call. cbn [cpc live]. cbn in A, B, C, D, E, F.
  destruct cp; try (intros [= <- <-]; eff; fail).
  destruct lv; [|intros [= <- <-]; eff].
  destruct c; unfold call_connect, call_write, call_read, call_destroy, call_abort; cbn [aborted cev wev rev_ set_live].
  - destruct ab; [destruct (F eq_refl eq_refl) as (_ & -> & -> & ->); intros [= <- <-]; eff|]. destruct ce; intros [= <- <-]; eff.
  - destruct ab; [destruct (F eq_refl eq_refl) as (_ & -> & -> & ->); intros [= <- <-]; eff|]. destruct we; intros [= <- <-]; eff.
  - destruct ab; [destruct (F eq_refl eq_refl) as (_ & -> & -> & ->); intros [= <- <-]; eff|]. destruct re; intros [= <- <-]; eff.
  - destruct ab; intros [= <- <-]; eff.
  - rewrite HA. destruct ab; intros [= <- <-]; eff.
Qed.

Lemma eff_cstep : forall r s s1 o1,
  Inv s -> allowed s (CStep r) = true -> do_cstep r s = (s1, o1) -> Eff s s1 o1.
Proof.
  intros r [lv cn ce re we wd ab pi cp np] s1 o1 [A B C D E F] HA.
  cbn [allowed] in HA. apply negb_true_iff in HA.
  unfold do_cstep. cbn [cpc rev_ wev cev pipe]. cbn in A, B, C, D, E, F.
  destruct cp.
  - intros [= <- <-]; eff.
  - subst ce. destruct r; intros [= <- <-]; eff.
  - subst ce. destruct r; intros [= <- <-]; eff.
  - subst ce. intros [= <- <-]; eff.
  - subst we. intros [= <- <-]; eff.
  - intros [= <- <-]; eff.
  - destruct re; intros [= <- <-]; eff.
  - subst re. intros [= <- <-]; eff.
  - destruct we; intros [= <- <-]; eff.
  - destruct D as [-> ->]. intros [= <- <-]; eff.
  - destruct D as [-> ->]. destruct ce; intros [= <- <-]; eff.
  - destruct D as (-> & -> & ->). intros [= <- <-]; eff.
Qed.

Lemma eff_nstep : forall i s s1 o1,
  Inv s -> allowed s (NStep i) = true -> do_nstep i s = (s1, o1) -> Eff s s1 o1.
Proof.
  intros i [lv cn ce re we wd ab pi cp np] s1 o1 [A B C D E F] HA.
  cbn [allowed cpc] in HA. destruct cp; try discriminate HA. clear HA D E A.
  unfold do_nstep. cbn [npc live]. cbn in B, C, F.
  destruct np as [|rb wb|rb wb|rb wb|wb|wb e|wb|e| |e| ].
  all: try (destruct C; fail).
  all: (destruct lv; cbn [negb];
        [clear B|destruct (B eq_refl) as [B1 B2]; try discriminate B1; subst ab;
                 destruct (F eq_refl eq_refl) as (_ & -> & -> & ->); intros [= <- <-]; eff; fail]).
  - unfold n_build. cbn [rev_ wev cev]. destruct (no_sock _ && (re || (we || ce))); intros [= <- <-]; eff.
  - unfold n_select. cbn [pipe].
    destruct (err i); [destruct pi; intros [= <- <-]; eff|].
    destruct pi; [|intros [= <- <-]; eff].
    match goal with |- context [if ?b then _ else _] => destruct b end; intros [= <- <-]; eff.
  - cbn [pipe]. destruct pi; intros [= <- <-]; eff.
  - destruct (no_sock _); [|destruct rb]; intros [= <- <-]; eff.
  - cbn [rev_]. destruct re; intros [= <- <-]; eff.
  - cbn [rev_]. subst re. destruct e; intros [= <- <-]; eff.
  - cbn [cev]. destruct wb; [destruct ce|]; intros [= <- <-]; eff.
  - cbn [cev]. subst ce. destruct e; intros [= <- <-]; eff.
  - cbn [wev]. destruct we; [|intros [= <- <-]; eff].
    unfold do_send. cbn [conn wdata set_wdata].
    destruct cn; try (intros [= <- <-]; eff; fail).
    destruct (snd_ i) as [n| |]; try (intros [= <- <-]; eff; fail).
    assert (Hl : length (firstn (Nat.min n (length wd)) wd) = Nat.min n (length wd)).
    { apply firstn_length_le. apply Nat.le_min_r. }
    assert (Hs : wd = firstn (Nat.min n (length wd)) wd ++ skipn (Nat.min n (length wd)) wd).
    { symmetry. apply firstn_skipn. }
    destruct (skipn (Nat.min n (length wd)) wd) as [|x rest] eqn:Hr; intros [= <- <-].
    + constructor.
      * constructor; unfold locked; cbn in *; intuition (try congruence; try discriminate).
      * intros []; cbn; lia.
      * pre2.
      * cbn [Writes left_ cpc wev wdata]. exists []. split; [rewrite app_nil_r in *; congruence|exact I].
      * cbn [final left_ cpc wev wdata set_npc set_wdata]. rewrite Hl, Hr. reflexivity.
      * intros [H|[]]; discriminate.
    + constructor.
      * constructor; unfold locked; cbn in *; intuition (try congruence; try discriminate).
      * intros []; cbn; lia.
      * pre2.
      * cbn [Writes left_ cpc wev wdata]. exists (x :: rest). split; [congruence|exact I].
      * cbn [final left_ cpc wev wdata set_npc set_wdata]. rewrite Hl, Hr. reflexivity.
      * intros [H|[]]; discriminate.
  - cbn [wev]. destruct C as (-> & C1 & C2). destruct e; intros [= <- <-]; eff.
Qed.

Lemma eff_step : forall s i s1 o1,
  Inv s -> allowed s i = true -> step s i = (s1, o1) -> Eff s s1 o1.
Proof.
  intros s [c|r|i| |] s1 o1 HI HA Hst; cbn [step] in Hst.
  - exact (eff_call c s s1 o1 HI HA Hst).
  - exact (eff_cstep r s s1 o1 HI HA Hst).
  - exact (eff_nstep i s s1 o1 HI HA Hst).
  - destruct s as [lv cn ce re we wd ab pi cp np]. destruct HI as [A B C D E F].
    cbn in *. destruct cn; injection Hst as <- <-; eff.
  - destruct s as [lv cn ce re we wd ab pi cp np]. destruct HI as [A B C D E F].
    cbn in *. destruct cn; injection Hst as <- <-; eff.
Qed.

(** ** Exclusive histories *)

Lemma once_app : forall a b p,
  Once a ->
  (forall k, count (is_asked k) a = count (is_done k) a + p k) ->
  (forall k x y, b = x ++ y -> count (is_done k) x <= count (is_asked k) x + p k) ->
  Once (a ++ b).
Proof.
  intros a b p HO HB HP k x y E.
  assert (C : (exists z, a = x ++ z) \/ (exists z, x = a ++ z /\ b = z ++ y)).
  { clear HO HB HP. revert x y b E. induction a as [|i a IH]; intros x y b E.
    - right. exists x. auto.
    - destruct x as [|j x]; [left; exists (i :: a); reflexivity|].
      cbn [app] in E. injection E as <- E. destruct (IH x y b E) as [[z ->]|(z & -> & ->)].
      + left. exists z. reflexivity.
      + right. exists z. auto. }
  destruct C as [[z ->]|(z & -> & ->)]; [exact (HO k x z eq_refl)|].
  rewrite !count_app, HB. specialize (HP k z y eq_refl). lia.
Qed.

Record Hist (l : list op) : Prop := mkHist {
  H_inv : Inv (fst (run l));
  H_bal : forall k, count (is_asked k) (trace l) = count (is_done k) (trace l) + pend k (fst (run l));
  H_once : Once (trace l);
  H_writes : Writes None (trace l);
  H_final : final None (trace l) = left_ (fst (run l));
  H_crash : ~ In Crash (trace l) }.

Lemma hist : forall l, Exclusive l -> Hist l.
Proof.
  induction l as [|i l IH] using rev_ind; intros HE.
  - constructor.
    + exact inv_init.
    + intros []; reflexivity.
    + intros k a b H. destruct a; [cbn; lia|discriminate H].
    + exact I.
    + reflexivity.
    + intros [].
  - destruct (excl_snoc l i HE) as [H0 HA]. specialize (IH H0).
    unfold trace in *. pose proof (run_snoc l i) as R.
    destruct IH as [A B C D E F]. unfold trace in *.
    destruct (run l) as [s0 o0]. cbn [fst snd] in *.
    destruct (step s0 i) as [s1 o1] eqn:Hst.
    destruct (eff_step s0 i s1 o1 A HA Hst) as [G1 G2 G3 G4 G5 G6].
    constructor; unfold trace; rewrite R; cbn [fst snd].
    + exact G1.
    + intros k. rewrite !count_app, B. specialize (G2 k). lia.
    + exact (once_app o0 o1 (fun k => pend k s0) C B G3).
    + apply writes_app; [exact D|]. rewrite E. exact G4.
    + rewrite final_app, E. exact G5.
    + intros H. apply in_app_or in H. tauto.
Qed.

(** When the calls and the network thread exclude each other, no request is
    completed twice, no NULL event is resolved, and every request is
    completed when the core has aborted or destroyed the socket. *)
Theorem C93_once_partial : forall l,
  Exclusive l ->
  Once (trace l) /\ ~ In Crash (trace l) /\
  (aborted (fst (run l)) = true -> cpc (fst (run l)) = CIdle -> AllDone (trace l)).
Proof.
  intros l HE. destruct (hist l HE) as [A B C D E F]. split; [exact C|]. split; [exact F|].
  intros Hab Hc k. destruct (V_ab2 _ A) as (_ & H1 & H2 & H3).
  - rewrite Hc. reflexivity.
  - exact Hab.
  - rewrite (B k). destruct k; cbn [pend]; rewrite ?H1, ?H2, ?H3; lia.
Qed.
Print Assumptions C93_once_partial.

(** The bytes given to the kernel are those of the writes, in order, and a
    write is reported OK only when all its bytes were given to the kernel. *)
Theorem C93_writes_partial : forall l, Exclusive l -> Writes None (trace l).
Proof. intros l HE. exact (H_writes l (hist l HE)). Qed.
Print Assumptions C93_writes_partial.

(** ** Connections *)

(** An established connection whose report is due. *)
Definition owed (s : st) : nat :=
  if cev s && (match cpc s with
               | CConn1 | CConnRes EFail | CConnRes EAborted | CConnRes EInProgress | CConnRes EEof => false
               | CConnRes EOk => true
               | _ => match conn s with Up => true | _ => false end
               end
               || match npc s with NCGot (Some EOk) => true | _ => false end)
  then 1 else 0.

Record CInv (s : st) : Prop := mkCInv {
  K_fresh : conn s = Fresh <-> cpc s = CConn2;
  K_npc : match npc s with
          | NSel _ true | NRead true | NRGot true _ | NConn true =>
              conn s = Up \/ conn s = Down
          | NStuck _ _ => False
          | _ => True
          end }.

Record CEff (s s1 : st) (o1 : list out) : Prop := mkCEff {
  X_inv : CInv s1;
  X_bal : count is_connected o1 + owed s1 <= count is_established o1 + owed s;
  X_pre : forall a b, o1 = a ++ b -> count is_connected a <= count is_established a + owed s }.

Ltac pre3 :=
  let a := fresh in let b := fresh in let H := fresh in
  intros a b H;
  destruct a as [|? [|? [|? a]]]; cbn [app] in H; inversion H; subst; cbn; try lia.

Ltac ow :=
  unfold owed; cbn; try lia;
  try (match goal with c : conn_state |- _ => destruct c end; cbn; lia);
  try (match goal with |- context [?b && _] => destruct b end; cbn; lia);
  try (match goal with c : conn_state |- _ => destruct c end;
       match goal with |- context [?b && _] => destruct b end; cbn; lia).

Ltac ceff :=
  constructor;
  [ constructor; cbn in *; intuition (try congruence; try discriminate)
  | ow
  | pre3; ow ].

Lemma ceff_step : forall s i s1 o1,
  Inv s -> CInv s -> allowed s i = true -> (forall j, i = NStep j -> err j = false) ->
  step s i = (s1, o1) -> CEff s s1 o1.
Proof.
  intros [lv cn ce re we wd ab pi cp np] i s1 o1 [A B C D E F] [K1 K2] HA HS.
  cbn in A, B, C, D, E, F, K1, K2.
  destruct i as [c|r|i| |]; cbn [step].
  - cbn [allowed] in HA. apply negb_true_iff in HA. cbn in HA.
    unfold do_call. cbn [cpc live].
    destruct cp; try (intros [= <- <-]; ceff; fail).
    destruct lv; [|intros [= <- <-]; ceff; fail].
    destruct c as [|d| | |]; unfold call_connect, call_write, call_read, call_destroy, call_abort, locked; cbn [aborted cev wev rev_ npc set_live].
    all: destruct np; try discriminate HA.
    all: destruct ab; cbn; try (intros [= <- <-]; ceff; fail).
    all: try destruct ce; cbn; try (intros [= <- <-]; ceff; fail).
    all: try destruct we; cbn; try (intros [= <- <-]; ceff; fail).
    all: try destruct re; cbn; try (intros [= <- <-]; ceff; fail).
  - cbn [allowed] in HA. apply negb_true_iff in HA. cbn in HA.
    unfold do_cstep. cbn [cpc cev rev_ wev].
    assert (Hg : match np with NCGot _ => False | _ => True end).
    { destruct np; auto. discriminate HA. }
    destruct cp as [| | |e|d| | | | | | | ].
    all: try (destruct r).
    all: intros [= <- <-].
    all: cbn in D; try subst ce.
    all: try (destruct D as (D1 & D2 & D3); subst).
    all: destruct np; try discriminate HA.
    all: try (ceff; fail).
    all: try (destruct e; ceff; fail).
    all: try (destruct ce; ceff; fail).
    all: try (destruct re, we, ce; ceff; fail).
  - cbn [allowed cpc] in HA. destruct cp; try discriminate HA. clear HA.
    specialize (HS i eq_refl).
    unfold do_nstep. cbn [npc live].
    assert (HF : cn <> Fresh). { intros H. apply K1 in H. discriminate H. }
    destruct np as [|rb wb|rb wb|rb wb|wb|wb e|wb|e| |e| ].
    all: try (destruct K2; fail). all: try (destruct C; fail).
    all: (destruct lv; cbn [negb];
        [clear B|destruct (B eq_refl) as [B1 B2]; try discriminate B1; intros [= <- <-]; ceff; fail]).
    + unfold n_build. cbn [rev_ wev cev]. destruct (no_sock _ && (re || (we || ce))); intros [= <- <-]; ceff.
    + unfold n_select. cbn [pipe]. rewrite HS. cbn [conn].
      destruct pi.
      * match goal with |- context [if ?b then _ else _] => destruct b end; intros [= <- <-]; [|ceff].
        destruct wb, (rdy_w i), cn; cbn [andb]; try (ceff; fail); congruence.
      * intros [= <- <-].
        destruct wb, (rdy_w i), cn; cbn [andb]; try (ceff; fail); congruence.
    + destruct (no_sock _); [|destruct rb]; intros [= <- <-]; ceff.
    + cbn [rev_]. destruct re; intros [= <- <-]; ceff.
    + cbn [rev_]. destruct e; [subst re|]; intros [= <- <-]; ceff.
    + cbn [cev]. destruct wb; [destruct ce|]; intros [= <- <-].
      * destruct K2 as [-> | ->]; cbn; ceff.
      * ceff.
      * ceff.
    + cbn [cev]. subst ce. destruct e as [e|]; intros [= <- <-]; [destruct e|]; ceff.
    + cbn [wev]. destruct we; [|intros [= <- <-]; ceff].
      unfold do_send. cbn [conn wdata set_wdata].
      destruct cn; try (intros [= <- <-]; ceff; fail).
      destruct (snd_ i) as [n| |]; try (intros [= <- <-]; ceff; fail).
      destruct (skipn (Nat.min n (length wd)) wd) as [|x rest] eqn:Hr; intros [= <- <-]; ceff.
    + cbn [wev]. destruct C as (-> & C1 & C2). destruct e; intros [= <- <-]; ceff.
  - cbn in *. destruct cn; intros [= <- <-]; try (destruct np; ceff; fail).
    constructor.
    + constructor; cbn in *; [split; intros H; [discriminate H|apply K1 in H; discriminate H]|].
      destruct np as [|rb wb|rb wb|rb wb|wb|wb e|wb|e| |e| ]; auto; destruct wb; auto.
    + cbn. unfold owed. cbn [cev cpc conn npc]. match goal with |- context [if ?b then 1 else 0] => destruct b end;
      match goal with |- context [if ?b then 1 else 0] => destruct b end; lia.
    + pre3.
  - cbn in *. destruct cn; intros [= <- <-]; try (destruct np; ceff; fail).
    all: assert (HN : cp <> CConn2) by (intros H; apply K1 in H; discriminate H).
    all: constructor.
    all: try pre3.
    all: try (constructor; cbn in *; [split; intros H; [discriminate H|apply K1 in H; discriminate H]|];
      destruct np as [|rb wb|rb wb|rb wb|wb|wb e|wb|e| |e| ]; auto; destruct wb; auto; fail).
    all: unfold owed; cbn.
    all: destruct ce; cbn; try lia.
    all: destruct cp as [| | |[]|d| | | | | | | ]; cbn; try lia.
    all: destruct np as [|rb wb|rb wb|rb wb|wb|wb e|wb|[[]|]| |e| ]; cbn; lia.
Qed.

Lemma cinv_init : CInv init.
Proof. constructor; cbn; [split; discriminate|exact I]. Qed.

Lemma connected_app : forall a b n,
  Connected a -> count is_connected a + n <= count is_established a ->
  (forall x y, b = x ++ y -> count is_connected x <= count is_established x + n) ->
  Connected (a ++ b).
Proof.
  intros a b n HC HB HP x y E.
  assert (C : (exists z, a = x ++ z) \/ (exists z, x = a ++ z /\ b = z ++ y)).
  { clear HC HB HP. revert x y b E. induction a as [|i a IH]; intros x y b E.
    - right. exists x. auto.
    - destruct x as [|j x]; [left; exists (i :: a); reflexivity|].
      cbn [app] in E. injection E as <- E. destruct (IH x y b E) as [[z ->]|(z & -> & ->)].
      + left. exists z. reflexivity.
      + right. exists z. auto. }
  destruct C as [[z ->]|(z & -> & ->)]; [exact (HC x z eq_refl)|].
  rewrite !count_app. specialize (HP z y eq_refl). lia.
Qed.

Lemma chist : forall l, Exclusive l -> SelectOk l ->
  CInv (fst (run l)) /\ Connected (trace l) /\
  count is_connected (trace l) + owed (fst (run l)) <= count is_established (trace l).
Proof.
  induction l as [|i l IH] using rev_ind; intros HE HS.
  - split; [exact cinv_init|]. split; [|cbn; lia].
    intros a b H. destruct a; [cbn; lia|discriminate H].
  - destruct (excl_snoc l i HE) as [H0 HA].
    assert (HS0 : SelectOk l). { intros j Hj. apply HS. apply in_or_app. left. exact Hj. }
    assert (HSi : forall j, i = NStep j -> err j = false).
    { intros j ->. apply HS. apply in_or_app. right. left. reflexivity. }
    destruct (IH H0 HS0) as (B & C & D). pose proof (H_inv l (hist l H0)) as A.
    unfold trace in *. pose proof (run_snoc l i) as R.
    destruct (run l) as [s0 o0]. cbn [fst snd] in *.
    destruct (step s0 i) as [s1 o1] eqn:Hst.
    destruct (ceff_step s0 i s1 o1 A B HA HSi Hst) as [G1 G2 G3].
    rewrite R. cbn [fst snd]. split; [exact G1|]. split.
    + exact (connected_app o0 o1 (owed s0) C D G3).
    + rewrite !count_app. lia.
Qed.

(** When moreover select never fails, a connection is reported only after
    the kernel established it, and each of them once at most. *)
Theorem C93_connect_partial : forall l, Exclusive l -> SelectOk l -> Connected (trace l).
Proof. intros l HE HS. exact (proj1 (proj2 (chist l HE HS))). Qed.
Print Assumptions C93_connect_partial.

(** ** Progress *)

(** The network thread waits for what is pending, or will be woken. *)
Definition Wake (s : st) : Prop :=
  match npc s with
  | NBuilt rb wb =>
      (rev_ s = true -> rb = true \/ pipe s <> 0 \/ cpc s = CNotify) /\
      (wev s = true -> wb = true \/ pipe s <> 0 \/ cpc s = CNotify \/ exists d, cpc s = CWrite d) /\
      (cev s = true -> wb = true \/ pipe s <> 0 \/ cpc s = CNotify \/ cpc s = CConn1 \/ cpc s = CConn2 \/
                       exists e, cpc s = CConnRes e)
  | _ => True
  end.

Lemma wake_step : forall s i s1 o1,
  Inv s -> Wake s -> allowed s i = true -> (forall j, i = NStep j -> err j = false) ->
  step s i = (s1, o1) -> Wake s1.
Proof.
  intros [lv cn ce re we wd ab pi cp np] i s1 o1 [A B C D E F] HW HA HS.
  cbn in A, B, C, D, E, F. unfold Wake in *. cbn [npc rev_ wev cev pipe cpc] in HW.
  destruct i as [c|r|i| |]; cbn [step].
  - cbn [allowed] in HA. apply negb_true_iff in HA. cbn in HA.
    unfold do_call. cbn [cpc live].
    destruct cp; try (intros [= <- <-]; exact HW).
    destruct lv; [|intros [= <- <-]; exact HW].
    destruct c as [|d| | |]; unfold call_connect, call_write, call_read, call_destroy, call_abort, locked; cbn [aborted cev wev rev_ npc set_live].
    all: destruct np; try discriminate HA.
    all: destruct ab; try (intros [= <- <-]; exact HW).
    all: try destruct ce; try (intros [= <- <-]; exact HW).
    all: try destruct we; try (intros [= <- <-]; exact HW).
    all: try destruct re; try (intros [= <- <-]; exact HW).
    all: intros [= <- <-]; cbn; try exact I.
    all: destruct HW as (W1 & W2 & W3); repeat split; intros H; try discriminate H.
    all: try (destruct (W1 eq_refl) as [Q|[Q|Q]]; [auto|auto|discriminate Q]; fail).
    all: try (destruct (W2 eq_refl) as [Q|[Q|[Q|[d' Q]]]]; [auto|auto|discriminate Q|discriminate Q]; fail).
    all: try (destruct (W3 eq_refl) as [Q|[Q|[Q|[Q|[Q|[e' Q]]]]]]; [auto|auto|discriminate Q|discriminate Q|discriminate Q|discriminate Q]; fail).
    all: eauto 8.
  - cbn [allowed] in HA. apply negb_true_iff in HA. cbn in HA.
    unfold do_cstep. cbn [cpc cev rev_ wev].
    destruct cp as [| | |e|d| | | | | | | ].
    all: try (destruct r).
    all: intros [= <- <-].
    all: destruct np; try discriminate HA; cbn; try exact I; try exact HW.
    all: destruct HW as (W1 & W2 & W3); cbn in D.
    all: repeat split; intros H; try discriminate H.
    all: try (right; left; discriminate).
    all: try (destruct (W1 H) as [Q|[Q|Q]]; [auto|auto|discriminate Q]; fail).
    all: try (destruct (W2 H) as [Q|[Q|[Q|[d' Q]]]]; [auto|auto|discriminate Q|discriminate Q]; fail).
    all: try (destruct (W3 H) as [Q|[Q|[Q|[Q|[Q|[e' Q]]]]]]; [auto|auto|discriminate Q|discriminate Q|discriminate Q|discriminate Q]; fail).
    all: eauto 8.
  - cbn [allowed cpc] in HA. destruct cp; try discriminate HA. clear HA.
    specialize (HS i eq_refl).
    unfold do_nstep. cbn [npc live].
    destruct np as [|rb wb|rb wb|rb wb|wb|wb e|wb|e| |e| ].
    all: try (destruct lv; cbn [negb]; [|intros [= <- <-]; exact I]).
    + unfold n_build. intros [= <- <-]. cbn.
      destruct re, we, ce; cbn; repeat split; intros H; auto; discriminate H.
    + unfold n_select. cbn [pipe]. rewrite HS. destruct pi; [|intros [= <- <-]; exact I].
      match goal with |- context [if ?b then _ else _] => destruct b end; intros [= <- <-]; [exact I|exact HW].
    + cbn [pipe]. destruct pi; intros [= <- <-]; exact I.
    + destruct (no_sock _); [|destruct rb]; intros [= <- <-]; exact I.
    + destruct (rev_ _); intros [= <- <-]; exact I.
    + destruct e; [destruct (rev_ _)|]; intros [= <- <-]; exact I.
    + destruct wb; [destruct (cev _)|]; intros [= <- <-]; exact I.
    + destruct e; [destruct (cev _)|]; intros [= <- <-]; exact I.
    + destruct (wev _); [|intros [= <- <-]; exact I].
      destruct (do_send i _) as [[s2 o2] [e|]]; intros [= <- <-]; exact I.
    + destruct (wev _); intros [= <- <-]; exact I.
    + intros [= <- <-]. exact I.
  - cbn in *. destruct cn; intros [= <- <-]; exact HW.
  - cbn in *. destruct cn; intros [= <- <-]; exact HW.
Qed.

Lemma wake_hist : forall l, Exclusive l -> SelectOk l -> Wake (fst (run l)).
Proof.
  induction l as [|i l IH] using rev_ind; intros HE HS; [exact I|].
  destruct (excl_snoc l i HE) as [H0 HA].
  assert (HS0 : SelectOk l). { intros j Hj. apply HS. apply in_or_app. left. exact Hj. }
  assert (HSi : forall j, i = NStep j -> err j = false).
  { intros j ->. apply HS. apply in_or_app. right. left. reflexivity. }
  specialize (IH H0 HS0). pose proof (H_inv l (hist l H0)) as A.
  pose proof (run_snoc l i) as R. destruct (run l) as [s0 o0]. cbn [fst snd] in *.
  destruct (step s0 i) as [s1 o1] eqn:Hst. rewrite R. cbn [fst].
  exact (wake_step s0 i s1 o1 A IH HA HSi Hst).
Qed.

Definition rank (k : kind) (n : npc_t) : nat :=
  match k with
  | Read =>
      match n with
      | NRGot _ (Some _) => 1 | NRead _ => 2 | NSel true _ => 3 | NBuilt true _ => 4
      | NStart => 5 | NWGot _ => 6 | NWrite => 7 | NCGot _ => 8 | NConn _ => 9
      | NRGot _ None => 10 | NSel false _ => 10 | NBuilt false _ => 11 | _ => 12
      end
  | Connect =>
      match n with
      | NCGot (Some _) => 1 | NConn true => 2 | NRGot true _ => 3 | NRead true => 4
      | NSel _ true => 5 | NBuilt _ true => 6 | NStart => 7 | NWGot _ => 8 | NConn false => 8
      | NWrite => 9 | NRGot false _ => 9 | NRead false => 10 | NCGot None => 10
      | NSel _ false => 11 | NBuilt _ false => 12 | _ => 13
      end
  | Write =>
      match n with
      | NWGot _ => 1 | NWrite => 2 | NCGot _ => 3 | NConn true => 4 | NRGot true _ => 5
      | NRead true => 6 | NSel _ true => 7 | NBuilt _ true => 8 | NStart => 9 | NConn false => 10
      | NRGot false _ => 11 | NRead false => 12 | NSel _ false => 13 | NBuilt _ false => 14 | _ => 15
      end
  end.

Definition measure (k : kind) (s : st) : nat := 20 * length (wdata s) + rank k (npc s).

Lemma ready_step : forall k s s1 o1,
  Inv s -> CInv s -> Wake s -> cpc s = CIdle -> live s = true -> conn s = Up -> pend k s = 1 ->
  step s (NStep ready) = (s1, o1) ->
  (exists e, In (Done k e) o1) \/
  (cpc s1 = CIdle /\ live s1 = true /\ conn s1 = Up /\ pend k s1 = 1 /\ measure k s1 < measure k s).
Proof.
  intros k [lv cn ce re we wd ab pi cp np] s1 o1 [A B C D E F] [K1 K2] HW Hc Hl Hu Hp.
  cbn in A, B, C, D, E, F, K1, K2, HW, Hc, Hl, Hu, Hp. subst cp lv cn.
  cbn [step]. unfold do_nstep. cbn [npc live negb].
  destruct np as [|rb wb|rb wb|rb wb|wb|wb e|wb|e| |e| ].
  - unfold n_build. intros [= <- <-]. right. destruct k; cbn in *.
    + destruct ce; [|discriminate Hp]. rewrite orb_true_r. cbn. repeat split; lia.
    + destruct re; [|discriminate Hp]. cbn. repeat split; lia.
    + destruct we; [|discriminate Hp]. cbn. repeat split; lia.
  - unfold n_select. cbn [pipe err ready rdy_r rdy_w oth conn]. unfold Wake in HW. cbn in HW.
    destruct HW as (W1 & W2 & W3). rewrite !andb_true_r, orb_false_r.
    destruct pi as [|m].
    + assert (HB : rb || wb = true).
      { destruct k; cbn in Hp.
        - destruct ce; [|discriminate Hp]. destruct (W3 eq_refl) as [->|[Q|[Q|[Q|[Q|[e Q]]]]]]; try discriminate Q; [apply orb_true_r|congruence].
        - destruct re; [|discriminate Hp]. destruct (W1 eq_refl) as [->|[Q|Q]]; try discriminate Q; [reflexivity|congruence].
        - destruct we; [|discriminate Hp]. destruct (W2 eq_refl) as [->|[Q|[Q|[d Q]]]]; try discriminate Q; [apply orb_true_r|congruence]. }
      rewrite HB. intros [= <- <-]. right. destruct k, rb, wb; cbn in *; repeat split; try lia; discriminate HB.
    + intros [= <- <-]. right. destruct k, rb, wb; cbn in *; repeat split; lia.
  - destruct K2.
  - unfold no_sock. cbn [conn]. intros [= <- <-]. right. destruct k, rb, wb; cbn in *; repeat split; lia.
  - cbn [rev_ do_recv conn rcv ready]. intros [= <- <-]. right. destruct k, re, wb; cbn in *; repeat split; try lia; discriminate Hp.
  - cbn [rev_]. subst re. destruct e as [e|]; intros [= <- <-].
    + destruct k; [right| left; exists e; left; reflexivity|right]; destruct wb; cbn in *; repeat split; lia.
    + right. destruct k, wb; cbn in *; repeat split; lia.
  - cbn [cev so_error conn]. intros [= <- <-]. right. destruct k, ce, wb; cbn in *; repeat split; try lia; discriminate Hp.
  - cbn [cev]. cbn in C. subst ce. destruct e as [e|]; intros [= <- <-].
    + destruct k; [left; exists e; left; reflexivity|right|right]; cbn in *; repeat split; lia.
    + right. destruct k; cbn in *; repeat split; lia.
  - cbn [wev]. destruct we.
    + unfold do_send. cbn [conn snd_ ready wdata set_wdata].
      destruct wd as [|x [|y wd]]; intros [= <- <-]; right; destruct k; cbn in *; repeat split; lia.
    + intros [= <- <-]. right. destruct k; cbn in *; repeat split; try lia; discriminate Hp.
  - cbn [wev]. destruct C as (-> & _ & _). intros [= <- <-].
    destruct k; [right|right|left; exists e; left; reflexivity]; cbn in *; repeat split; lia.
  - destruct C.
Qed.

Lemma ready_runs : forall n k s,
  measure k s < n ->
  Inv s -> CInv s -> Wake s -> cpc s = CIdle -> live s = true -> conn s = Up -> pend k s = 1 ->
  exists m e, In (Done k e) (snd (runs s (repeat (NStep ready) m))).
Proof.
  induction n as [|n IH]; intros k s Hm HI HC HW Hc Hl Hu Hp; [lia|].
  destruct (step s (NStep ready)) as [s1 o1] eqn:Hst.
  assert (HA : allowed s (NStep ready) = true). { cbn [allowed]. rewrite Hc. reflexivity. }
  assert (HS : forall j, NStep ready = NStep j -> err j = false). { intros j [= <-]. reflexivity. }
  destruct (ready_step k s s1 o1 HI HC HW Hc Hl Hu Hp Hst) as [[e He]|(Hc1 & Hl1 & Hu1 & Hp1 & Hm1)].
  - exists 1, e. cbn [repeat runs]. rewrite Hst. cbn [snd]. rewrite app_nil_r. exact He.
  - destruct (IH k s1 ltac:(lia) (E_inv _ _ _ (eff_step _ _ _ _ HI HA Hst))
                (X_inv _ _ _ (ceff_step _ _ _ _ HI HC HA HS Hst))
                (wake_step _ _ _ _ HI HW HA HS Hst) Hc1 Hl1 Hu1 Hp1) as (m & e & H).
    exists (S m), e. cbn [repeat runs]. rewrite Hst.
    destruct (runs s1 (repeat (NStep ready) m)) as [s2 o2]. cbn [snd] in *.
    apply in_or_app. right. exact H.
Qed.

(** A request which is pending on an established connection is completed
    once the core thread is idle and the peer takes and offers bytes, without
    any other activity waking the network thread. *)
Theorem C93_progress_partial : forall l k,
  Exclusive l -> SelectOk l ->
  cpc (fst (run l)) = CIdle -> conn (fst (run l)) = Up ->
  count (is_done k) (trace l) < count (is_asked k) (trace l) ->
  exists n e, In (Done k e) (snd (runs (fst (run l)) (repeat (NStep ready) n))).
Proof.
  intros l k HE HS Hc Hu Hlt. destruct (hist l HE) as [A B C D E F].
  assert (Hp : pend k (fst (run l)) = 1).
  { specialize (B k). revert B Hlt. destruct (fst (run l)) as [lv cn ce re we wd ab pi cp np].
    destruct k; cbn [pend cev rev_ wev]; [destruct ce|destruct re|destruct we]; intros; lia. }
  apply (ready_runs (S (measure k (fst (run l)))) k); auto.
  - exact (proj1 (chist l HE HS)).
  - exact (wake_hist l HE HS).
  - destruct (live (fst (run l))) eqn:Hl; [reflexivity|].
    destruct (V_live _ A Hl) as [_ Hab].
    destruct (V_ab2 _ A) as (_ & H1 & H2 & H3); [rewrite Hc; reflexivity|exact Hab|].
    destruct k; cbn [pend] in Hp; rewrite ?H1, ?H2, ?H3 in Hp; discriminate Hp.
Qed.
Print Assumptions C93_progress_partial.

(** ** What the code does not guarantee *)

Definition idle_ : net_in := NI false false false false RAgain SAgain.
Definition failed : net_in := NI true false false false RAgain SAgain.
Definition other : net_in := NI false false false true RAgain SAgain.

(** A connection established while connect() ran, in six steps. *)
Definition up : list op :=
  [Call CallConnect; CStep CRSocket; CStep CRNow; CStep CRNow].

(** The network thread runs between the store of the completion event and
    the store of the data: the write is reported OK and nothing is sent. *)
Theorem C93_writes_refuted :
  exists l, SelectOk l /\ ~ Writes None (trace l) /\
            In (Done Write EOk) (trace l) /\
            (forall d, In (Sent d) (trace l) -> d = []) /\ In (Accepted [1;2]) (trace l).
Proof.
  exists (up ++ [Call (CallWrite [1;2]); NStep ready; NStep ready; NStep ready; NStep ready; NStep ready; NStep ready; NStep ready]).
  vm_compute. repeat split.
  - intros i H. repeat (destruct H as [H|H]; [try discriminate H; injection H as <-; reflexivity|]). destruct H.
  - intros (_ & r & H & G & _). congruence.
  - tauto.
  - intros d H. repeat (destruct H as [H|H]; [try discriminate H; injection H as <-; reflexivity|]). destruct H.
  - tauto.
Qed.
Print Assumptions C93_writes_refuted.

(** An abort which has loaded the event of a read while the network thread
    completes it resolves it a second time. *)
Theorem C93_once_refuted :
  exists l, SelectOk l /\ ~ Once (trace l) /\
            count (is_asked Read) (trace l) = 1 /\ count (is_done Read) (trace l) = 2.
Proof.
  exists (up ++ [Call CallRead; CStep CRNow; NStep ready; NStep ready; Call CallAbort; CStep CRNow;
                 NStep ready; NStep ready; NStep ready; CStep CRNow]).
  repeat split.
  - intros i H. repeat (destruct H as [H|H]; [try discriminate H; injection H as <-; reflexivity|]). destruct H.
  - intros H. specialize (H Read _ [] (eq_sym (app_nil_r _))). vm_compute in H. lia.
Qed.
Print Assumptions C93_once_refuted.

(** An abort between the recv and the completion of a read makes the network
    thread resolve a NULL event. *)
Theorem C93_crash_refuted : exists l, SelectOk l /\ In Crash (trace l).
Proof.
  exists (up ++ [Call CallRead; CStep CRNow; NStep ready; NStep ready; NStep ready; NStep ready;
                 Call CallAbort; CStep CRNow; CStep CRNow; NStep ready]).
  split.
  - intros i H. repeat (destruct H as [H|H]; [try discriminate H; injection H as <-; reflexivity|]). destruct H.
  - vm_compute. tauto.
Qed.
Print Assumptions C93_crash_refuted.

(** The network thread finds the socket writable before connect() was
    called: the connection is reported, and connect() then fails. *)
Theorem C93_connect_refuted :
  exists l, SelectOk l /\ ~ Connected (trace l) /\ In (Done Connect EOk) (trace l) /\
            conn (fst (run l)) = Down.
Proof.
  exists [Call CallConnect; CStep CRSocket; NStep ready; NStep ready; NStep ready; NStep ready; NStep ready;
          CStep CRFail].
  repeat split.
  - intros i H. repeat (destruct H as [H|H]; [try discriminate H; injection H as <-; reflexivity|]). destruct H.
  - intros H. specialize (H _ [] (eq_sym (app_nil_r _))). vm_compute in H. lia.
  - vm_compute. tauto.
Qed.
Print Assumptions C93_connect_refuted.

(** When select fails, e.g. because of a signal, a connection which is still
    in progress is reported as established, even if no call overlaps with
    the network thread. *)
Theorem C93_select_refuted :
  exists l, Exclusive l /\ ~ Connected (trace l) /\ In (Done Connect EOk) (trace l) /\
            conn (fst (run l)) = Pending.
Proof.
  exists [Call CallConnect; CStep CRSocket; CStep CRInProgress; CStep CRNow; NStep idle_; NStep failed;
          NStep ready; NStep ready; NStep ready].
  repeat split.
  - intros H. specialize (H _ [] (eq_sym (app_nil_r _))). vm_compute in H. lia.
  - vm_compute. tauto.
Qed.
Print Assumptions C93_select_refuted.

(** After such a failure with an empty pipe the network thread sleeps in the
    read of the pipe: a pending read of a connection with data is never
    completed, whatever the operating system answers. *)
Lemma stuck_stays : forall rb wb l s,
  npc s = NStuck rb wb -> live s = true -> pipe s = 0 ->
  (forall i, In i l -> exists j, i = NStep j) -> runs s l = (s, []).
Proof.
  intros rb wb l s Hn Hl Hp. induction l as [|i l IH]; intros H; [reflexivity|].
  destruct (H i (or_introl eq_refl)) as [j ->]. cbn [runs step]. unfold do_nstep. rewrite Hn, Hl, Hp. cbn [negb].
  rewrite IH; [reflexivity|]. intros i Hi. apply H. right. exact Hi.
Qed.

Theorem C93_progress_refuted :
  exists l, Exclusive l /\ cpc (fst (run l)) = CIdle /\ conn (fst (run l)) = Up /\
    count (is_done Read) (trace l) < count (is_asked Read) (trace l) /\
    forall m, (forall i, In i m -> exists j, i = NStep j) ->
              snd (runs (fst (run l)) m) = [].
Proof.
  exists (up ++ [Call CallRead; CStep CRNow; NStep idle_; NStep idle_; NStep idle_; NStep idle_; NStep idle_; NStep failed]).
  repeat split.
  - vm_compute. lia.
  - intros m Hm. rewrite (stuck_stays true false m); [reflexivity| | | |exact Hm]; reflexivity.
Qed.
Print Assumptions C93_progress_refuted.

(** A socket which was created but not connected yet makes the network
    thread test descriptor -1 in a descriptor set. *)
Theorem C93_descriptor_refuted :
  exists l, Exclusive l /\ SelectOk l /\ In Undefined (trace l).
Proof.
  exists [NStep other; NStep other; NStep other]. repeat split.
  - intros i H. repeat (destruct H as [H|H]; [try discriminate H; injection H as <-; reflexivity|]). destruct H.
  - vm_compute. tauto.
Qed.
Print Assumptions C93_descriptor_refuted.

(** ** The hypotheses are met *)

(** A connection is made, a write of three bytes is sent in two parts, a read
    is answered, and a second read is aborted when the socket is
    destroyed. *)
Definition life : list op :=
  [Call CallConnect; CStep CRSocket; CStep CRInProgress; CStep CRNow; KUp] ++
  repeat (NStep ready) 8 ++
  [Call (CallWrite [1;2;3]); CStep CRNow; CStep CRNow; Call CallRead; CStep CRNow] ++
  repeat (NStep (NI false true true false RData (SBytes 2))) 24 ++
  [Call CallRead; CStep CRNow; Call CallRead; Call CallDestroy; CStep CRNow; CStep CRNow; CStep CRNow; CStep CRNow].

Example C93_ex_life :
  Exclusive life /\ aborted (fst (run life)) = true /\ cpc (fst (run life)) = CIdle /\
  trace life =
    [Asked Connect; Established; Done Connect EOk; Asked Write; Accepted [1;2;3]; Asked Read; Done Read EOk;
     Sent [1;2]; Sent [3]; Done Write EOk; Asked Read; Asked Read; Done Read EInProgress; Done Read EAborted].
Proof. vm_compute. repeat split. Qed.

Example C93_ex_select : SelectOk life.
Proof.
  intros i H. repeat (destruct H as [H|H]; [try discriminate H; injection H as <-; reflexivity|]). destruct H.
Qed.

(** A read is pending while the network thread already sleeps in select. *)
Example C93_ex_progress :
  let l := up ++ [NStep idle_; Call CallRead; CStep CRNow] in
  Exclusive l /\ SelectOk l /\ cpc (fst (run l)) = CIdle /\ conn (fst (run l)) = Up /\
  npc (fst (run l)) = NBuilt false false /\
  count (is_done Read) (trace l) = 0 /\ count (is_asked Read) (trace l) = 1.
Proof.
  repeat split.
  intros i H. repeat (destruct H as [H|H]; [try discriminate H; injection H as <-; reflexivity|]). destruct H.
Qed.
