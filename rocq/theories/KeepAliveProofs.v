From Coq Require Import List Bool Arith NArith Lia.
From Verif Require Import KeepAliveModel KeepAliveSpec.
Import ListNotations.

Lemma run_app : forall h1 h2 c,
  run c (h1 ++ h2) = (after (after c h1) h2, outs c h1 ++ outs (after c h1) h2).
Proof.
  unfold after, outs. induction h1 as [|o h1 IH]; intros h2 c; cbn [run app].
  - cbn. destruct (run c h2); reflexivity.
  - destruct (step c o) as [c1 o1]. rewrite IH. destruct (run c1 h1) as [c2 o2]. cbn.
    rewrite app_assoc. reflexivity.
Qed.
Lemma after_app : forall h1 h2 c, after c (h1 ++ h2) = after (after c h1) h2.
Proof. intros. unfold after at 1. rewrite run_app. reflexivity. Qed.
Lemma outs_app : forall h1 h2 c, outs c (h1 ++ h2) = outs c h1 ++ outs (after c h1) h2.
Proof. intros. unfold outs at 1. rewrite run_app. reflexivity. Qed.
Lemma after_cons : forall o h c, after c (o :: h) = after (fst (step c o)) h.
Proof. intros. unfold after. cbn. destruct (step c o). cbn. destruct (run c0 h); reflexivity. Qed.
Lemma outs_cons : forall o h c, outs c (o :: h) = snd (step c o) ++ outs (fst (step c o)) h.
Proof. intros. unfold outs. cbn. destruct (step c o). cbn. destruct (run c0 h); reflexivity. Qed.
Lemma outs_nil : forall c, outs c [] = [].
Proof. reflexivity. Qed.

Ltac keep := unfold create_request in *; unfold with_ka, with_lost, with_last, with_sending, with_buf in *;
  cbn [fst snd app c_ka c_recv c_sent c_pending ka_interval ka_retry ka_max ka_recv ka_sent ka_lost ka_n ka_sending ka_buf] in *.

Definition lim (k : ka) : N := u32 (ka_max k + ka_n k).

(** Settings do not change within a connection. *)
Definition cfg (c : conn) := (ka_interval (c_ka c), ka_retry (c_ka c), ka_max (c_ka c), ka_n (c_ka c)).

Lemma recv_pkt : forall c p,
  recv c p = (let c := {| c_ka := c_ka c; c_recv := u32 (c_recv c + 1); c_sent := c_sent c; c_pending := c_pending c |} in
              match (match p with 4%N :: 3%N :: _ => handle_request (c_ka c) p | _ => None end) with
              | Some k => (with_ka c k, [OSend (ka_buf k)])
              | None => (c, [])
              end).
Proof.
  intros c p. unfold recv. cbn [c_ka].
  destruct p as [|[|x] p]; try reflexivity.
  destruct x as [x|x|]; try reflexivity. destruct x as [x|x|]; try reflexivity.
  destruct x; try reflexivity.
  destruct p as [|[|y] p]; try reflexivity.
  destruct y as [y|y|]; try reflexivity. destruct y; try reflexivity.
Qed.

Lemma handle_some : forall k q k', handle_request k q = Some k' ->
  ka_sending k = false /\ 18 <= List.length q /\ k' = with_buf k (the_response q).
Proof.
  intros k q k'. unfold handle_request. destruct (Nat.ltb (List.length q) 18) eqn:L; cbn; [discriminate|].
  destruct (ka_sending k); [discriminate|]. intros E. injection E as <-.
  apply Nat.ltb_ge in L. repeat split; auto.
Qed.

Lemma recv_is : forall c p,
  exists k, fst (recv c p) = {| c_ka := k; c_recv := u32 (c_recv c + 1); c_sent := c_sent c; c_pending := c_pending c |} /\
  ((k = c_ka c /\ snd (recv c p) = []) \/
   (ka_sending (c_ka c) = false /\ 18 <= List.length p /\ firstn 2 p = [4%N; 3%N] /\ k = with_buf (c_ka c) (the_response p) /\
    snd (recv c p) = [OSend (the_response p)])).
Proof.
  intros c p. rewrite recv_pkt. cbn [c_ka].
  assert (G : forall o : option ka,
    (o = None \/ (exists k', o = Some k' /\ handle_request (c_ka c) p = Some k' /\ firstn 2 p = [4%N; 3%N])) ->
    exists k, fst (match o with
      | Some k => (with_ka {| c_ka := c_ka c; c_recv := u32 (c_recv c + 1); c_sent := c_sent c; c_pending := c_pending c |} k, [OSend (ka_buf k)])
      | None => ({| c_ka := c_ka c; c_recv := u32 (c_recv c + 1); c_sent := c_sent c; c_pending := c_pending c |}, [])
      end) = {| c_ka := k; c_recv := u32 (c_recv c + 1); c_sent := c_sent c; c_pending := c_pending c |} /\
      ((k = c_ka c /\ snd (match o with
      | Some k => (with_ka {| c_ka := c_ka c; c_recv := u32 (c_recv c + 1); c_sent := c_sent c; c_pending := c_pending c |} k, [OSend (ka_buf k)])
      | None => ({| c_ka := c_ka c; c_recv := u32 (c_recv c + 1); c_sent := c_sent c; c_pending := c_pending c |}, [])
      end) = []) \/
   (ka_sending (c_ka c) = false /\ 18 <= List.length p /\ firstn 2 p = [4%N; 3%N] /\ k = with_buf (c_ka c) (the_response p) /\
    snd (match o with
      | Some k => (with_ka {| c_ka := c_ka c; c_recv := u32 (c_recv c + 1); c_sent := c_sent c; c_pending := c_pending c |} k, [OSend (ka_buf k)])
      | None => ({| c_ka := c_ka c; c_recv := u32 (c_recv c + 1); c_sent := c_sent c; c_pending := c_pending c |}, [])
      end) = [OSend (the_response p)]))).
  { intros o [-> | (k' & -> & H & F)].
    - exists (c_ka c). split; [reflexivity|left; auto].
    - destruct (handle_some _ _ _ H) as (A & B & ->). eexists. split; [reflexivity|]. right.
      repeat split; auto. }
  apply G. clear G.
  destruct p as [|[|x] p]; auto.
  destruct x as [x|x|]; auto. destruct x as [x|x|]; auto. destruct x; auto.
  destruct p as [|[|y] p]; auto.
  destruct y as [y|y|]; auto. destruct y; auto.
  destruct (handle_request (c_ka c) (4%N :: 3%N :: p)) eqn:H; eauto.
Qed.

Lemma tick_cfg : forall c, cfg (fst (tick c)) = cfg c.
Proof.
  intros c. unfold tick, should_send, cfg.
  destruct (_ && _)%bool; keep; [reflexivity|].
  destruct (N.ltb _ _); keep; [reflexivity|].
  destruct (_ && _)%bool; keep; reflexivity.
Qed.
Lemma step_cfg : forall c o, same_conn o = true -> cfg (fst (step c o)) = cfg c.
Proof.
  intros c [ |p| | | |i r m| ] S; try discriminate; try reflexivity.
  - cbn [step]. destruct (recv_is c p) as (k & -> & [(-> & _) | (_ & _ & _ & -> & _)]); reflexivity.
  - cbn [step]. destruct (c_pending c); [apply tick_cfg | reflexivity].
Qed.
Lemma after_cfg : forall h c, forallb same_conn h = true -> cfg (after c h) = cfg c.
Proof.
  induction h as [|o h IH]; intros c F; [reflexivity|]. cbn in F. apply andb_true_iff in F as [S F].
  rewrite after_cons, IH by auto. apply step_cfg; auto.
Qed.

(** ** A dead peer is found *)
Definition fuel (c : conn) : N :=
  ((if N.ltb (ka_recv (c_ka c)) (c_recv c) then lim (c_ka c) + 3 else 0) + (1 + (lim (c_ka c) + 1 - ka_lost (c_ka c))))%N.

Lemma lim_cfg : forall c c', cfg c = cfg c' -> lim (c_ka c) = lim (c_ka c').
Proof. unfold cfg, lim. intros c c' E. injection E as _ _ -> ->. reflexivity. Qed.

Lemma dead_found : forall h c,
  c_pending c = true -> (lim (c_ka c) < 2 ^ 32 - 1)%N -> forallb quiet h = true ->
  (fuel c <= N.of_nat (count is_tick h))%N -> In OTimeout (outs c h).
Proof.
  induction h as [|o h IH]; intros c P L Q F.
  - unfold fuel in F. change (N.of_nat (count is_tick [])) with 0%N in F. exfalso. destruct (N.ltb _ _); lia.
  - cbn in Q. apply andb_true_iff in Q as [Qo Q]. rewrite outs_cons. apply in_app_iff.
    destruct o; try discriminate.
    + right. apply IH; auto.
    + right. apply IH; auto.
    + cbn [step]. rewrite P.
      assert (F' : (fuel c <= 1 + N.of_nat (count is_tick h))%N).
      { unfold count in *. cbn [filter is_tick List.length] in F. lia. }
      clear F. unfold tick, should_send.
      destruct (N.ltb (ka_recv (c_ka c)) (c_recv c) && N.ltb (ka_sent (c_ka c)) (c_sent c))%bool eqn:E.
      * right. apply andb_true_iff in E as [E1 E2]. apply IH; auto.
        unfold fuel in *. keep. rewrite E1 in F'. rewrite N.ltb_irrefl.
        unfold lim in *. keep. lia.
      * destruct (N.ltb (u32 (ka_max (c_ka c) + ka_n (c_ka c))) (ka_lost (c_ka c))) eqn:T.
        -- left. left. reflexivity.
        -- apply N.ltb_ge in T. right.
           assert (U : u32 (ka_lost (c_ka c) + 1) = (ka_lost (c_ka c) + 1)%N).
           { unfold u32. apply N.mod_small. unfold lim in L. change (2 ^ 32)%N with 4294967296%N in *. lia. }
           rewrite U.
           destruct (negb _ && _)%bool; apply IH; auto; unfold fuel, lim in *; keep;
             revert F'; destruct (N.ltb (ka_recv (c_ka c)) (c_recv c)); lia.
Qed.

Lemma fuel_bound : forall c, (fuel c <= 2 * lim (c_ka c) + 5)%N.
Proof. intros c. unfold fuel. destruct (N.ltb _ _); lia. Qed.

Lemma quiet_same : forall o, quiet o = true -> same_conn o = true.
Proof. destruct o; auto; discriminate. Qed.
Lemma between_same : forall o, between o = true -> same_conn o = true.
Proof. destruct o; auto; discriminate. Qed.
Lemma forallb_imp : forall (f g : op -> bool) h, (forall o, f o = true -> g o = true) ->
  forallb f h = true -> forallb g h = true.
Proof.
  intros f g h I. induction h; cbn; auto. rewrite !andb_true_iff. intros [A B]. auto.
Qed.

(** A connection which has just been started. *)
Lemma started_is : forall pre i r m, r <> 0%N ->
  exists s b, started pre i r m =
    {| c_ka := {| ka_interval := i; ka_retry := r; ka_max := m; ka_recv := 0; ka_sent := 0; ka_lost := 0;
                  ka_n := i / r; ka_sending := s; ka_buf := b |};
       c_recv := 0; c_sent := 0; c_pending := true |}.
Proof.
  intros pre i r m R. unfold started. rewrite after_app. generalize (after conn_init pre). intros c.
  exists (ka_sending (c_ka c)), (ka_buf (c_ka c)).
  apply N.eqb_neq in R. unfold after. cbn. unfold ka_set. rewrite R. reflexivity.
Qed.

(** ** Patience *)
Lemma patient : forall h c,
  forallb same_conn h = true ->
  (ka_lost (c_ka c) + N.of_nat (count is_tick h) <= lim (c_ka c) + 1)%N ->
  ~ In OTimeout (outs c h).
Proof.
  induction h as [|o h IH]; intros c F B; [intros []|].
  cbn in F. apply andb_true_iff in F as [S F]. rewrite outs_cons.
  assert (G : forall c', cfg c' = cfg c -> (ka_lost (c_ka c') + N.of_nat (count is_tick h) <= lim (c_ka c) + 1)%N ->
     ~ In OTimeout (outs c' h)).
  { intros c' E L. apply IH; auto. rewrite (lim_cfg _ _ E). exact L. }
  destruct o; try discriminate; cbn [step].
  - intros [A | A]; [discriminate|]. revert A. apply G; auto.
  - destruct (recv_is c pkt) as (k & E & [(-> & ->) | (_ & _ & _ & -> & ->)]); rewrite E.
    + apply G; auto.
    + intros [A | A]; [discriminate|]. revert A. apply G; auto.
  - apply G; auto.
  - apply G; auto.
  - unfold count in *. cbn [filter is_tick List.length] in B.
    destruct (c_pending c); [|cbn [fst snd app]; apply G; auto; lia].
    pose proof (tick_cfg c) as TC. revert TC. unfold tick, should_send.
    destruct (_ && _)%bool.
    { keep. intros TC [A|A]; [discriminate|]. revert A. apply G; auto. keep. lia. }
    destruct (N.ltb (u32 (ka_max (c_ka c) + ka_n (c_ka c))) (ka_lost (c_ka c))) eqn:T.
    { apply N.ltb_lt in T. unfold lim in B. lia. }
    assert (U : (u32 (ka_lost (c_ka c) + 1) <= ka_lost (c_ka c) + 1)%N).
    { unfold u32. apply N.mod_le. discriminate. }
    destruct (_ && _)%bool; keep; intros TC A.
    + destruct A as [A|[A|A]]; try discriminate. revert A. apply G; auto. keep. lia.
    + destruct A as [A|A]; try discriminate. revert A. apply G; auto. keep. lia.
Qed.

(** ** A lively connection is kept *)
Lemma between_keeps : forall g c, forallb between g = true ->
  let c' := after c g in
  cfg c' = cfg c /\ c_pending c' = c_pending c /\ ka_lost (c_ka c') = ka_lost (c_ka c) /\
  ka_recv (c_ka c') = ka_recv (c_ka c) /\ ka_sent (c_ka c') = ka_sent (c_ka c) /\
  ~ In OTimeout (outs c g) /\
  ((c_recv c + N.of_nat (count is_recv g) < 2 ^ 32)%N -> c_recv c' = (c_recv c + N.of_nat (count is_recv g))%N) /\
  ((c_sent c + N.of_nat (count is_sent g) < 2 ^ 32)%N -> c_sent c' = (c_sent c + N.of_nat (count is_sent g))%N).
Proof.
  induction g as [|o g IH]; intros c F.
  - cbn. repeat split; auto; lia.
  - cbn in F. apply andb_true_iff in F as [B F]. cbv zeta.
    rewrite after_cons, outs_cons.
    specialize (IH (fst (step c o)) F). cbv zeta in IH.
    destruct IH as (A1 & A2 & A3 & A4 & A5 & A6 & A7 & A8).
    assert (U : forall x y, (x + (1 + y) < 2 ^ 32)%N -> u32 (x + 1) = (x + 1)%N).
    { intros x y L. unfold u32. apply N.mod_small. lia. }
    unfold count in *.
    destruct o; try discriminate; cbn [step] in *; cbn [filter is_recv is_sent List.length] in *.
    + destruct (recv_is c pkt) as (k & E & K). rewrite E in *.
      cbn [fst c_ka c_recv c_sent c_pending] in *.
      assert (K' : cfg {| c_ka := k; c_recv := u32 (c_recv c + 1); c_sent := c_sent c; c_pending := c_pending c |} = cfg c
        /\ ka_lost k = ka_lost (c_ka c) /\ ka_recv k = ka_recv (c_ka c) /\ ka_sent k = ka_sent (c_ka c)
        /\ ~ In OTimeout (snd (recv c pkt))).
      { destruct K as [(-> & ->) | (_ & _ & _ & -> & ->)]; cbn; intuition discriminate. }
      destruct K' as (K1 & K2 & K3 & K4 & K5).
      split; [congruence|]. split; [congruence|]. split; [congruence|]. split; [congruence|]. split; [congruence|].
      split. { rewrite in_app_iff. tauto. }
      split; intros L.
      * assert (V : u32 (c_recv c + 1) = (c_recv c + 1)%N) by (apply (U _ (N.of_nat (List.length (filter is_recv g)))); lia).
        rewrite A7; rewrite V; lia.
      * apply A8. lia.
    + cbn [fst snd c_ka c_recv c_sent c_pending app] in *.
      split; [rewrite A1; reflexivity|]. split; [congruence|]. split; [congruence|]. split; [congruence|]. split; [congruence|].
      split; [exact A6|]. split; intros L.
      * apply A7. lia.
      * assert (V : u32 (c_sent c + 1) = (c_sent c + 1)%N) by (apply (U _ (N.of_nat (List.length (filter is_sent g)))); lia).
        rewrite A8; rewrite V; lia.
    + cbn [fst snd c_ka c_recv c_sent c_pending app] in *. keep. repeat split; auto.
Qed.

Lemma count_pos : forall f g, existsb f g = true -> (1 <= N.of_nat (count f g))%N.
Proof.
  intros f g E. unfold count. induction g as [|o g IH]; [discriminate|]. cbn in *.
  destruct (f o); cbn in *; [lia|auto].
Qed.
Lemma count_app : forall f a b, count f (a ++ b) = count f a + count f b.
Proof. intros. unfold count. rewrite filter_app, app_length. reflexivity. Qed.

Lemma lively_kept : forall segs c,
  Forall lively segs ->
  (ka_recv (c_ka c) <= c_recv c)%N -> (ka_sent (c_ka c) <= c_sent c)%N ->
  (c_recv c + N.of_nat (count is_recv (with_ticks segs)) < 2 ^ 32)%N ->
  (c_sent c + N.of_nat (count is_sent (with_ticks segs)) < 2 ^ 32)%N ->
  ~ In OTimeout (outs c (with_ticks segs)).
Proof.
  induction segs as [|g t IH]; intros c F R S CR CS; [intros []|].
  inversion F as [|? ? (B & ER & ES) F']; subst. cbn [with_ticks] in *.
  change (Tick :: with_ticks t) with ([Tick] ++ with_ticks t) in *.
  rewrite !count_app in CR, CS. cbn [count filter is_recv is_sent is_tick List.length] in CR, CS.
  destruct (between_keeps g c B) as (A1 & A2 & A3 & A4 & A5 & A6 & A7 & A8). cbv zeta in *.
  rewrite outs_app, in_app_iff. intros [X|X]; [tauto|]. revert X.
  rewrite outs_app, in_app_iff.
  pose proof (count_pos _ _ ER) as PR. pose proof (count_pos _ _ ES) as PS.
  unfold count in CR, CS, PR, PS, A7, A8. cbn [filter is_recv is_sent List.length] in CR, CS.
  fold (count is_recv g) in *. fold (count is_sent g) in *.
  unfold count in CR, CS.
  specialize (A7 ltac:(unfold count; lia)). specialize (A8 ltac:(unfold count; lia)).
  set (c' := after c g) in *. unfold count in PR, PS, A7, A8.
  assert (LT : (N.ltb (ka_recv (c_ka c')) (c_recv c') && N.ltb (ka_sent (c_ka c')) (c_sent c'))%bool = true).
  { apply andb_true_iff. split; apply N.ltb_lt; lia. }
  assert (ST : step c' Tick = if c_pending c' then (with_ka c' (with_last (c_ka c') (c_recv c') (c_sent c')), [OWait (ka_retry (c_ka c'))]) else (c', [])).
  { cbn [step]. destruct (c_pending c'); auto. unfold tick, should_send. rewrite LT. reflexivity. }
  unfold outs at 1, after at 1. cbn [run]. rewrite ST.
  destruct (c_pending c'); cbn [fst snd app].
  - intros [[A|[]]|X]; [discriminate|]. revert X. apply IH; auto; unfold count; keep; lia.
  - intros [[]|X]. revert X. apply IH; auto; unfold count; lia.
Qed.

(** ** A peer which answers is kept *)
Ltac fin := first [solve [intros [A|[]]; discriminate] | solve [intros [A|[A|[]]]; discriminate]
  | solve [left; lia] | solve [right; split; [lia|auto]] | idtac].
Lemma answered_kept : forall segs c,
  answered c segs -> c_pending c = true ->
  (ka_recv (c_ka c) <= c_recv c)%N -> (ka_sent (c_ka c) <= c_sent c)%N ->
  (ka_max (c_ka c) + ka_n (c_ka c) + 1 < 2 ^ 32)%N ->
  (ka_lost (c_ka c) <= ka_n (c_ka c) \/ ka_lost (c_ka c) <= ka_n (c_ka c) + 1 /\ ka_sending (c_ka c) = true)%N ->
  (c_recv c + N.of_nat (count is_recv (with_ticks segs)) < 2 ^ 32)%N ->
  (c_sent c + N.of_nat (count is_sent (with_ticks segs)) < 2 ^ 32)%N ->
  ~ In OTimeout (outs c (with_ticks segs)).
Proof.
  induction segs as [|g t IH]; intros c F PE R S M LO CR CS; [intros []|].
  cbn [answered] in F. destruct F as (B & ER & ES & F'). cbn [with_ticks] in *.
  change (Tick :: with_ticks t) with ([Tick] ++ with_ticks t) in *.
  rewrite !count_app in CR, CS.
  destruct (between_keeps g c B) as (A1 & A2 & A3 & A4 & A5 & A6 & A7 & A8). cbv zeta in *.
  rewrite outs_app, in_app_iff. intros [X|X]; [tauto|]. revert X.
  rewrite outs_app, in_app_iff. rewrite after_app in F'.
  pose proof (count_pos _ _ ER) as PR.
  assert (PS : ka_sending (c_ka c) = true -> (1 <= N.of_nat (count is_sent g))%N) by (intros; apply count_pos; auto).
  clear ER ES.
  change (count is_recv [Tick]) with 0 in CR. change (count is_sent [Tick]) with 0 in CS.
  specialize (A7 ltac:(lia)). specialize (A8 ltac:(lia)).
  set (c' := after c g) in *.
  assert (CF : ka_max (c_ka c') = ka_max (c_ka c) /\ ka_n (c_ka c') = ka_n (c_ka c)).
  { unfold cfg in A1. injection A1; auto. }
  destruct CF as (CF1 & CF2).
  assert (G : ~ In OTimeout (snd (step c' Tick)) /\ (ka_recv (c_ka (fst (step c' Tick))) <= c_recv c')%N /\
     (ka_sent (c_ka (fst (step c' Tick))) <= c_sent c')%N /\
     ka_max (c_ka (fst (step c' Tick))) = ka_max (c_ka c) /\ ka_n (c_ka (fst (step c' Tick))) = ka_n (c_ka c) /\
     (ka_lost (c_ka (fst (step c' Tick))) <= ka_n (c_ka c) \/
      ka_lost (c_ka (fst (step c' Tick))) <= ka_n (c_ka c) + 1 /\ ka_sending (c_ka (fst (step c' Tick))) = true)%N /\
     c_recv (fst (step c' Tick)) = c_recv c' /\ c_sent (fst (step c' Tick)) = c_sent c' /\ c_pending (fst (step c' Tick)) = true).
  { cbn [step]. rewrite A2, PE. unfold tick, should_send.
    destruct (N.ltb (ka_recv (c_ka c')) (c_recv c')) eqn:E1.
    2:{ apply N.ltb_ge in E1. lia. }
    destruct (N.ltb (ka_sent (c_ka c')) (c_sent c')) eqn:E2; cbn [andb].
    { keep. rewrite A2. repeat split; auto; try lia; fin. }
    apply N.ltb_ge in E2.
    assert (LO' : (ka_lost (c_ka c) <= ka_n (c_ka c))%N).
    { destruct LO as [LO|(LO & SE)]; auto. specialize (PS SE). lia. }
    assert (U1 : u32 (ka_max (c_ka c') + ka_n (c_ka c')) = (ka_max (c_ka c) + ka_n (c_ka c))%N).
    { rewrite CF1, CF2. unfold u32. apply N.mod_small. lia. }
    rewrite U1, A3.
    destruct (N.ltb (ka_max (c_ka c) + ka_n (c_ka c)) (ka_lost (c_ka c))) eqn:E3.
    { apply N.ltb_lt in E3. lia. }
    assert (U2 : u32 (ka_lost (c_ka c) + 1) = (ka_lost (c_ka c) + 1)%N).
    { unfold u32. apply N.mod_small. lia. }
    rewrite U2. cbn [with_lost ka_sending ka_n ka_lost].
    destruct (ka_sending (c_ka c')) eqn:SE; cbn [negb andb].
    { keep. rewrite A2. repeat split; auto; try lia; fin. }
    destruct (N.ltb (ka_n (c_ka c')) (ka_lost (c_ka c) + 1)) eqn:E4.
    - apply N.ltb_lt in E4. keep. rewrite A2. repeat split; auto; try lia; fin.
    - apply N.ltb_ge in E4. keep. rewrite A2. repeat split; auto; try lia; fin. }
  unfold outs at 1, after at 1. unfold after at 1 in F'. cbn [run] in *.
  destruct (step c' Tick) as [c2 o2]. cbn [fst snd] in *. rewrite app_nil_r.
  destruct G as (G1 & G2 & G3 & G4 & G5 & G6 & G7 & G8 & G9).
  intros [X|X]; [tauto|]. revert X. apply IH; auto; rewrite ?G4, ?G5, ?G7, ?G8; auto; lia.
Qed.

(** ** Probes *)
Fixpoint probing (k : nat) : list op := match k with O => [] | S k => Tick :: Done :: probing k end.
Definition probes (o : list out) : nat := List.length (filter (fun x => match x with OSend _ => true | _ => false end) o).
Lemma probes_app : forall a b, probes (a ++ b) = probes a + probes b.
Proof. intros. unfold probes. rewrite filter_app, app_length. reflexivity. Qed.

Lemma probe_run : forall k c,
  c_pending c = true -> ka_sending (c_ka c) = false -> (c_recv c <= ka_recv (c_ka c))%N ->
  (ka_max (c_ka c) + ka_n (c_ka c) + 1 < 2 ^ 32)%N ->
  (ka_lost (c_ka c) + N.of_nat k <= ka_max (c_ka c) + ka_n (c_ka c) + 1)%N ->
  let c' := after c (probing k) in
  probes (outs c (probing k)) = N.to_nat (ka_lost (c_ka c) + N.of_nat k - N.max (ka_n (c_ka c)) (ka_lost (c_ka c))) /\
  (forall p, In (OSend p) (outs c (probing k)) -> p = the_request) /\
  ~ In OTimeout (outs c (probing k)) /\
  c_pending c' = true /\ ka_lost (c_ka c') = (ka_lost (c_ka c) + N.of_nat k)%N /\
  cfg c' = cfg c /\ c_recv c' = c_recv c /\ ka_recv (c_ka c') = ka_recv (c_ka c).
Proof.
  induction k as [|k IH]; intros c P S R M L; cbv zeta.
  - cbn. repeat split; auto; try lia; try (intros ? []).
  - cbn [probing]. rewrite !after_cons, !outs_cons. cbn [step]. rewrite P.
    unfold tick, should_send.
    destruct (N.ltb (ka_recv (c_ka c)) (c_recv c)) eqn:E1. { apply N.ltb_lt in E1. lia. }
    cbn [andb].
    assert (U1 : u32 (ka_max (c_ka c) + ka_n (c_ka c)) = (ka_max (c_ka c) + ka_n (c_ka c))%N).
    { unfold u32. apply N.mod_small. lia. }
    rewrite U1.
    destruct (N.ltb (ka_max (c_ka c) + ka_n (c_ka c)) (ka_lost (c_ka c))) eqn:E3.
    { apply N.ltb_lt in E3. lia. }
    assert (U2 : u32 (ka_lost (c_ka c) + 1) = (ka_lost (c_ka c) + 1)%N).
    { unfold u32. apply N.mod_small. lia. }
    rewrite U2. cbn [with_lost ka_sending ka_n ka_lost]. rewrite S. cbn [negb andb].
    destruct (N.ltb (ka_n (c_ka c)) (ka_lost (c_ka c) + 1)) eqn:E4.
    + apply N.ltb_lt in E4. cbn [fst snd app].
      match goal with |- context [outs ?x (probing k)] => specialize (IH x) end. cbv zeta in IH.
      keep. destruct IH as (I1 & I2 & I3 & I4 & I5 & I6 & I7 & I8); auto; try lia.
      split. { change (probes (OSend ?a :: OWait ?b :: ?l)) with (Datatypes.S (probes l)).
        unfold probes in *. cbn [filter List.length]. rewrite I1. lia. }
      split. { intros p [A|[A|A]]; [injection A as <-; reflexivity|discriminate|auto]. }
      split. { intros [A|[A|A]]; try discriminate; auto. }
      rewrite I5. repeat split; auto. lia.
    + apply N.ltb_ge in E4. cbn [fst snd app].
      match goal with |- context [outs ?x (probing k)] => specialize (IH x) end. cbv zeta in IH.
      keep. destruct IH as (I1 & I2 & I3 & I4 & I5 & I6 & I7 & I8); auto; try lia.
      split. { unfold probes in *. cbn [filter List.length]. rewrite I1. lia. }
      split. { intros p [A|A]; [discriminate|auto]. }
      split. { intros [A|A]; try discriminate; auto. }
      rewrite I5. repeat split; auto. lia.
Qed.

(** ** Packets *)
Lemma trace_app : forall h1 h2 c, trace c (h1 ++ h2) = (trace c h1 ++ trace (after c h1) h2)%list.
Proof.
  induction h1 as [|o h1 IH]; intros h2 c; [reflexivity|].
  rewrite after_cons. cbn [trace app]. destruct (step c o) as [c1 o1]. cbn [fst]. rewrite IH. reflexivity.
Qed.
Lemma trace_outs : forall h c, outs c h = concat (map snd (trace c h)).
Proof.
  induction h as [|o h IH]; intros c; [reflexivity|]. rewrite outs_cons. cbn [trace].
  destruct (step c o) as [c1 o1]. cbn. rewrite IH. reflexivity.
Qed.
Lemma on_its_way_app : forall a b x, on_its_way x (a ++ b) = on_its_way (on_its_way x a) b.
Proof. induction a as [|[o l] a IH]; intros b x; [reflexivity|]. cbn. apply IH. Qed.

Lemma step_sends : forall c o,
  ka_sending (c_ka (fst (step c o))) =
    (match o with Done => false | _ => if sends (snd (step c o)) then true else ka_sending (c_ka c) end) /\
  (forall p, In (OSend p) (snd (step c o)) ->
     ka_sending (c_ka c) = false /\
     ((o = Tick /\ p = the_request) \/
      (exists q, o = Recv q /\ 18 <= List.length q /\ firstn 2 q = [4%N; 3%N] /\ p = the_response q))).
Proof.
  intros c [ |q| | | |i r m| ]; cbn [step].
  - split; [reflexivity|]. intros p [A|[]]; discriminate.
  - destruct (recv_is c q) as (k & E & [(-> & ->) | (S & L & F & -> & ->)]); rewrite E.
    + split; [reflexivity|]. intros p [].
    + split; [reflexivity|]. intros p [A|[]]. injection A as <-. split; auto. right. eauto.
  - split; [reflexivity|]. intros p [].
  - split; [reflexivity|]. intros p [].
  - destruct (c_pending c).
    2:{ split; [reflexivity|]. intros p []. }
    unfold tick, should_send.
    destruct (_ && _)%bool. { keep. split; [reflexivity|]. intros p [A|[]]; discriminate. }
    destruct (N.ltb _ _). { keep. split; [reflexivity|]. intros p [A|[]]; discriminate. }
    cbn [with_lost ka_sending ka_n ka_lost].
    destruct (ka_sending (c_ka c)) eqn:S; cbn [negb andb].
    { keep. rewrite S. split; [reflexivity|]. intros p [A|[]]; discriminate. }
    destruct (N.ltb _ _).
    { keep. split; [reflexivity|]. intros p [A|[A|[]]]; [|discriminate]. injection A as <-. auto. }
    { keep. rewrite S. split; [reflexivity|]. intros p [A|[]]; discriminate. }
  - unfold ka_set. destruct (N.eqb r 0); (split; [reflexivity|]); intros p; cbn; [intros [A|[]]; discriminate|intros []].
  - split; [reflexivity|]. intros p [].
Qed.

Lemma sending_is : forall h c, ka_sending (c_ka (after c h)) = on_its_way (ka_sending (c_ka c)) (trace c h).
Proof.
  induction h as [|o h IH]; intros c; [reflexivity|]. rewrite after_cons. cbn [trace].
  destruct (step_sends c o) as [E _]. destruct (step c o) as [c1 o1]. cbn [fst snd] in *.
  cbn [on_its_way]. rewrite <- E. apply IH.
Qed.

Lemma trace_split : forall h c p o l q, trace c h = p ++ (o, l) :: q ->
  exists h1 h2, h = h1 ++ o :: h2 /\ p = trace c h1 /\ l = snd (step (after c h1) o) /\
                q = trace (fst (step (after c h1) o)) h2.
Proof.
  induction h as [|o' h IH]; intros c p o l q E.
  - destruct p; discriminate.
  - cbn [trace] in E. destruct (step c o') as [c1 o1] eqn:S. destruct p as [|x p].
    + cbn in E. injection E as -> -> E. exists [], h. unfold after. cbn [run fst]. rewrite S. repeat split; auto.
    + cbn in E. injection E as <- E. destruct (IH _ _ _ _ _ E) as (h1 & h2 & -> & -> & -> & ->).
      exists (o' :: h1), h2. rewrite after_cons. cbn [trace]. rewrite S. cbn [fst]. repeat split; auto.
Qed.

(** ** Many packets *)
Lemma many_recv : forall k c, (N.of_nat k + c_recv c < 2 ^ 32)%N ->
  after c (repeat (Recv []) k) =
  {| c_ka := c_ka c; c_recv := c_recv c + N.of_nat k; c_sent := c_sent c; c_pending := c_pending c |}.
Proof.
  induction k as [|k IH]; intros c L.
  - cbn [repeat]. unfold after. cbn [run fst]. rewrite N.add_0_r. destruct c; reflexivity.
  - cbn [repeat]. rewrite after_cons. cbn [step recv fst]. rewrite IH; cbn [c_recv c_ka c_sent c_pending].
    + f_equal. unfold u32. rewrite N.mod_small by lia. lia.
    + unfold u32. rewrite N.mod_small by lia. lia.
Qed.
Lemma many_sent : forall k c, (N.of_nat k + c_sent c < 2 ^ 32)%N ->
  after c (repeat Sent k) =
  {| c_ka := c_ka c; c_recv := c_recv c; c_sent := c_sent c + N.of_nat k; c_pending := c_pending c |}.
Proof.
  induction k as [|k IH]; intros c L.
  - cbn [repeat]. unfold after. cbn [run fst]. rewrite N.add_0_r. destruct c; reflexivity.
  - cbn [repeat]. rewrite after_cons. cbn [step fst]. rewrite IH; cbn [c_recv c_ka c_sent c_pending].
    + f_equal. unfold u32. rewrite N.mod_small by lia. lia.
    + unfold u32. rewrite N.mod_small by lia. lia.
Qed.

(** The limit cannot be passed. *)
Lemma never_found : forall h c, lim (c_ka c) = (2 ^ 32 - 1)%N -> (ka_lost (c_ka c) < 2 ^ 32)%N ->
  forallb quiet h = true -> ~ In OTimeout (outs c h).
Proof.
  induction h as [|o h IH]; intros c L B Q; [intros []|].
  cbn in Q. apply andb_true_iff in Q as [Qo Q]. rewrite outs_cons, in_app_iff.
  assert (C : cfg (fst (step c o)) = cfg c) by (apply step_cfg, quiet_same; auto).
  assert (G : (ka_lost (c_ka (fst (step c o))) < 2 ^ 32)%N /\ ~ In OTimeout (snd (step c o))).
  { destruct o; try discriminate; try (cbn; split; [assumption|tauto]).
    cbn [step]. destruct (c_pending c); [|cbn; split; [assumption|tauto]].
    unfold tick, should_send.
    assert (U : (u32 (ka_lost (c_ka c) + 1) < 2 ^ 32)%N) by (apply N.mod_lt; discriminate).
    destruct (_ && _)%bool. { keep. split; [reflexivity|]. intros [A|[]]; discriminate. }
    destruct (N.ltb (u32 (ka_max (c_ka c) + ka_n (c_ka c))) (ka_lost (c_ka c))) eqn:T.
    { apply N.ltb_lt in T. unfold lim in L. rewrite L in T. lia. }
    destruct (_ && _)%bool; keep; (split; [exact U|]); intros A; repeat destruct A as [A|A]; try discriminate; exact A. }
  destruct G as [G1 G2]. intros [X|X]; [tauto|]. revert X. apply IH; auto.
  rewrite (lim_cfg _ _ C). exact L.
Qed.
