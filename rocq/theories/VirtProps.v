(** C46, C47, C48: virtual streams. *)
From Coq Require Import List Bool Arith Lia.
From Verif Require Import VirtModel VirtSpec VirtProofs VirtMore VirtData VirtStop.
Import ListNotations.

(** * C46 *)
(** What one side has received is always a prefix of what the other side has written. *)
Theorem C46_prefix : forall e0 h w, exists x, received (other w) (snd (run (init e0) h)) ++ x = written w (snd (run (init e0) h)).
Proof. intros e0 h w. destruct (reach_bytes e0 w h) as (x & X & _). eauto. Qed.
Print Assumptions C46_prefix.
(** Nothing is lost: while nobody aborts, what is written and not received is the rest of a write which waits. *)
Theorem C46_nothing_lost : forall e0 h w, lawful e0 h -> live h -> (forall e b, ~ waits (is_write w e b) (snd (run (init e0) h))) -> received (other w) (snd (run (init e0) h)) = written w (snd (run (init e0) h)).
Proof.
  intros e0 h w L LV N. destruct (reach_bytes e0 w h) as (x & X & Y). specialize (Y (reach_live e0 h LV)). unfold rest in Y. destruct (d_write (writer w (fst (run (init e0) h)))) as [y|] eqn:W; [exfalso|subst x; rewrite app_nil_r in X; exact X].
  assert (K : exists b, In (is_write w (w_ev y) b) h) by (destruct w; [eapply k_sw|eapply k_cw]; eauto; apply reach_kinds). destruct K as [b K]. destruct (in_run h (init e0) _ K) as [l I]. apply (N (w_ev y) b). exists (w_ev y), l. split; [destruct w; reflexivity|]. split; [exact I|].
  apply (holds_waits e0 h (is_write w (w_ev y) b)); [exact L|destruct w; exists y; auto|destruct w; reflexivity].
Qed.
Print Assumptions C46_nothing_lost.
(** A write completes with OK only when everything written so far has been received. *)
Theorem C46_write_ok : forall e0 h o w e b, lawful e0 (h ++ [o]) -> In (is_write w e b) (h ++ [o]) -> In (Complete e Ok) (snd (step o (fst (run (init e0) h)))) ->
  received (other w) (snd (run (init e0) (h ++ [o]))) = written w (snd (run (init e0) (h ++ [o]))).
Proof.
  intros e0 h o w e b L I C. assert (EV : event1 (is_write w e b) = Some e) by (destruct w; reflexivity).
  destruct (reach_bytes e0 w (h ++ [o])) as (x & X & Y). assert (Z : stopped (fst (run (init e0) (h ++ [o]))) = false /\ d_write (writer w (fst (run (init e0) (h ++ [o])))) = None);
    [|destruct Z as [Z1 Z2]; specialize (Y Z1); unfold rest in Y; rewrite Z2 in Y; subst x; rewrite app_nil_r in X; exact X].
  clear x X Y. pose proof (lawful_app _ _ _ L) as L1. rewrite run_snoc. cbn [fst]. set (s := fst (run (init e0) h)) in *. pose proof (reach_kinds e0 h) as K. fold s in K.
  assert (U : forall o', In o' (h ++ [o]) -> event1 o' = Some e -> o' = is_write w e b) by (intros o' I' E'; exact (lawful_unique e0 _ _ _ e L I' I E' EV)).
  assert (UH : forall o', In o' h -> event1 o' = Some e -> o' = is_write w e b) by (intros o' I' E'; apply U; [apply in_app_iff; auto|exact E']).
  assert (UO : event1 o = Some e -> o = is_write w e b) by (intros E'; apply U; [apply in_app_iff; right; left; reflexivity|exact E']).
  assert (NO : e <> e0) by (intros ->; apply (lawful_open _ _ _ L I EV)).
  assert (SR : forall r, d_read (srv s) = Some r -> r_ev r <> e) by (intros r R E; destruct (k_sr _ _ _ K r R) as [n J]; rewrite E in J; specialize (UH _ J eq_refl); destruct w; discriminate).
  assert (CR : forall r, d_read (cli s) = Some r -> r_ev r <> e) by (intros r R E; destruct (k_cr _ _ _ K r R) as [n J]; rewrite E in J; specialize (UH _ J eq_refl); destruct w; discriminate).
  assert (SC : d_close (srv s) <> Some e) by (intros R; pose proof (k_sc _ _ _ K e R) as J; specialize (UH _ J eq_refl); destruct w; discriminate).
  assert (CC : d_close (cli s) <> Some e) by (intros R; pose proof (k_cc _ _ _ K e R) as J; specialize (UH _ J eq_refl); destruct w; discriminate).
  assert (SW : forall y, d_write (srv s) = Some y -> w_ev y = e -> w = Server) by (intros y R E; destruct (k_sw _ _ _ K y R) as [n J]; rewrite E in J; specialize (UH _ J eq_refl); destruct w; [reflexivity|discriminate]).
  assert (CW : forall y, d_write (cli s) = Some y -> w_ev y = e -> w = Client) by (intros y R E; destruct (k_cw _ _ _ K y R) as [n J]; rewrite E in J; specialize (UH _ J eq_refl); destruct w; [discriminate|reflexivity]).
  pose proof (reach_still e0 h) as ST. fold s in ST.
  destruct o as [a|all a n|a c|a| |all a n|a c|a|]; cbn [step] in *.
  - destruct (_ || _); [destruct C as [C|[]]; congruence|]. destruct (d_open (srv s)); [destruct C as [C|[]]; congruence|]. exfalso. cbn [snd] in C. apply in_app_iff in C as [C|[C|[]]]; [apply in_resolve in C as [C _]; apply (k_co _ _ _ K) in C; congruence|]. inversion C; subst. specialize (UO eq_refl). destruct w; discriminate.
  - destruct (_ || _) eqn:S0; [destruct C as [C|[]]; congruence|]. destruct (d_read (srv s)) eqn:RD; [destruct C as [C|[]]; congruence|]. destruct (_ && _); [destruct C as [C|[]]; congruence|].
    match goal with |- context [do_write ?x] => pose proof (do_write_events x e Ok) as T; pose proof (do_write_bytes x) as (_ & _ & _ & T2); destruct (do_write x) as [s' l] end. cbn [fst snd] in *. destruct C as [C|C]; [discriminate|]. split; [rewrite T2; exact S0|].
    destruct (T C) as [(r & R & E)|[(y & Y & E & Z)|D]]; [|rewrite (CW y Y E); exact Z|contradiction]. cbn in R. inversion R; subst. cbn in *. specialize (UO eq_refl). destruct w; discriminate.
  - destruct (_ || _) eqn:S0; [destruct C as [C|[]]; congruence|]. destruct (d_write (srv s)) eqn:WD; [destruct C as [C|[]]; congruence|]. destruct (d_closed (srv s)); [destruct C as [C|[]]; congruence|].
    match goal with |- context [do_read ?x] => pose proof (do_read_events x e Ok C) as T; pose proof (do_read_bytes x) as (_ & _ & _ & T2) end. split; [rewrite T2; exact S0|].
    destruct T as [(r & R & E)|[(y & Y & E & Z)|D]]; [exfalso; apply (CR r R E)| |contradiction]. cbn in Y. inversion Y; subst. cbn in *. specialize (UO eq_refl). destruct w; [exact Z|discriminate].
  - exfalso. destruct (_ || _); [destruct C as [C|[]]; congruence|]. destruct (d_close (srv s)); [destruct C as [C|[]]; congruence|]. cbn in C. destruct (d_write (srv s)); [destruct C|]. cbn [snd] in C. apply in_app_iff in C as [C|[C|[]]]; [apply in_resolve in C as [_ C]; discriminate|]. inversion C; subst. specialize (UO eq_refl). destruct w; discriminate.
  - exfalso. destruct (d_stopped (srv s)); [destruct C|]. cbn [snd] in C. rewrite !in_app_iff in C. repeat destruct C as [C|C]; apply in_resolve in C as [_ C]; discriminate.
  - destruct (d_read (cli s)) eqn:RD; [destruct C as [C|[]]; congruence|]. destruct (d_closed (srv s)); [destruct C as [C|[]]; congruence|].
    match goal with |- context [do_read ?x] => pose proof (do_read_events x e Ok) as T; pose proof (do_read_bytes x) as (_ & _ & _ & T2); destruct (do_read x) as [s' l] end. cbn [fst snd] in *. destruct C as [C|C]; [discriminate|].
    destruct (T C) as [(r & R & E)|[(y & Y & E & Z)|D]]; [|cbn in Y; split; [|rewrite (SW y Y E); exact Z]|contradiction].
    + cbn in R. inversion R; subst. cbn in *. specialize (UO eq_refl). destruct w; discriminate.
    + rewrite T2. change (stopped s = false). destruct (stopped s) eqn:S0; [|reflexivity]. destruct (ST S0) as [_ X]. congruence.
  - destruct (_ || _) eqn:S0; [destruct C as [C|[]]; congruence|]. destruct (d_closed (cli s)); [destruct C as [C|[]]; congruence|]. destruct (d_write (cli s)) eqn:WD; [destruct C as [C|[]]; congruence|].
    match goal with |- context [do_write ?x] => pose proof (do_write_events x e Ok C) as T; pose proof (do_write_bytes x) as (_ & _ & _ & T2) end. split; [rewrite T2; exact S0|].
    destruct T as [(r & R & E)|[(y & Y & E & Z)|D]]; [exfalso; apply (SR r R E)| |contradiction]. cbn in Y. inversion Y; subst. cbn in *. specialize (UO eq_refl). destruct w; [discriminate|exact Z].
  - exfalso. cbn in C. destruct (d_write (cli s)); [destruct C|]. cbn [snd] in C. apply in_app_iff in C as [C|[C|[]]]; [apply in_resolve in C as [_ C]; discriminate|]. inversion C; subst. specialize (UO eq_refl). destruct w; discriminate.
  - exfalso. destruct (d_stopped (cli s)); [destruct C|]. cbn [snd] in C. rewrite !in_app_iff in C. repeat destruct C as [C|C]; apply in_resolve in C as [_ C]; discriminate.
Qed.
Print Assumptions C46_write_ok.
Theorem C46_at_most_once : forall e0 h e, lawful e0 h -> completions e (snd (run (init e0) h)) <= 1 /\ (~ In e (e0 :: begun h) -> completions e (snd (run (init e0) h)) = 0).
Proof.
  intros e0 h e L. pose proof (reach_tally e0 h e) as T. pose proof (occ_nodup e _ L). split; [lia|]. intros N. assert (occ e (e0 :: begun h) = 0) by (destruct (Nat.eq_dec (occ e (e0 :: begun h)) 0) as [Z|Z]; [exact Z|]; destruct N; apply in_occ; lia). lia.
Qed.
Print Assumptions C46_at_most_once.
(** A read never gets more than its buffer holds. When it completes with OK the length is that of the bytes in the buffer; a read all has then filled its buffer, or it is the device which reads and the client has closed. *)
Theorem C46_read : forall e0 h w all e n, lawful e0 h -> In (is_read w all e n) h -> let t := snd (run (init e0) h) in
  length (content e t) <= n /\ (In (Complete e Ok) (outs t) -> last (lengths e t) 0 = length (content e t) /\ (all = true -> length (content e t) = n \/ w = Server /\ has_closed Client t)).
Proof.
  intros e0 h w all e n L I t. subst t. destruct (reach_read e0 h w all e n L I) as [(r & R & E & A & LEN & LEFT & LA)|(NH & LE & F)].
  - split; [lia|]. intros X. apply outs_in in X. exfalso. assert (H : holds (is_read w all e n) (fst (run (init e0) h))) by (destruct w; exists r; auto). pose proof (holds_waits e0 h _ e L H (event_read w all e n)) as Z. lia.
  - split; [exact LE|]. intros X. destruct (F X) as [F1 F2]. split; [exact F1|]. intros AL. destruct (F2 AL) as [Y|[Y1 Y2]]; [auto|]. right. split; [exact Y1|]. apply closed_by_client; [exact L|exact Y2].
Qed.
Print Assumptions C46_read.
(** A read of one side and a write of the other side never both wait. *)
Theorem C46_no_stall : forall e0 h w all e n e' b, lawful e0 h -> ~ (waits (is_read w all e n) (snd (run (init e0) h)) /\ waits (is_write (other w) e' b) (snd (run (init e0) h))).
Proof.
  intros e0 h w all e n e' b L [A B]. apply (waits_holds e0 h _ L) in A; [|right; right; destruct w; discriminate]. apply (waits_holds e0 h _ L) in B; [|right; right; destruct w; discriminate]. destruct (reach_apart e0 h) as [[X|X] [Y|Y]]; destruct w; cbn in A, B; destruct A as (r & R & _), B as (y & W & _); congruence.
Qed.
Print Assumptions C46_no_stall.
(** An operation which is refused changes nothing. *)
Theorem C46_refused : forall e0 h o, lawful e0 (h ++ [o]) -> refused o (snd (step o (fst (run (init e0) h)))) = true -> fst (step o (fst (run (init e0) h))) = fst (run (init e0) h).
Proof.
  intros e0 h o L R. apply refused_same; [|exact R]. intros e E. eapply event_fresh; eauto.
Qed.
Print Assumptions C46_refused.
(** * C47 *)
(** A device which writes and closes while the client does not read yet: the client is told that the stream has ended, it never gets the bytes and neither the write nor the close completes, whatever follows
    as long as nobody aborts. *)
Theorem C47_lost_refuted : exists e0 h, lawful e0 h /\ live h /\ written Server (snd (run (init e0) h)) <> [] /\ has_closed Server (snd (run (init e0) h)) /\
  forall h', live h' -> lawful e0 (h ++ h') -> received Client (snd (run (init e0) (h ++ h'))) = [] /\
    (forall e b, In (SWrite e b) h -> completions e (snd (run (init e0) (h ++ h'))) = 0) /\ (forall e, In (SClose e) h -> completions e (snd (run (init e0) (h ++ h'))) = 0) /\
    (forall all e n, In (CRead all e n) h' -> In (Complete e Eof) (outs (snd (run (init e0) (h ++ h'))))).
Proof.
  exists 0, [SAccept 1; SWrite 2 [7; 8]; SClose 3]. split; [repeat constructor; cbn; lia|]. split; [split; cbn; intuition discriminate|]. split; [vm_compute; discriminate|]. split; [exists 3, []; split; [vm_compute; auto|reflexivity]|].
  set (h0 := [SAccept 1; SWrite 2 [7; 8]; SClose 3]).
  assert (G : forall h', live h' -> let s := fst (run (init 0) (h0 ++ h')) in let t := snd (run (init 0) (h0 ++ h')) in lawful 0 (h0 ++ h') ->
    d_closed (srv s) = true /\ d_write (srv s) = Some {| w_ev := 2; w_rest := [7; 8] |} /\ d_close (srv s) = Some 3 /\ d_read (cli s) = None /\ stopped s = false /\ received Client t = [] /\ (forall all e n, In (CRead all e n) h' -> In (Complete e Eof) (outs t))).
  { induction h' as [|o h' IH] using rev_ind; intros LV.
    - rewrite app_nil_r. vm_compute. repeat split; auto.
    - rewrite app_assoc. intros s t L. subst s t. assert (LV' : live h') by (destruct LV as [A B]; split; intros X; [apply A|apply B]; apply in_app_iff; auto). specialize (IH LV' (lawful_app _ _ _ L)). cbv zeta in IH. rewrite run_snoc. cbn [fst snd]. set (s := fst (run (init 0) (h0 ++ h'))) in *. destruct IH as (A & B & C & D & E & F & G).
      rewrite received_snoc, F. unfold stopped in E |- *.
      assert (SAME : forall x, (forall all e n, o <> CRead all e n) -> forall s', d_closed (srv s') = true /\ d_write (srv s') = Some {| w_ev := 2; w_rest := [7; 8] |} /\ d_close (srv s') = Some 3 /\ d_read (cli s') = None /\ d_stopped (srv s') || d_stopped (cli s') = false /\ got1 Client x = [] ->
        d_closed (srv s') = true /\ d_write (srv s') = Some {| w_ev := 2; w_rest := [7; 8] |} /\ d_close (srv s') = Some 3 /\ d_read (cli s') = None /\ d_stopped (srv s') || d_stopped (cli s') = false /\ [] ++ got1 Client x = [] /\ (forall all e n, In (CRead all e n) (h' ++ [o]) -> In (Complete e Eof) (outs (snd (run (init 0) (h0 ++ h')) ++ [(o, x)])))).
      { intros x N s' (A' & B' & C' & D' & E' & F'). repeat (split; [assumption|]). intros all e n I. rewrite outs_snoc, in_app_iff. apply in_app_iff in I as [I|[I|[]]]; [left; eapply G; eauto|exfalso; eapply N; eauto]. }
      destruct o as [a|all a n|a b|a| |all a n|a b|a|].
      + cbn [step]. rewrite E. pose proof (k_so _ _ _ (reach_kinds 0 (h0 ++ h'))) as KS. fold s in KS. rewrite KS. apply SAME; [discriminate|]. cbn [fst snd]. rewrite got_app, got_resolve. repeat split; auto.
      + cbn [step]. rewrite E. destruct (d_read (srv s)); [apply SAME; [discriminate|repeat split; auto]|]. destruct (_ && _); [apply SAME; [discriminate|repeat split; auto]|]. match goal with |- context [do_write ?x] => pose proof (do_write_sub x) as T; pose proof (do_write_bytes x) as (T1 & _ & _ & T2); pose proof (do_write_cli x) as (T3 & T4 & T5); assert (T6 : d_write (srv (fst (do_write x))) = d_write (srv x) /\ d_close (srv (fst (do_write x))) = d_close (srv x)) by (unfold do_write, resolve_write; crush; cbn; auto); destruct (do_write x) as [s' l] end. cbn [fst snd] in *. destruct T6 as [T6 T7]. apply SAME; [discriminate|]. rewrite T3, T4, T6, T7. unfold stopped in T2. rewrite T2. repeat split; auto.
      + cbn [step]. rewrite E, B. apply SAME; [discriminate|repeat split; auto].
      + cbn [step]. rewrite E, C. apply SAME; [discriminate|repeat split; auto].
      + destruct LV as [X _]. destruct X. apply in_app_iff. right. left. reflexivity.
      + cbn [step]. rewrite D, A. cbn [fst snd]. repeat (split; [assumption || reflexivity|]). intros all' e n' I. rewrite outs_snoc, in_app_iff. apply in_app_iff in I as [I|[I|[]]]; [left; eapply G; eauto|inversion I; subst; right; left; reflexivity].
      + cbn [step]. rewrite E. destruct (d_closed (cli s)); [apply SAME; [discriminate|repeat split; auto]|]. destruct (d_write (cli s)); [apply SAME; [discriminate|repeat split; auto]|]. match goal with |- context [do_write ?x] => pose proof (do_write_bytes x) as (T1 & _ & _ & T2); pose proof (do_write_cli x) as (T3 & T4 & T5); assert (T6 : d_write (srv (fst (do_write x))) = d_write (srv x) /\ d_close (srv (fst (do_write x))) = d_close (srv x)) by (unfold do_write, resolve_write; crush; cbn; auto); destruct (do_write x) as [s' l] end. cbn [fst snd] in *. destruct T6 as [T6 T7]. apply SAME; [discriminate|]. rewrite T3, T4, T6, T7. unfold stopped in T2. rewrite T2. repeat split; auto.
      + cbn [step]. cbn. apply SAME; [discriminate|]. destruct (d_write (cli s)); (split; [exact A|split; [exact B|split; [exact C|split; [exact D|split; [exact E|]]]]]); cbn [snd]; rewrite ?got_app, ?got_resolve; reflexivity.
      + destruct LV as [_ X]. destruct X. apply in_app_iff. right. left. reflexivity. }
  intros h' LV L. destruct (G h' LV L) as (A & B & C & D & E & F & H). split; [exact F|]. split; [|split; [|exact H]].
  - intros e b I. assert (X : e = 2) by (cbn in I; intuition congruence). subst e. apply (holds_waits 0 (h0 ++ h') (SWrite 2 [7; 8])); [exact L|cbn; eauto|reflexivity].
  - intros e I. assert (X : e = 3) by (cbn in I; intuition congruence). subst e. apply (holds_waits 0 (h0 ++ h') (SClose 3)); [exact L|exact C|reflexivity].
Qed.
Print Assumptions C47_lost_refuted.
(** The client writes and closes: a read all of the device is told that the stream has ended although bytes wait. *)
Theorem C47_early_eof_refuted : exists e0 h e n, lawful e0 h /\ live h /\ In (SRead true e n) h /\ has_closed Client (snd (run (init e0) h)) /\ In (Complete e Eof) (outs (snd (run (init e0) h))) /\ received Server (snd (run (init e0) h)) <> written Client (snd (run (init e0) h)).
Proof.
  exists 0, [SAccept 1; CWrite 2 [7; 8]; CClose 3; SRead true 4 2], 4, 2. split; [repeat constructor; cbn; lia|]. split; [split; cbn; intuition discriminate|]. split; [cbn; auto|]. split; [exists 3, []; split; [vm_compute; auto|reflexivity]|]. split; [vm_compute; auto|vm_compute; discriminate].
Qed.
Print Assumptions C47_early_eof_refuted.
(** A read ends with EOF only when the other side has closed, and then everything has been received, or a write of the other side still waits. A read some of the device ends with EOF only when everything has been received.
    Missing: a client's read and a device's read all, while a write waits. *)
Theorem C47_eof_partial : forall e0 h o w all e n, lawful e0 (h ++ [o]) -> live (h ++ [o]) -> In (is_read w all e n) (h ++ [o]) -> In (Complete e Eof) (snd (step o (fst (run (init e0) h)))) ->
  let t := snd (run (init e0) (h ++ [o])) in has_closed (other w) t /\ (received w t = written (other w) t \/ exists e' b, waits (is_write (other w) e' b) t) /\ (w = Server -> all = false -> received w t = written (other w) t).
Proof.
  intros e0 h o w all e n L LV I C t. subst t. assert (EV : event1 (is_read w all e n) = Some e) by (destruct w; reflexivity). pose proof (lawful_app _ _ _ L) as L1.
  assert (UO : event1 o = Some e -> o = is_read w all e n) by (intros E'; eapply (lawful_unique e0 _ _ _ e L); eauto; apply in_app_iff; right; left; reflexivity).
  assert (NC : ~ In (is_close w e) (h ++ [o]) /\ ~ In (is_close (other w) e) (h ++ [o])). { split; intros X; [pose proof (lawful_unique e0 _ _ _ e L I X EV)|pose proof (lawful_unique e0 _ _ _ e L I X EV)]; destruct w; specialize (H eq_refl); discriminate. }
  pose proof (reach_live e0 _ LV) as ST. destruct (reach_bytes e0 (other w) (h ++ [o])) as (x & X & Y). specialize (Y ST). replace (other (other w)) with w in X by (destruct w; reflexivity).
  assert (SS : stopped (fst (run (init e0) h)) = false). { destruct (stopped (fst (run (init e0) h))) eqn:Z; [|reflexivity]. destruct (step_still o _ (reach_still e0 h)) as [_ Q]. specialize (Q Z). rewrite run_snoc in ST. cbn [fst] in ST. congruence. }
  set (s := fst (run (init e0) h)) in *.
  assert (CLOSED : d_closed (writer (other w) (fst (run (init e0) (h ++ [o])))) = true /\ (w = Server -> all = false -> d_write (writer (other w) (fst (run (init e0) (h ++ [o])))) = None)).
  { rewrite run_snoc. cbn [fst]. fold s. unfold stopped in SS. pose proof (reach_kinds e0 h) as K. fold s in K.
    destruct o as [a|al a m|a b|a| |al a m|a b|a|]; cbn [step] in C |- *; rewrite ?SS in C |- *.
    - exfalso. destruct (d_open (srv s)); [destruct C as [C|[]]; congruence|]. cbn [snd] in C. apply in_app_iff in C as [C|[C|[]]]; [apply in_resolve in C as [_ C]; discriminate|discriminate].
    - destruct (d_read (srv s)); [destruct C as [C|[]]; congruence|]. destruct (_ && _) eqn:E.
      + apply andb_true_iff in E as [E1 E2]. destruct C as [C|[]]. inversion C; subst a. specialize (UO eq_refl). destruct w; [|discriminate]. inversion UO; subst. cbn [fst writer other]. split; [exact E1|]. intros _ ->. cbn in E2. destruct (d_write (cli s)); [discriminate|reflexivity].
      + exfalso. match goal with _ : context [do_write ?x] |- _ => pose proof (do_write_ok x) as T; destruct (do_write x) as [s' l] end. cbn [snd] in C. destruct C as [C|C]; [discriminate|]. apply T in C. discriminate.
    - exfalso. destruct (d_write (srv s)); [destruct C as [C|[]]; congruence|]. destruct (d_closed (srv s)); [destruct C as [C|[]]; congruence|]. apply do_read_ok in C. discriminate.
    - destruct (d_close (srv s)); [destruct C as [C|[]]; congruence|]. cbn in C |- *. destruct (d_write (srv s)); [destruct C|]. cbn [snd] in C. apply in_app_iff in C as [C|[C|[]]]; [|discriminate]. apply in_resolve in C as [C _]. destruct (d_read (cli s)) as [r|] eqn:R; inversion C. destruct (k_cr _ _ _ K r R) as [m J].
      assert (Q : is_read w all e n = CRead (r_all r) (r_ev r) m) by (apply (lawful_unique e0 _ _ _ e L I (in_or_app _ _ _ (or_introl J)) EV); cbn; congruence). destruct w; [discriminate|]. cbn. split; [reflexivity|discriminate].
    - exfalso. destruct LV as [X1 _]. apply X1. apply in_app_iff. right. left. reflexivity.
    - destruct (d_read (cli s)); [destruct C as [C|[]]; congruence|]. destruct (d_closed (srv s)) eqn:E.
      + destruct C as [C|[]]. inversion C; subst a. specialize (UO eq_refl). destruct w; [discriminate|]. cbn. split; [exact E|discriminate].
      + exfalso. match goal with _ : context [do_read ?x] |- _ => pose proof (do_read_ok x) as T; destruct (do_read x) as [s' l] end. cbn [snd] in C. destruct C as [C|C]; [discriminate|]. apply T in C. discriminate.
    - exfalso. destruct (d_closed (cli s)); [destruct C as [C|[]]; congruence|]. destruct (d_write (cli s)); [destruct C as [C|[]]; congruence|]. apply do_write_ok in C. discriminate.
    - cbn in C |- *. destruct (d_write (cli s)) eqn:W; [destruct C|]. cbn [snd] in C. apply in_app_iff in C as [C|[C|[]]]; [|discriminate]. apply in_resolve in C as [C _]. destruct (d_read (srv s)) as [r|] eqn:R; inversion C. destruct (k_sr _ _ _ K r R) as [m J].
      assert (Q : is_read w all e n = SRead (r_all r) (r_ev r) m) by (apply (lawful_unique e0 _ _ _ e L I (in_or_app _ _ _ (or_introl J)) EV); cbn; congruence). destruct w; [|discriminate]. cbn. split; [reflexivity|auto].
    - exfalso. destruct LV as [_ X1]. apply X1. apply in_app_iff. right. left. reflexivity. }
  destruct CLOSED as [CL EMPTY]. split; [destruct w; [apply closed_by_client|apply closed_by_server]; auto|]. split.
  - destruct (d_write (writer (other w) (fst (run (init e0) (h ++ [o]))))) as [y|] eqn:W; [right|left; unfold rest in Y; rewrite W in Y; subst x; rewrite app_nil_r in X; exact X].
    assert (K : exists b, In (is_write (other w) (w_ev y) b) (h ++ [o])) by (destruct w; [eapply k_cw|eapply k_sw]; eauto; apply reach_kinds). destruct K as [b K]. destruct (in_run (h ++ [o]) (init e0) _ K) as [l J]. exists (w_ev y), b, (w_ev y), l. split; [destruct w; reflexivity|]. split; [exact J|].
    apply (holds_waits e0 (h ++ [o]) (is_write (other w) (w_ev y) b)); [exact L|destruct w; exists y; auto|destruct w; reflexivity].
  - intros WS AL. specialize (EMPTY WS AL). unfold rest in Y. rewrite EMPTY in Y. subst x. rewrite app_nil_r in X. exact X.
Qed.
Print Assumptions C47_eof_partial.
(** A close of a side without a waiting write completes with OK at once and the waiting read of the other side ends with EOF. Missing: a close while a write waits. *)
Theorem C47_close_partial : forall e0 h w e, lawful e0 (h ++ [is_close w e]) -> live h -> (forall e' b, ~ waits (is_write w e' b) (snd (run (init e0) h))) ->
  let l := snd (step (is_close w e) (fst (run (init e0) h))) in In (Complete e Ok) l /\ (forall all e' n, waits (is_read (other w) all e' n) (snd (run (init e0) h)) -> In (Complete e' Eof) l).
Proof.
  intros e0 h w e L LV N l. pose proof (lawful_app _ _ _ L) as L1. pose proof (reach_live e0 h LV) as ST. set (s := fst (run (init e0) h)) in *.
  assert (W : d_write (writer w s) = None).
  { destruct (d_write (writer w s)) as [y|] eqn:W; [exfalso|reflexivity]. assert (K : exists b, In (is_write w (w_ev y) b) h) by (destruct w; [eapply k_sw|eapply k_cw]; eauto; apply reach_kinds). destruct K as [b K]. destruct (in_run h (init e0) _ K) as [l' J]. apply (N (w_ev y) b). exists (w_ev y), l'. split; [destruct w; reflexivity|]. split; [exact J|].
    apply (holds_waits e0 h (is_write w (w_ev y) b)); [exact L1|destruct w; exists y; auto|destruct w; reflexivity]. }
  assert (SC : w = Server -> d_close (srv s) = None). { intros ->. destruct (closes_need_write e0 h LV) as [Q|Q]; [exact Q|]. cbn in W. fold s in Q. congruence. }
  assert (RD : forall all e' n, waits (is_read (other w) all e' n) (snd (run (init e0) h)) -> option_map r_ev (d_read (writer (other w) s)) = Some e').
  { intros all e' n Q. apply (waits_holds e0 h _ L1) in Q; [|right; right; destruct w; discriminate]. destruct w; cbn in Q; destruct Q as (r & R & <-); fold s in R; cbn; rewrite R; reflexivity. }
  subst l. destruct w; cbn [is_close step writer other] in *.
  - unfold stopped in ST. rewrite ST, (SC eq_refl). cbn. rewrite W. cbn [snd]. split; [apply in_app_iff; right; left; reflexivity|]. intros all e' n Q. rewrite (RD _ _ _ Q). left. reflexivity.
  - cbn. rewrite W. cbn [snd]. split; [apply in_app_iff; right; left; reflexivity|]. intros all e' n Q. rewrite (RD _ _ _ Q). left. reflexivity.
Qed.
Print Assumptions C47_close_partial.
(** A client which closes while its write waits: a read some of the device with room for everything that is missing completes the read, the write and the close, and then everything is received. Missing: read all, and the close of the device. *)
Theorem C47_drain_partial : forall e0 h ew b ec e n, lawful e0 (h ++ [SRead false e n]) -> closes_once e0 h -> live h -> waits (CWrite ew b) (snd (run (init e0) h)) -> waits (CClose ec) (snd (run (init e0) h)) ->
  length (written Client (snd (run (init e0) h))) <= length (received Server (snd (run (init e0) h))) + n ->
  let t := snd (run (init e0) (h ++ [SRead false e n])) in received Server t = written Client t /\ In (Complete e Ok) (outs t) /\ In (Complete ew Ok) (outs t) /\ In (Complete ec Ok) (outs t).
Proof.
  intros e0 h ew b ec e n L C1 LV WW WC LE t. pose proof (lawful_app _ _ _ L) as L1. apply (waits_holds e0 h _ L1 (or_introl C1)) in WW. apply (waits_holds e0 h _ L1 (or_introl C1)) in WC. cbn [holds] in WW, WC. destruct WW as (y & W & <-).
  destruct (reach_bytes e0 Client h) as (x & X & Y). specialize (Y (reach_live e0 h LV)). unfold rest in Y. cbn [writer] in Y. rewrite W in Y. subst x. cbn [other] in X. rewrite <- X, app_length in LE.
  pose proof (reach_live e0 h LV) as ST. unfold stopped in ST. destruct (reach_apart e0 h) as [[RS|RS] _]; [|congruence].
  assert (CL : d_closed (cli (fst (run (init e0) h))) = true) by (apply (close_closed e0 h ec LV WC)).
  assert (OUT : snd (step (SRead false e n) (fst (run (init e0) h))) = [Length e 0; Copied Server e (w_rest y); Length e (length (w_rest y)); Complete e Ok; Complete (w_ev y) Ok; Complete ec Ok]).
  { set (s := fst (run (init e0) h)) in *. cbn [step]. rewrite ST, RS, W. rewrite andb_false_r. unfold do_write. cbn [srv cli on_srv set_read d_read d_write r_left r_all r_ev r_len]. rewrite W. assert (Z : n <? length (w_rest y) = false) by (apply Nat.ltb_ge; lia). rewrite Z, andb_false_r, firstn_all. unfold resolve_write. cbn. rewrite CL, W, WC. reflexivity. }
  subst t. rewrite run_snoc. cbn [snd]. rewrite received_snoc, written_snoc, OUT. split.
  - rewrite <- X. rewrite wrote_none by reflexivity. cbn. rewrite !app_nil_r. reflexivity.
  - rewrite !outs_snoc. repeat split; apply in_app_iff; right; cbn; auto 10.
Qed.
Print Assumptions C47_drain_partial.
(** * C48 *)
(** After an abort by the client, a read of the client never completes, whatever follows. *)
Theorem C48_read_refuted : exists e0 h e n, lawful e0 h /\ In (CRead false e n) h /\ In CStop h /\ forall h', lawful e0 (h ++ h') -> completions e (snd (run (init e0) (h ++ h'))) = 0.
Proof.
  exists 0, [SAccept 1; CStop; CRead false 2 10], 2, 10. set (h := [SAccept 1; CStop; CRead false 2 10]). split; [repeat constructor; cbn; lia|]. split; [cbn; auto|]. split; [cbn; auto|]. intros h' L.
  assert (G : d_closed (srv (fst (run (init 0) (h ++ h')))) = false /\ d_stopped (cli (fst (run (init 0) (h ++ h')))) = true /\ exists r, d_read (cli (fst (run (init 0) (h ++ h')))) = Some r /\ r_ev r = 2).
  { clear L. induction h' as [|o h' IH] using rev_ind; [vm_compute; split; [reflexivity|split; [reflexivity|eexists; split; reflexivity]]|]. rewrite app_assoc, run_snoc. cbn [fst]. pose proof (reach_quiet 0 (h ++ h')) as [_ Q]. set (s := fst (run (init 0) (h ++ h'))) in *. destruct IH as (A & B & r & R & E). destruct (Q B) as (Q1 & Q2 & Q3 & Q4 & Q5).
    assert (ST : d_stopped (srv s) || d_stopped (cli s) = true) by (rewrite B; apply orb_true_r).
    destruct o as [a|all a n|a b|a| |all a n|a b|a|]; cbn [step]; rewrite ?ST; try (destruct (d_stopped (srv s)) eqn:?); rewrite ?B, ?R; cbn; rewrite ?Q2; cbn; (split; [assumption|split; [assumption|exists r; split; assumption]]). }
  destruct G as (_ & _ & r & R & E). apply (holds_waits 0 (h ++ h') (CRead false 2 10)); [exact L|cbn; eauto|reflexivity].
Qed.
Print Assumptions C48_read_refuted.
(** An abort by the device does not complete the waiting read of the client: it waits until the client itself aborts. *)
Theorem C48_device_abort_refuted : exists e0 h e n, lawful e0 h /\ In (CRead false e n) h /\ In SStop h /\ forall h', ~ In CStop h' -> lawful e0 (h ++ h') -> completions e (snd (run (init e0) (h ++ h'))) = 0.
Proof.
  exists 0, [SAccept 1; CRead false 2 10; SStop], 2, 10. set (h := [SAccept 1; CRead false 2 10; SStop]). split; [repeat constructor; cbn; lia|]. split; [cbn; auto|]. split; [cbn; auto|]. intros h' NS L.
  assert (G : d_closed (srv (fst (run (init 0) (h ++ h')))) = false /\ d_stopped (srv (fst (run (init 0) (h ++ h')))) = true /\ exists r, d_read (cli (fst (run (init 0) (h ++ h')))) = Some r /\ r_ev r = 2).
  { clear L. induction h' as [|o h' IH] using rev_ind; [vm_compute; split; [reflexivity|split; [reflexivity|eexists; split; reflexivity]]|]. rewrite app_assoc, run_snoc. cbn [fst]. pose proof (reach_quiet 0 (h ++ h')) as [Q _]. set (s := fst (run (init 0) (h ++ h'))) in *. assert (NS' : ~ In CStop h') by (intros X; apply NS; apply in_app_iff; auto). destruct (IH NS') as (A & B & r & R & E). destruct (Q B) as (Q1 & Q2 & Q3).
    assert (ST : d_stopped (srv s) || d_stopped (cli s) = true) by (rewrite B; reflexivity).
    destruct o as [a|all a n|a b|a| |all a n|a b|a|]; cbn [step]; rewrite ?ST; rewrite ?B, ?R; try (destruct NS; apply in_app_iff; right; left; reflexivity); cbn; try (destruct (d_write (cli s))); cbn; (split; [assumption|split; [assumption|exists r; split; assumption]]). }
  destruct G as (_ & _ & r & R & E). apply (holds_waits 0 (h ++ h') (CRead false 2 10)); [exact L|cbn; eauto|reflexivity].
Qed.
Print Assumptions C48_device_abort_refuted.
(** An abort by the client does not complete the waiting close of the device. *)
Theorem C48_close_refuted : exists e0 h e, lawful e0 h /\ In (SClose e) h /\ In CStop h /\ forall h', ~ In SStop h' -> lawful e0 (h ++ h') -> completions e (snd (run (init e0) (h ++ h'))) = 0.
Proof.
  exists 0, [SAccept 1; SWrite 2 [7]; SClose 3; CStop], 3. set (h := [SAccept 1; SWrite 2 [7]; SClose 3; CStop]). split; [repeat constructor; cbn; lia|]. split; [cbn; auto|]. split; [cbn; auto|]. intros h' NS L.
  assert (G : d_closed (srv (fst (run (init 0) (h ++ h')))) = true /\ d_stopped (cli (fst (run (init 0) (h ++ h')))) = true /\ d_close (srv (fst (run (init 0) (h ++ h')))) = Some 3).
  { clear L. induction h' as [|o h' IH] using rev_ind; [vm_compute; auto|]. rewrite app_assoc, run_snoc. cbn [fst]. pose proof (reach_quiet 0 (h ++ h')) as [_ Q]. set (s := fst (run (init 0) (h ++ h'))) in *. assert (NS' : ~ In SStop h') by (intros X; apply NS; apply in_app_iff; auto). destruct (IH NS') as (A & B & C). destruct (Q B) as (Q1 & Q2 & Q3 & Q4 & Q5).
    assert (ST : d_stopped (srv s) || d_stopped (cli s) = true) by (rewrite B; apply orb_true_r).
    destruct o as [a|all a n|a b|a| |all a n|a b|a|]; cbn [step]; rewrite ?ST; try (destruct NS; apply in_app_iff; right; left; reflexivity); rewrite ?B; cbn; rewrite ?Q2; try destruct (d_read (cli s)); cbn; rewrite ?A; cbn; rewrite ?A, ?B, ?C; auto. }
  destruct G as (_ & _ & E). apply (holds_waits 0 (h ++ h') (SClose 3)); [exact L|exact E|reflexivity].
Qed.
Print Assumptions C48_close_refuted.
(** The first abort by the client: every operation before it except a close of the device, and every operation after it except a read of the client, has completed exactly once, and so has the open. *)
Theorem C48_client_abort_partial : forall e0 h1 h2, lawful e0 (h1 ++ CStop :: h2) -> closes_once e0 (h1 ++ CStop :: h2) -> ~ In CStop h1 -> let t := snd (run (init e0) (h1 ++ CStop :: h2)) in
  completions e0 t = 1 /\
  (forall o e, In o h1 -> event1 o = Some e -> (forall e', o <> SClose e') -> completions e t = 1) /\
  (forall o e, In o h2 -> event1 o = Some e -> (forall all e' n, o <> CRead all e' n) -> completions e t = 1).
Proof.
  intros e0 h1 h2 L C N t. subst t. destruct (stopped_after e0 h1 h2) as [_ S2]. pose proof (reach_quiet e0 (h1 ++ CStop :: h2)) as [_ Q]. destruct (Q S2) as (Q1 & Q2 & Q3 & Q4 & Q5). split; [apply open_done; assumption|].
  assert (SPLIT : h1 ++ CStop :: h2 = (h1 ++ [CStop]) ++ h2) by (rewrite <- app_assoc; reflexivity).
  assert (UP : forall e, completions e (snd (run (init e0) (h1 ++ CStop :: h2))) <= 1) by (intros e; pose proof (reach_tally e0 (h1 ++ CStop :: h2) e); pose proof (occ_nodup e _ L); lia).
  assert (MOST : forall o e, In o (h1 ++ CStop :: h2) -> event1 o = Some e -> (forall e', o <> SClose e') -> (forall all e' n, o <> CRead all e' n) -> completions e (snd (run (init e0) (h1 ++ CStop :: h2))) = 1).
  { intros o e I E N1 N2. apply (gone_done e0 _ o e L (or_introl C) I E). destruct o as [a|all a n|a b|a| |all a n|a b|a|]; cbn [holds].
    - rewrite (k_so _ _ _ (reach_kinds e0 (h1 ++ CStop :: h2))). discriminate.
    - rewrite Q4. intros (r & R & _). discriminate.
    - rewrite Q5. intros (r & R & _). discriminate.
    - destruct (N1 a eq_refl).
    - discriminate.
    - destruct (N2 all a n eq_refl).
    - rewrite Q2. intros (r & R & _). discriminate.
    - rewrite Q3. discriminate.
    - discriminate. }
  split.
  - intros o e I E N1. destruct o as [a|all a n|a b|a| |all a n|a b|a|]; try (refine (MOST _ e (in_or_app _ _ _ (or_introl I)) E N1 _); discriminate). inversion E; subst a.
    pose proof (UP e) as U. pose proof (completions_prefix e0 (h1 ++ [CStop]) h2 e) as P. rewrite <- SPLIT in P. rewrite SPLIT in L, C. pose proof (lawful_app _ _ _ L) as L1. pose proof (closes_app _ _ _ C) as C1.
    assert (X : completions e (snd (run (init e0) (h1 ++ [CStop]))) = 1); [|lia]. apply (gone_done e0 _ (CRead all e n) e L1 (or_introl C1)); [apply in_app_iff; auto|reflexivity|]. rewrite run_snoc. cbn [fst step holds].
    assert (D : d_stopped (cli (fst (run (init e0) h1))) = false) by (apply never_stopped; exact N). rewrite D. cbn. intros (r & R & _). discriminate.
  - intros o e I E N2. destruct o as [a|all a n|a b|a| |all a n|a b|a|]; try (refine (MOST _ e (in_or_app _ _ _ (or_intror (in_cons _ _ _ I))) E _ N2); discriminate). inversion E; subst a.
    pose proof (UP e) as U. apply in_split in I as (g1 & g2 & ->). assert (SP : h1 ++ CStop :: g1 ++ SClose e :: g2 = (h1 ++ CStop :: g1) ++ SClose e :: g2) by (rewrite <- app_assoc; reflexivity). rewrite SP in U |- *.
    assert (X : 1 <= completions e (snd (run (init e0) ((h1 ++ CStop :: g1) ++ SClose e :: g2)))); [|lia]. apply (done_step e0 _ (SClose e) g2 e StoppedEc). rewrite stopped_answers; [left; reflexivity|]. destruct (stopped_after e0 h1 g1) as [_ Z]. rewrite Z. apply orb_true_r.
Qed.
Print Assumptions C48_client_abort_partial.
(** What waits when the client aborts, except a close of the device, is completed by the abort with ABORTED. *)
Theorem C48_aborted_partial : forall e0 h o e, lawful e0 h -> closes_once e0 h -> ~ In CStop h -> waits o (snd (run (init e0) h)) -> event1 o = Some e -> (forall e', o <> SClose e') -> In (Complete e Aborted) (snd (step CStop (fst (run (init e0) h)))).
Proof.
  intros e0 h o e L C N W E NS. apply (waits_holds e0 h o L (or_introl C)) in W. pose proof (never_stopped e0 h N) as D. pose proof (reach_kinds e0 h) as K. set (s := fst (run (init e0) h)) in *. cbn [step]. rewrite D. cbn [snd]. rewrite !in_app_iff.
  destruct o as [a|all a n|a b|a| |all a n|a b|a|]; inversion E; subst a; cbn [holds] in W.
  - rewrite (k_so _ _ _ K) in W. discriminate.
  - destruct W as (r & -> & <-). right. right. right. right. left. left. reflexivity.
  - destruct W as (r & -> & <-). right. right. right. right. right. left. reflexivity.
  - destruct (NS e eq_refl).
  - destruct W as (r & -> & <-). right. left. left. reflexivity.
  - destruct W as (r & -> & <-). right. right. left. left. reflexivity.
  - rewrite W. right. right. right. left. left. reflexivity.
Qed.
Print Assumptions C48_aborted_partial.
(** After an abort by the device every operation of the device, earlier or later, has completed exactly once; those which waited complete with ABORTED. Missing: the operations of the client. *)
Theorem C48_device_partial : forall e0 h1 h2, lawful e0 (h1 ++ SStop :: h2) -> let t := snd (run (init e0) (h1 ++ SStop :: h2)) in
  (forall o e, In o (h1 ++ h2) -> by1 o = Server -> event1 o = Some e -> completions e t = 1) /\
  (forall o e, by1 o = Server -> event1 o = Some e -> waits o (snd (run (init e0) h1)) -> In (Complete e Aborted) (snd (step SStop (fst (run (init e0) h1))))).
Proof.
  intros e0 h1 h2 L t. subst t. destruct (stopped_after e0 h1 h2) as [S1 _]. pose proof (reach_quiet e0 (h1 ++ SStop :: h2)) as [Q _]. destruct (Q S1) as (Q1 & Q2 & Q3). split.
  - intros o e I B E. apply (gone_done e0 _ o e L); [right; intros e' ->; discriminate|apply in_app_iff; apply in_app_iff in I as [I|I]; [auto|right; right; exact I]|exact E|].
    destruct o as [a|all a n|a b|a| |all a n|a b|a|]; try discriminate; cbn [holds].
    + rewrite (k_so _ _ _ (reach_kinds e0 (h1 ++ SStop :: h2))). discriminate.
    + rewrite Q1. intros (r & R & _). discriminate.
    + rewrite Q2. intros (r & R & _). discriminate.
    + rewrite Q3. discriminate.
  - intros o e B E W. pose proof (lawful_app _ _ _ L) as L1. apply (waits_holds e0 h1 o L1) in W; [|auto]. pose proof (reach_kinds e0 h1) as K. pose proof (reach_quiet e0 h1) as [Q' _]. set (s := fst (run (init e0) h1)) in *. cbn [step].
    destruct (d_stopped (srv s)) eqn:D; [exfalso; destruct (Q' eq_refl) as (X1 & X2 & X3)|cbn [snd]; rewrite !in_app_iff].
    + destruct o as [a|all a n|a b|a| |all a n|a b|a|]; try discriminate; cbn [holds] in W; [rewrite (k_so _ _ _ K) in W|destruct W as (r & R & _)|destruct W as (r & R & _)|]; congruence.
    + destruct o as [a|all a n|a b|a| |all a n|a b|a|]; try discriminate; inversion E; subst a; cbn [holds] in W.
      * rewrite (k_so _ _ _ K) in W. discriminate.
      * destruct W as (r & -> & <-). right. left. left. reflexivity.
      * destruct W as (r & -> & <-). right. right. left. left. reflexivity.
      * rewrite W. right. right. right. left. reflexivity.
Qed.
Print Assumptions C48_device_partial.

(** * Examples *)
Definition chat : list op := [SAccept 1; SWrite 2 [1; 2; 3]; CRead false 3 2; CRead true 4 3; SWrite 5 [4; 5; 6]; CWrite 6 [9]; SRead false 7 5; CRead false 8 10; SClose 9; CWrite 10 [8; 7]; CClose 11; SRead false 12 2].
Lemma chat_lawful : lawful 0 chat. Proof. repeat constructor; cbn; intuition discriminate. Qed.
Lemma chat_live : live chat. Proof. split; cbn; intuition discriminate. Qed.
Example C46_ex : lawful 0 chat /\ live chat /\ received Client (snd (run (init 0) chat)) = [1; 2; 3; 4; 5; 6] /\ received Server (snd (run (init 0) chat)) = [9; 8; 7].
Proof. split; [exact chat_lawful|]. split; [exact chat_live|]. split; vm_compute; reflexivity. Qed.
Example C46_ex_waits : received Client (snd (run (init 0) [SAccept 1; SWrite 2 [1; 2; 3]; CRead false 3 2])) = [1; 2] /\ waits (SWrite 2 [1; 2; 3]) (snd (run (init 0) [SAccept 1; SWrite 2 [1; 2; 3]; CRead false 3 2])).
Proof. split; [reflexivity|]. exists 2, []. vm_compute. auto. Qed.
Example C46_ex_write : In (Complete 2 Ok) (snd (step (CRead true 4 3) (fst (run (init 0) [SAccept 1; SWrite 2 [1; 2; 3]; CRead false 3 2])))) /\ content 3 (snd (run (init 0) chat)) = [1; 2] /\ content 4 (snd (run (init 0) chat)) = [3; 4; 5] /\ lengths 4 (snd (run (init 0) chat)) = [0; 1; 3] /\ In (Complete 4 Ok) (outs (snd (run (init 0) chat))).
Proof. vm_compute. repeat split; auto 20. Qed.
Example C46_ex_closed : let h := [SAccept 1; CWrite 2 [7; 8; 9]; CClose 3; SRead false 4 1; SRead false 5 5] in lawful 0 h /\ content 5 (snd (run (init 0) h)) = [8; 9] /\ has_closed Client (snd (run (init 0) h)).
Proof. split; [repeat constructor; cbn; intuition discriminate|]. split; [reflexivity|]. exists 3, []. vm_compute. auto. Qed.
Example C46_ex_refused : let h := [SAccept 1; CRead true 2 4] in lawful 0 (h ++ [CRead false 3 1]) /\ refused (CRead false 3 1) (snd (step (CRead false 3 1) (fst (run (init 0) h)))) = true.
Proof. split; [repeat constructor; cbn; intuition discriminate|reflexivity]. Qed.
Example C47_ex_eof : let h := [SAccept 1; CWrite 2 [7]; SRead false 3 1; SRead false 4 1] in lawful 0 (h ++ [CClose 5]) /\ live (h ++ [CClose 5]) /\ In (Complete 4 Eof) (snd (step (CClose 5) (fst (run (init 0) h)))) /\ received Server (snd (run (init 0) h)) = [7].
Proof. split; [repeat constructor; cbn; intuition discriminate|]. split; [split; cbn; intuition discriminate|]. vm_compute. auto. Qed.
Example C47_ex_close : let h := [SAccept 1; CRead true 2 4; SWrite 3 [7]] in lawful 0 (h ++ [SClose 5]) /\ live h /\ (forall e b, ~ waits (SWrite e b) (snd (run (init 0) h))) /\ waits (CRead true 2 4) (snd (run (init 0) h)).
Proof. split; [repeat constructor; cbn; intuition discriminate|]. split; [split; cbn; intuition discriminate|]. split; [|eexists 2, _; split; [reflexivity|]; vm_compute; eauto]. intros e b (e' & l & E & I & Z). inversion E; subst e'. assert (e = 3) by (vm_compute in I; intuition congruence). subst. discriminate. Qed.
Example C47_ex_drain : let h := [SAccept 1; CWrite 2 [7; 8; 9]; SRead false 3 1; CClose 4] in lawful 0 (h ++ [SRead false 5 2]) /\ live h /\ waits (CWrite 2 [7; 8; 9]) (snd (run (init 0) h)) /\ waits (CClose 4) (snd (run (init 0) h)) /\ length (written Client (snd (run (init 0) h))) <= length (received Server (snd (run (init 0) h))) + 2.
Proof. split; [repeat constructor; cbn; intuition discriminate|]. split; [split; cbn; intuition discriminate|]. split; [eexists 2, _; split; [reflexivity|]; vm_compute; eauto|]. split; [eexists 4, _; split; [reflexivity|]; vm_compute; eauto 10|vm_compute; lia]. Qed.
Lemma closes_none : forall e0 h, (forall e, ~ In (CClose e) h) -> closes_once e0 h.
Proof. intros e0 h N h1 h2 e e' ->. destruct (N e). apply in_app_iff. right. left. reflexivity. Qed.
Example C48_ex : let h1 := [SAccept 1; CRead true 2 4; SRead false 3 5] in let h2 := [SWrite 5 [1]; CWrite 6 [2]; SClose 7] in lawful 0 (h1 ++ CStop :: h2) /\ closes_once 0 (h1 ++ CStop :: h2) /\ ~ In CStop h1 /\ waits (CRead true 2 4) (snd (run (init 0) h1)) /\ waits (SRead false 3 5) (snd (run (init 0) h1)).
Proof. split; [repeat constructor; cbn; intuition discriminate|]. split; [apply closes_none; cbn; intuition discriminate|]. split; [cbn; intuition discriminate|]. split; [eexists 2, _; split; [reflexivity|]; vm_compute; eauto|eexists 3, _; split; [reflexivity|]; vm_compute; eauto]. Qed.
Example C48_ex_device : let h1 := [SAccept 1; SWrite 2 [1; 2]; SClose 3; SRead true 4 9] in lawful 0 (h1 ++ SStop :: [SWrite 5 [1]]) /\ waits (SClose 3) (snd (run (init 0) h1)) /\ waits (SWrite 2 [1; 2]) (snd (run (init 0) h1)) /\ waits (SRead true 4 9) (snd (run (init 0) h1)).
Proof. split; [repeat constructor; cbn; intuition discriminate|]. repeat split; eexists _, _; (split; [reflexivity|]); vm_compute; eauto 10. Qed.
