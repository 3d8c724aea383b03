(** Properties of the drivers of the CoAP protocol (C91). *)
From Coq Require Import List Bool ZArith Lia.
From Verif Require Import CdrModel CdrSpec.
Import ListNotations.
Local Open Scope Z_scope.

Lemma run_app l m s : run s (l ++ m) = let (s1, o1) := run s l in let (s2, o2) := run s1 m in (s2, o1 ++ o2).
Proof.
  revert s. induction l as [|v l IH]; intros s; cbn [app run]; [destruct (run s m); reflexivity|].
  destruct (step s v) as [s1 o1]. rewrite IH. destruct (run s1 l) as [s2 o2]. destruct (run s2 m) as [s3 o3]. now rewrite app_assoc.
Qed.
Lemma run_snoc l v s : run s (l ++ [v]) = let (s1, o1) := run s l in let (s2, o2) := step s1 v in (s2, o1 ++ o2).
Proof. rewrite run_app. destruct (run s l) as [s1 o1]. cbn [run]. destruct (step s1 v) as [s2 o2]. now rewrite app_nil_r. Qed.
(** Stamps compare as times which are less than 2^31 apart. *)
Lemma stamp_diff_near a b : -2147483648 <= a - b < 2147483648 -> stamp_diff (stamp a) (stamp b) = a - b.
Proof.
  intros H. unfold stamp_diff, stamp. rewrite <- Zminus_mod. destruct (Z_lt_ge_dec (a - b) 0) as [L|L].
  - replace ((a - b) mod two32) with (a - b + two32) by (unfold two32; rewrite <- (Z_mod_plus_full (a - b) 1 4294967296), Z.mod_small; lia).
    destruct (Z.ltb_spec (a - b + two32) 2147483648); unfold two32 in *; lia.
  - rewrite (Z.mod_small (a - b) two32) by (unfold two32; lia). destruct (Z.ltb_spec (a - b) 2147483648); lia.
Qed.
Lemma stamp_less_near a b : -2147483648 <= a - b < 2147483648 -> stamp_less (stamp a) (stamp b) = (a <? b).
Proof. intros H. unfold stamp_less. rewrite stamp_diff_near by exact H. destruct (Z.ltb_spec (a - b) 0), (Z.ltb_spec a b); lia. Qed.
Lemma stamp_add t k : stamp (stamp t + k) = stamp (t + k).
Proof. unfold stamp. now rewrite Zplus_mod_idemp_l. Qed.

Record Base (stopped : bool) (s : st) : Prop := {
  B_time : last s <= now s;
  B_buf : buf s <> Refused;
  B_want : match wants s with WaitUntil t => last s - three_days <= t < now s + three_days | _ => True end;
  B_exp : stopped = false -> match timer s with
      | None => expiry s = stamp (last s + 536870912)
      | Some due => exists b, expiry s = stamp b /\ last s - three_days <= b <= now s + three_days /\ due <= Z.max b (now s)
      end;
  B_stop : stopped = true -> Ending (wants s) }.
Lemma near_want n m w : m <= n -> Near n w -> match w with WaitUntil t => m - three_days <= t < n + three_days | _ => True end.
Proof. intros L. destruct w; cbn; auto. lia. Qed.
Lemma event_good p s c y : Base p s -> now s - last s <= three_days -> took y = true -> Near (now s) c -> Near (now s) (after y) -> (p = true -> Ending c /\ Ending (after y)) -> Base p (fst (event c y s)) /\ Taken (fst (event c y s)).
Proof.
  intros [BT BB BW BE BS] L T NC NA EN. unfold event. destruct (wants s) as [| |t|] eqn:W.
  - cbn [fst]. split; [split; cbn; auto|]; [now apply near_want|intros ->; apply EN; reflexivity|]. unfold Taken. cbn. destruct c; auto.
  - unfold handle_send. destruct (buf s) eqn:B; [|cbn [fst]; split; [split; rewrite ?W; auto; rewrite B; discriminate|unfold Taken; rewrite W; auto]|congruence].
    destruct (al y); cbn [negb]; [destruct (made y); cbn [negb]; [rewrite T|]|]; cbn [fst]; (split; [split; cbn; rewrite ?B; auto; try discriminate; [now apply near_want|intros ->; apply EN; reflexivity]|]); unfold Taken; cbn; destruct (after y); auto.
  - cbn [fst]. unfold handle_wait. unfold three_days in *. destruct p; [destruct (BS eq_refl)|]. specialize (BE eq_refl).
    assert (X : exists b, expiry s = stamp b /\ last s - 268435456 <= b <= last s + 536870912 /\ (timer s = None -> b = last s + 536870912) /\ forall due, timer s = Some due -> due <= Z.max b (now s)).
    { destruct (timer s) as [due|]; [destruct BE as (b & E1 & E2 & E3); exists b; split; [exact E1|split; [lia|split; [discriminate|intros x Q; injection Q as <-; exact E3]]]|exists (last s + 536870912); split; [exact BE|split; [lia|split; [auto|discriminate]]]]. }
    destruct X as (b & E1 & E2 & E3 & E4). rewrite E1, stamp_less_near by lia. destruct (Z.ltb_spec t b) as [Q|Q].
    + rewrite stamp_diff_near by lia. split.
      * split; cbn; rewrite ?W; auto; try discriminate. intros _. exists t. split; [reflexivity|]. split; [unfold three_days; lia|]. destruct (Z.ltb_spec (t - now s) 0); lia.
      * unfold Taken. cbn. rewrite W. right. right. eexists. split; [reflexivity|]. destruct (Z.ltb_spec (t - now s) 0); lia.
    + split.
      * split; rewrite ?W; unfold three_days; auto; try discriminate.
      * unfold Taken. rewrite W. right. right. destruct (timer s) as [due|] eqn:TM; [exists due; split; [reflexivity|]; specialize (E4 _ eq_refl); lia|]. specialize (E3 eq_refl). lia.
  - cbn [fst]. split; [split; rewrite ?W; auto|unfold Taken; now rewrite W].
Qed.
Lemma base_wants p s w : Base p s -> Near (now s) w -> (p = true -> Ending w) -> Base p (set_wants w s).
Proof. intros [BT BB BW BE BS] N E. split; cbn; auto. now apply near_want. Qed.
Lemma step_good p s v : Base p s -> Taken s -> Okay p s v -> Base (p || is_stop v) (fst (step s v)) /\ Taken (fst (step s v)).
Proof.
  intros B K (O1 & O2 & O3 & O4 & O5). destruct v as [v y]. cbn [snd fst] in *. unfold told in *. cbn [fst snd] in *.
  assert (NC : Near (now s) (cw y)) by (apply O2; now left). assert (NA : Near (now s) (after (sd y))) by (apply O2; right; now left).
  assert (EC : p || is_stop (v, y) = true -> Ending (cw y) /\ Ending (after (sd y))) by (intros P; split; apply (O5 P); [now left|right; now left]).
  destruct v as [w|w|w| |w| |d|w]; unfold step, is_stop in *; cbn [fst] in *; rewrite ?orb_false_r in *.
  - apply event_good; auto. apply base_wants; auto; [apply O2; right; right; now left|]. intros P. apply (O5 P). right. right. now left.
  - cbn [fst]. split; [|unfold Taken; cbn; destruct w; auto]. pose proof (base_wants p s w B) as X. destruct X as [A1 A2 A3 A4 A5]; [apply O2; right; right; now left|intros P; apply (O5 P); right; right; now left|]. split; cbn in *; auto.
  - cbn [fst]. split; [apply base_wants; auto; [apply O2; right; right; now left|]; intros P; apply (O5 P); right; right; now left|].
    destruct (O4 w eq_refl) as [-> |[-> |F]]; [destruct s; exact K|exact I|]. unfold Taken in *. cbn. destruct (wants s) as [| |t|], w as [| |t'|]; try contradiction; [tauto|]. destruct K as [K|[K|(due & K1 & K2)]]; auto. right. right. exists due. split; [exact K1|lia].
  - destruct (ev s) eqn:E; [|cbn [fst]; auto]. apply event_good; auto. destruct B as [A1 A2 A3 A4 A5]. split; cbn; auto.
  - destruct (timer s) as [t|] eqn:E; [|cbn [fst]; auto]. destruct (Z.leb_spec t (now s)); [|cbn [fst]; auto]. apply event_good; cbn; auto; try (unfold three_days; lia).
    destruct B as [A1 A2 A3 A4 A5]. split; cbn; auto; try lia.
    + apply near_want; [lia|]. apply O2. right. right. now left.
    + intros _. apply stamp_add.
    + intros P. apply (O5 P). right. right. now left.
  - destruct (buf s) eqn:E; try (cbn [fst]; auto; fail). pose proof (event_good p (set_buf Free s) (cw y) (sd y)) as X. destruct (event (cw y) (sd y) (set_buf Free s)) as [s1 o1]. cbn [fst] in *. apply X; auto. destruct B as [A1 A2 A3 A4 A5]. split; cbn; auto. discriminate.
  - cbn [fst]. destruct B as [A1 A2 A3 A4 A5]. split; [split; cbn; auto; try lia|].
    + destruct (wants s); auto; lia.
    + intros P. specialize (A4 P). destruct (timer s); [|exact A4]. destruct A4 as (b & E1 & E2 & E3). exists b. split; [exact E1|]. lia.
    + unfold Taken in *. cbn. destruct (wants s); auto. destruct K as [K|[K|(due & K1 & K2)]]; auto. right. right. exists due. split; [exact K1|lia].
  - rewrite orb_true_r in *. assert (W : Ending w) by (apply (O5 eq_refl); right; right; now left). destruct (EC eq_refl) as [E1 E2].
    pose proof (event_good p (set_wants w s) (cw y) (sd y)) as X. assert (Y : Ending (wants (fst (event (cw y) (sd y) (set_wants w s))))) by (unfold event; destruct w; try destruct W; first [exact E1 | exact I]).
    destruct (event (cw y) (sd y) (set_wants w s)) as [s1 o1]. cbn [fst] in *. destruct X as [X1 X2]; auto; [apply base_wants; auto; apply O2; right; right; now left|].
    destruct X1 as [A1 A2 A3 A4 A5]. split; [split; cbn; auto; discriminate|]. unfold Taken in *. cbn. destruct (wants s1); auto; destruct Y.
Qed.
Lemma good_run t0 l s o : Valid t0 l -> run (init t0) l = (s, o) -> Base (existsb is_stop l) s /\ Taken s.
Proof.
  revert s o. induction l as [|v l IH] using rev_ind; intros s o V R.
  - injection R as <- <-. split; [|exact I]. split; cbn; auto; try lia; try discriminate. intros _. apply stamp_add.
  - rewrite run_snoc in R. pose proof (V l v [] eq_refl) as O. destruct (run (init t0) l) as [s1 o1]. cbn [fst] in O. destruct (IH s1 o1) as [B K]; [intros l1 x l2 E; apply (V l1 x (l2 ++ [v])); now rewrite E, <- app_assoc|reflexivity|].
    pose proof (step_good _ _ _ B K O) as X. destruct (step s1 v) as [s2 o2]. injection R as <- <-. rewrite existsb_app. cbn [existsb fst] in *. now rewrite orb_false_r.
Qed.
(** In good moments nothing the protocol wants is forgotten. Missing: packets which DTLS refuses and longer times without the timer, for which it is false. *)
Theorem C91_progress_partial : forall t0 l s o, Valid t0 l -> run (init t0) l = (s, o) -> Taken s.
Proof. intros t0 l s o V R. exact (proj2 (good_run _ _ _ _ V R)). Qed.
Print Assumptions C91_progress_partial.
Lemma event_buf c y s : (snd (event c y s) = [Sent] /\ buf s = Free /\ buf (fst (event c y s)) <> Free) \/ (sent (snd (event c y s)) = O /\ released (snd (event c y s)) = O /\ buf (fst (event c y s)) = buf s).
Proof.
  unfold event. destruct (wants s) as [| |t|]; auto.
  - unfold handle_send. destruct (buf s) eqn:B; auto. destruct (al y); cbn [negb]; [destruct (made y); cbn [negb]|]; auto. left. split; [reflexivity|]. split; [reflexivity|]. cbn. destruct (took y); discriminate.
  - right. cbn [fst snd]. unfold handle_wait. destruct (stamp_less _ _); auto.
Qed.
(** The buffer of the driver is with DTLS or not. *)
Fixpoint walk (b : bool) (o : list out) : option bool :=
  match o with
  | [] => Some b
  | Sent :: o => if b then None else walk true o
  | Released :: o => if b then walk false o else None
  | Called :: o => walk b o
  end.
Definition full (s : st) : bool := match buf s with Free => false | _ => true end.
Lemma walk_app b o o' : walk b (o ++ o') = match walk b o with Some c => walk c o' | None => None end.
Proof. revert b. induction o as [|x o IH]; intros b; [reflexivity|]. destruct x; cbn [app walk]; try destruct b; auto. Qed.
Lemma walk_count o : forall b c, walk b o = Some c -> (sent o + (if b then 1 else 0) = released o + (if c then 1 else 0))%nat.
Proof.
  induction o as [|x o IH]; intros b c H; [injection H as <-; reflexivity|]. unfold sent, released in *. destruct x; cbn in H; (destruct b; try discriminate); specialize (IH _ _ H); cbn in *; lia.
Qed.
Lemma walk_event c y s : walk (full s) (snd (event c y s)) = Some (full (fst (event c y s))).
Proof.
  unfold event, full. destruct (wants s) as [| |t|]; try reflexivity.
  - unfold handle_send. destruct (buf s) eqn:B; cbn; rewrite ?B; auto. destruct (al y); cbn [negb]; [destruct (made y); cbn [negb]|]; cbn; rewrite ?B; auto. destruct (took y); reflexivity.
  - cbn [snd fst walk]. unfold handle_wait. destruct (stamp_less _ _); reflexivity.
Qed.
Lemma walk_step s v : walk (full s) (snd (step s v)) = Some (full (fst (step s v))).
Proof.
  destruct v as [v y]. unfold step. destruct v as [w|w|w| |w| |d|w]; try reflexivity.
  - exact (walk_event (cw y) (sd y) (set_wants w s)).
  - destruct (ev s); [|reflexivity]. exact (walk_event (cw y) (sd y) (set_ev false s)).
  - destruct (timer s) as [t|]; [|reflexivity]. destruct (t <=? now s); [|reflexivity]. exact (walk_event (cw y) (sd y) (set_wants w (set_infinite (set_timer None (expiry s) s)))).
  - destruct (buf s) eqn:B; try reflexivity. pose proof (walk_event (cw y) (sd y) (set_buf Free s)) as W. destruct (event (cw y) (sd y) (set_buf Free s)) as [s1 o1]. unfold full in *. rewrite B. cbn [snd fst walk]. exact W.
  - pose proof (walk_event (cw y) (sd y) (set_wants w s)) as W. destruct (event (cw y) (sd y) (set_wants w s)) as [s1 o1]. exact W.
Qed.
Lemma walk_run l s : walk (full s) (snd (run s l)) = Some (full (fst (run s l))).
Proof.
  revert s. induction l as [|v l IH]; intros s; [reflexivity|]. cbn [run]. pose proof (walk_step s v) as W. destruct (step s v) as [s1 o1]. specialize (IH s1). destruct (run s1 l) as [s2 o2]. cbn [fst snd] in *. now rewrite walk_app, W.
Qed.
(** DTLS never has two packets of a driver: the buffer of the last one is freed before, and each is freed once. *)
Theorem C91_single : forall t0 l o1 o2, snd (run (init t0) l) = o1 ++ o2 -> (released o1 <= sent o1 <= S (released o1))%nat.
Proof.
  intros t0 l o1 o2 E. pose proof (walk_run l (init t0)) as W. rewrite E, walk_app in W. cbn [full init buf] in W. destruct (walk false o1) as [c|] eqn:C; [|discriminate]. apply walk_count in C. destruct c; lia.
Qed.
Print Assumptions C91_single.
Definition good : env := {| cw := Nothing; sd := {| al := true; made := true; took := true; after := WaitUntil 3000 |} |}.
Definition refusing : env := {| cw := Nothing; sd := {| al := true; made := true; took := false; after := WaitUntil 3000 |} |}.
(** Once DTLS has refused a packet nothing is sent any more, on any connection, whatever happens. *)
Lemma refused_stays l s : buf s = Refused -> buf (fst (run s l)) = Refused /\ ~ In Sent (snd (run s l)).
Proof.
  revert s. induction l as [|v l IH]; intros s B; [split; [exact B|intros []]|]. cbn [run].
  assert (EV : forall c y s', buf s' = Refused -> buf (fst (event c y s')) = Refused /\ ~ In Sent (snd (event c y s'))).
  { intros c y s' B'. destruct (event_buf c y s') as [(_ & X & _)|(X & _ & Y)]; [congruence|]. split; [congruence|]. intros H. unfold sent in X. apply length_zero_iff_nil in X. assert (Z : In Sent []) by (rewrite <- X; apply filter_In; auto). destruct Z. }
  assert (ST : buf (fst (step s v)) = Refused /\ ~ In Sent (snd (step s v))).
  { destruct v as [v y]. unfold step. destruct v as [w|w|w| |w| |d|w]; try (split; [exact B|intros []]).
    - apply EV. exact B.
    - destruct (ev s); [apply EV; exact B|split; [exact B|intros []]].
    - destruct (timer s) as [t|]; [destruct (t <=? now s); [apply EV; exact B|]|]; split; [exact B|intros []|exact B|intros []].
    - rewrite B. split; [exact B|intros []].
    - pose proof (EV (cw y) (sd y) (set_wants w s) B) as X. destruct (event (cw y) (sd y) (set_wants w s)) as [s1 o1]. exact X. }
  destruct (step s v) as [s1 o1]. cbn [fst snd] in ST. destruct ST as [S1 S2]. specialize (IH s1 S1). destruct (run s1 l) as [s2 o2]. cbn [fst snd] in *. split; [apply IH|]. intros H. apply in_app_or in H. destruct H as [H|H]; [exact (S2 H)|exact (proj2 IH H)].
Qed.
Theorem C91_refused_refuted : exists l, In Sent (snd (run (init 0) l)) /\ forall l', ~ In Sent (snd (run (fst (run (init 0) l)) l')).
Proof. exists [(App Send, refusing); (Event, refusing)]. split; [vm_compute; now left|]. intros l'. apply refused_stays. reflexivity. Qed.
Print Assumptions C91_refused_refuted.
(** When the timer has not fired for 2^29 ms (six days) a retransmission is forgotten: no timer is armed. *)
Theorem C91_forgotten_refuted : forall t0 d, 536870912 <= d <= 2147483648 ->
  let s := fst (run (init t0) [(Tick d, good); (App (WaitUntil (t0 + d + 2000)), good); (Event, good)]) in
  wants s = WaitUntil (now s + 2000) /\ ev s = false /\ buf s = Free /\ timer s = None.
Proof.
  intros t0 d H. cbn [run step fst snd good cw sd set_ev set_wants ev wants event]. unfold handle_wait. cbn [expiry set_wants set_ev init]. rewrite stamp_add, stamp_less_near by lia. destruct (Z.ltb_spec (t0 + d + 2000) (t0 + 536870912)); [lia|]. cbn [fst wants ev buf timer now set_wants set_ev init]. rewrite Z.max_r by lia. auto.
Qed.
Print Assumptions C91_forgotten_refuted.
Definition ex91 : list (op * env) := [(App Send, good); (Event, good); (Done, good); (Tick 3000, good); (Timer Send, good); (Done, good); (Tick 10, good); (Packet Callback, good); (Event, good)].
Example C91_ex : snd (run (init 0) ex91) = [Sent; Released; Sent; Released; Called] /\ wants (fst (run (init 0) ex91)) = Nothing.
Proof. vm_compute. auto. Qed.
Example C91_ex_waiting : timer (fst (run (init 0) (firstn 3 ex91))) = Some 3000.
Proof. reflexivity. Qed.
Example C91_ex_valid : Valid 0 ex91.
Proof.
  intros l1 v l2 E. unfold ex91 in E.
  repeat (destruct l1 as [|? l1]; [injection E as <- _; (split; [reflexivity|split; [intros w H; cbn in H; repeat (destruct H as [<- |H]; [vm_compute; repeat split; discriminate|]); destruct H|split; [vm_compute; discriminate|split; [discriminate|vm_compute; discriminate]]]])|injection E as <- E]). destruct l1; discriminate.
Qed.
