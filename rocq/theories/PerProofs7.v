(** * Devices which never start again *)
From Coq Require Import String Ascii List Bool Arith NArith ZArith Lia.
From Verif Require Import JsonModel JsonProofs IamPolicyModel IamStateModel IamStateSpec IamStateProofs IamStateInv IamStateFrame IamStateReload
  IamJsonModel IamJsonSpec IamJsonProofs PerModel PerSpec PerProofs PerProofs2 PerProofs3 PerProofs4 PerProofs5 PerProofs6.
Import ListNotations.
Open Scope string_scope.
Open Scope list_scope.
Open Scope nat_scope.

Lemma dump_obj : forall s, exists l, state_to_json s = JObj l.
Proof. intros s. unfold state_to_json. eexists. reflexivity. Qed.

(** A proper beginning of a printed state does not load. *)
Lemma truncated_load : forall L s t, strtod_sane L -> reads_versions L -> proper_state s ->
  begins t (state_dump s) -> t <> state_dump s -> snd (state_load L 0 empty_state t) = false.
Proof.
  intros L s t HL HR Hs Hb Hne. unfold state_load, state_dump in *. destruct (dump_obj s) as [l Hl].
  pose proof (state_json_wf L s HR Hs) as Hw. pose proof (state_json_depth s) as Hd. pose proof nesting_big as Hn.
  rewrite Hl in *. rewrite (parse_print_begins L l t HL Hw ltac:(lia) Hb Hne). reflexivity.
Qed.

Lemma begins_antisym : forall a b, begins a b -> begins b a -> a = b.
Proof.
  intros a b [u ->] [v Hv].
  assert (L : forall x y, String.length (String.append x y) = String.length x + String.length y)
    by (induction x; intros; cbn; auto).
  assert (H : String.length a = String.length a + String.length u + String.length v) by (rewrite <- !L; congruence).
  destruct u; [now rewrite append_nil|]. cbn in H. lia.
Qed.

Lemma boot_truncated : forall L K b d s t, strtod_sane L -> reads_versions L -> proper_state s ->
  begins t (state_dump s) -> t <> state_dump s -> d_state d = Some t -> boot L K b d = (d, [Refused]).
Proof.
  intros L K b d s t HL HR Hs Hb Hne Hd. unfold boot. rewrite Hd.
  destruct (negb (b_before b && file_exists (Some t))%bool); [reflexivity|].
  unfold load_tunnel_state.
  assert (Hset : set_state_file (Some t) d = d) by (destruct d; cbn in *; now subst).
  destruct (string_file_load (b_rs b) (Some t)) as [t'|] eqn:Ht; [|now rewrite Hset].
  apply file_load_begins in Ht.
  assert (Hf : snd (state_load L 0 empty_state t') = false).
  { eapply truncated_load; eauto; [eapply begins_trans; eauto|]. intros ->. apply Hne. now apply begins_antisym. }
  destruct (state_load L 0 empty_state t') as [s' ok]. cbn in Hf. subst ok. cbn [negb]. now rewrite Hset.
Qed.

Lemma boot_started : forall L K b d d' os, boot L K b d = (d', os) -> d_run d = None -> (In Started os <-> d_run d' <> None).
Proof.
  intros L K b d d' os H Hr. unfold boot in H.
  assert (R : forall e, d_run e = None -> In Started [Refused] <-> d_run e <> None)
    by (intros e He; split; [intros [K0|[]]; discriminate|congruence]).
  assert (R' : forall e, d_run e = None -> In Started [] <-> d_run e <> None)
    by (intros e He; split; [intros []|congruence]).
  destruct (negb (b_before b && file_exists (d_state d))%bool); [injection H as <- <-; auto|].
  destruct (load_tunnel_state L (b_rs b) (b_ws b) (d_state d)) as [f ph].
  destruct ph as [s| |]; [|injection H as <- <-; auto..].
  destruct (negb (b_middle b)); [injection H as <- <-; auto|].
  destruct (load_key K (b_new b) (b_wk b) (b_rk b) (d_key (set_state_file f d))) as [fk phk].
  destruct phk as [k| |]; [|injection H as <- <-; auto..].
  destruct (load_conf iam_init (b_conf b)) as [i1 ok1].
  destruct (negb ok1); [injection H as <- <-; auto|].
  destruct (load_state (b_ext b) i1 s) as [i2 ok2].
  destruct (negb (ok2 && b_after b)%bool); injection H as <- <-; [auto|].
  split; [discriminate|left; reflexivity].
Qed.

(** A set of stopped devices which no start leaves. *)
Lemma stuck : forall L K E (P : dev -> Prop), (forall d, P d -> d_run d = None) ->
  (forall d b, P d -> P (fst (boot L K b d))) ->
  forall more d d' os, P d -> run L K E d more = Some (d', os) -> P d' /\ ~ In Started os.
Proof.
  intros L K E P Hn Hb. induction more as [|o more IH]; intros d d' os Hd H.
  - injection H as <- <-. auto.
  - cbn [run] in H. destruct (step L K E d o) as [[d1 o1]|] eqn:Hs; [|discriminate].
    destruct (run L K E d1 more) as [[d2 o2]|] eqn:Hr; [|discriminate]. injection H as <- <-.
    assert (A : P d1 /\ ~ In Started o1).
    { pose proof (Hn d Hd) as Hnd. destruct o as [b|x e w|]; cbn [step] in Hs; rewrite ?Hnd in Hs.
      - injection Hs as Hs. pose proof (Hb d b Hd) as Hp. rewrite Hs in Hp. cbn in Hp. split; [exact Hp|].
        rewrite (boot_started _ _ _ _ _ _ Hs Hnd). rewrite (Hn _ Hp). congruence.
      - injection Hs as <- <-. split; [exact Hd|intros []].
      - injection Hs as <- <-. split; [|intros []]. destruct d as [a k r]. cbn in *. subst r. exact Hd. }
    destruct A as [A1 A2]. destruct (IH _ _ _ A1 Hr) as [B1 B2]. split; [exact B1|].
    intros [C|C]%in_app_or; auto.
Qed.

(** A broken state file. *)
Lemma stuck_truncated : forall L K E s t more d d' os, strtod_sane L -> reads_versions L -> proper_state s ->
  begins t (state_dump s) -> t <> state_dump s -> d_state d = Some t -> d_run d = None ->
  run L K E d more = Some (d', os) -> d_state d' = Some t /\ ~ In Started os.
Proof.
  intros L K E s t more d d' os HL HR Hs Hb Hne Hd Hr H.
  destruct (stuck L K E (fun e => d_state e = Some t /\ d_run e = None)) with (more := more) (d := d) (d' := d') (os := os) as [[A _] B]; auto.
  - tauto.
  - intros e b [E1 E2]. rewrite (boot_truncated L K b e s t); auto.
Qed.

(** A state file with a state the module does not accept. *)
Lemma stuck_invalid : forall L K E s more d d' os, strtod_sane L -> reads_versions L -> proper_state s -> st_friendly s <> None ->
  ~ vstate (i_lim iam_init) (i_cats iam_init) s -> d_state d = Some (state_dump s) -> d_run d = None ->
  run L K E d more = Some (d', os) -> d_state d' = Some (state_dump s) /\ ~ In Started os.
Proof.
  intros L K E s more d d' os HL HR Hs Hf Hv Hd Hr H.
  destruct (stuck L K E (fun e => d_state e = Some (state_dump s) /\ d_run e = None)) with (more := more) (d := d) (d' := d') (os := os) as [[A _] B]; auto.
  - tauto.
  - intros e b [E1 E2]. destruct (boot L K b e) as [e' os'] eqn:Hb. cbn [fst].
    destruct (boot_inv _ _ _ _ _ _ Hb E2) as [-> |(g & ph & _ & Hl & Hg & Hrun)]; [auto|].
    rewrite E1 in Hl. apply tunnel_state_inv in Hl. destruct Hl as [[-> ->]|(t & s1 & Hbt & Hs1 & Hgo & Hfile)].
    { split; [exact Hg|]. destruct Hrun as [?|(s' & k & i1 & i2 & E' & _)]; [assumption|discriminate]. }
    pose proof (loads_printed _ _ _ _ HL HR Hs Hbt Hs1) as Hsame.
    assert (Hn1 : st_friendly s1 <> None).
    { destruct Hsame as [Hset _]. unfold settings in Hset. congruence. }
    split; [destruct Hfile as [-> |[Hn _]]; [exact Hg|contradiction]|].
    destruct Hrun as [?|(s' & k & i1 & i2 & -> & Hc & Hl & _)]; [assumption|]. exfalso.
    rewrite (Hgo s' eq_refl), (has_named _ Hn1) in Hl.
    apply load_conf_default in Hc. destruct Hc as [C1 C2].
    apply load_inv in Hl. destruct Hl as (_ & _ & _ & _ & _ & _ & _ & [(H1 & _)|(_ & Hval & _)]); [discriminate|].
    rewrite C1, C2 in Hval. apply vstate_iff in Hval. apply Hv. eapply vstate_same; [|exact Hval].
    destruct Hsame as [S1 S2]. split; [now rewrite S1|]. clear - S2. induction S2 as [|u v l l' Huv Hl IH]; constructor; auto.
    intros f. now rewrite Huv.
Qed.

(** A broken key file. *)
Lemma stuck_key : forall L K E k more d d' os, (forall t, begins t (cstr k) -> K t = None) -> d_key d = Some k -> d_run d = None ->
  run L K E d more = Some (d', os) -> d_key d' = Some k /\ ~ In Started os.
Proof.
  intros L K E k more d d' os HK Hd Hr H.
  destruct (stuck L K E (fun e => d_key e = Some k /\ d_run e = None)) with (more := more) (d := d) (d' := d') (os := os) as [[A _] B]; auto.
  - tauto.
  - intros e b [E1 E2]. destruct (boot L K b e) as [e' os'] eqn:Hb. cbn [fst].
    destruct (boot_key _ _ _ _ _ _ Hb E2) as [A B]. split; [now apply A|].
    destruct (d_run e') as [p|] eqn:Hp; [|reflexivity]. exfalso. destruct (B p Hp) as (k' & C1 & C2 & C3).
    rewrite (A k E1) in C1. injection C1 as <-. apply C3. now apply HK.
Qed.
