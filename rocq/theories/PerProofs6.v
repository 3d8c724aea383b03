(** * The key, and that a device starts again *)
From Coq Require Import String Ascii List Bool Arith NArith ZArith Lia Decimal DecimalString.
From Verif Require Import JsonModel JsonProofs IamPolicyModel IamStateModel IamStateSpec IamStateProofs IamStateInv IamStateFrame IamStateReload
  IamJsonModel IamJsonSpec IamJsonProofs PerModel PerSpec PerProofs PerProofs2 PerProofs3 PerProofs4 PerProofs5.
Import ListNotations.
Open Scope string_scope.
Open Scope list_scope.
Open Scope nat_scope.

(** ** The printed text has no zero byte *)
Lemma c_app : forall a b, c_string a -> c_string b -> c_string (String.append a b).
Proof.
  intros a b Ha Hb. unfold c_string in *. induction a as [|c a IH]; cbn in *; auto.
  intros [->|H]; [apply Ha; now left|]. apply IH; auto.
Qed.
Lemma c_cons : forall c a, c <> "000"%char -> c_string a -> c_string (String c a).
Proof. intros c a Hc Ha [H|H]; auto. Qed.
Lemma c_char : forall c, c_string (print_char c).
Proof.
  intros c. unfold c_string. destruct c as [[] [] [] [] [] [] [] []]; vm_compute;
    intros H; repeat destruct H as [H|H]; try discriminate H; exact H.
Qed.
Lemma c_body : forall s, c_string (print_body s).
Proof. induction s as [|c s IH]; cbn [print_body]; [intros []|]. apply c_app; auto. apply c_char. Qed.
Lemma c_print_string : forall s, c_string (print_string s).
Proof. intros s. unfold print_string. apply c_cons; [discriminate|]. apply c_app; [apply c_body|]. apply c_cons; [discriminate|intros []]. Qed.
Lemma c_uint : forall d, c_string (NilEmpty.string_of_uint d).
Proof. induction d; cbn; [intros []|..]; apply c_cons; auto; discriminate. Qed.
Lemma c_num : forall z, c_string (print_num z).
Proof.
  intros z. unfold print_num, NilZero.string_of_int.
  assert (H : forall d, c_string (NilZero.string_of_uint d)).
  { intros d. unfold NilZero.string_of_uint. destruct d; try apply c_uint. apply c_cons; [discriminate|intros []]. }
  destruct (Z.to_int z); auto. apply c_cons; auto. discriminate.
Qed.
Lemma c_join : forall l, Forall c_string l -> c_string (join l).
Proof.
  induction l as [|x l IH]; intros H; [intros []|]. inversion H; subst. destruct l as [|y l]; [auto|].
  change (c_string (String.append x (String "," (join (y :: l))))). apply c_app; auto. apply c_cons; [discriminate|auto].
Qed.
Lemma c_print : forall v, c_string (print v).
Proof.
  induction v as [ |b|z|s|l IH|l IH] using json_ind2.
  - unfold c_string; vm_compute. intuition discriminate.
  - unfold c_string; destruct b; vm_compute; intuition discriminate.
  - apply c_num.
  - apply c_print_string.
  - cbn [print]. apply c_cons; [discriminate|]. apply c_app; [|apply c_cons; [discriminate|intros []]].
    apply c_join. induction IH; cbn; constructor; auto.
  - cbn [print]. apply c_cons; [discriminate|]. apply c_app; [|apply c_cons; [discriminate|intros []]].
    apply c_join. induction IH; cbn [map]; constructor; auto.
    apply c_app; [apply c_print_string|]. apply c_cons; [discriminate|auto].
Qed.
Lemma cstr_id : forall s, c_string s -> cstr s = s.
Proof.
  induction s as [|c s IH]; intros H; cbn; [reflexivity|].
  destruct (N.eqb (N_of_ascii c) 0) eqn:Hc.
  - exfalso. apply H. left. apply N.eqb_eq in Hc. rewrite <- (ascii_N_embedding c), Hc. reflexivity.
  - f_equal. apply IH. intros K. apply H. now right.
Qed.
Lemma reads_dump : forall r s, reads_all r (Some (state_dump s)) -> string_file_load r (Some (state_dump s)) = Some (state_dump s).
Proof.
  intros r s (H1 & H2 & H3 & H4). unfold string_file_load. rewrite H1, H2, H3. cbn [andb].
  rewrite take_all by (now apply H4). f_equal. apply cstr_id. apply c_print.
Qed.

(** ** The key *)
Lemma append_nil : forall s, String.append s "" = s.
Proof. induction s; cbn; congruence. Qed.
Lemma cstr_of_begins : forall t t', begins t t' -> begins (cstr t) (cstr t').
Proof.
  intros t t' [u ->]. induction t as [|c t IH]; cbn.
  - now exists (cstr u).
  - destruct (N.eqb (N_of_ascii c) 0); [now exists ""|]. destruct IH as [v Hv]. exists v. cbn. now rewrite Hv.
Qed.
Lemma file_load_cstr : forall r f t, string_file_load r (Some f) = Some t -> begins t (cstr f).
Proof.
  intros r f t H. unfold string_file_load in H. destruct (r_size r && r_mem r && r_open r)%bool; [|discriminate].
  injection H as <-. apply cstr_of_begins. apply take_begins.
Qed.

Definition key_inv (K : string -> option N) (d : dev) : Prop :=
  forall p, d_run d = Some p -> exists k, d_key d = Some k /\ begins (p_key p) (cstr k) /\ K (p_key p) <> None.

Lemma load_key_inv : forall K new w r f f' ph, load_key K new w r f = (f', ph) ->
  (forall k, f = Some k -> f' = Some k) /\
  (forall t, ph = Go t -> exists k, f' = Some k /\ begins t (cstr k) /\ K t <> None).
Proof.
  intros K new w r f f' ph H. unfold load_key in H.
  destruct (if file_exists f then (f, Some true) else match new with None => (f, Some false) | Some k => write_file w f k end) as [g made] eqn:Hm.
  assert (Hg : forall k, f = Some k -> g = Some k).
  { intros k ->. cbn in Hm. now injection Hm as <- _. }
  destruct made as [[|]|]; [|injection H as <- <-; split; [exact Hg|discriminate]..].
  destruct g as [k|]; [|cbn in H; injection H as <- <-; split; [exact Hg|discriminate]].
  destruct (string_file_load r (Some k)) as [t|] eqn:Hr; [|injection H as <- <-; split; [exact Hg|discriminate]].
  destruct (K t) eqn:Hk; injection H as <- <-; (split; [exact Hg|]); [|discriminate].
  intros t' E. injection E as <-. exists k. split; [reflexivity|]. split; [now apply file_load_cstr in Hr|congruence].
Qed.

Lemma boot_key : forall L K b d d' os, boot L K b d = (d', os) -> d_run d = None ->
  (forall k, d_key d = Some k -> d_key d' = Some k) /\ key_inv K d'.
Proof.
  intros L K b d d' os H Hr. unfold boot in H.
  assert (Hn : forall e, d_run e = None -> key_inv K e) by (intros e He p Hp; congruence).
  destruct (negb (b_before b && file_exists (d_state d))%bool); [injection H as <- <-; split; auto|].
  destruct (load_tunnel_state L (b_rs b) (b_ws b) (d_state d)) as [f ph].
  destruct ph as [s| |]; [|injection H as <- <-; split; [auto|apply Hn; exact Hr]..].
  destruct (negb (b_middle b)); [injection H as <- <-; split; [auto|apply Hn; exact Hr]|].
  cbn [d_key set_state_file] in H.
  destruct (load_key K (b_new b) (b_wk b) (b_rk b) (d_key d)) as [fk phk] eqn:Hk.
  apply load_key_inv in Hk. destruct Hk as [H1 H2].
  destruct phk as [k| |]; [|injection H as <- <-; split; [exact H1|apply Hn; exact Hr]..].
  destruct (load_conf iam_init (b_conf b)) as [i1 ok1].
  destruct (negb ok1); [injection H as <- <-; split; [exact H1|apply Hn; exact Hr]|].
  destruct (load_state (b_ext b) i1 s) as [i2 ok2].
  destruct (negb (ok2 && b_after b)%bool); injection H as <- <-; (split; [exact H1|]); [apply Hn; exact Hr|].
  intros p E. cbn in E. injection E as <-. cbn. now apply H2.
Qed.

Lemma step_key : forall L K E d o d' os, step L K E d o = Some (d', os) -> key_inv K d ->
  (forall k, d_key d = Some k -> d_key d' = Some k) /\ key_inv K d'.
Proof.
  intros L K E d o d' os H Hi. destruct o as [b|x e w|].
  - cbn [step] in H. destruct (d_run d) as [p|] eqn:Hr; [injection H as <- <-; auto|].
    injection H as H. eapply boot_key; eauto.
  - destruct (d_run d) as [p|] eqn:Hr; [|cbn [step] in H; rewrite Hr in H; injection H as <- <-; auto].
    destruct (serve_inv _ _ _ _ _ _ _ _ _ _ Hr H) as (i' & _ & Hk & Hrun & _). split; [intros; congruence|].
    intros q Eq. destruct Hrun as [E'|E']; [congruence|]. rewrite E' in Eq. injection Eq as <-. cbn.
    rewrite Hk. now apply Hi.
  - cbn [step] in H. injection H as <- <-. split; [auto|]. intros p Ep. discriminate.
Qed.
Lemma run_key : forall L K E ops d d' os, run L K E d ops = Some (d', os) -> key_inv K d ->
  (forall k, d_key d = Some k -> d_key d' = Some k) /\ key_inv K d'.
Proof.
  intros L K E. induction ops as [|o ops IH]; intros d d' os H Hi.
  - injection H as <- <-. auto.
  - cbn [run] in H. destruct (step L K E d o) as [[d1 o1]|] eqn:Hs; [|discriminate].
    destruct (run L K E d1 ops) as [[d2 o2]|] eqn:Hr; [|discriminate]. injection H as <- <-.
    destruct (step_key _ _ _ _ _ _ _ Hs Hi) as [A B]. destruct (IH _ _ _ Hr B) as [C D]. split; auto.
Qed.

Lemma same_key : forall K k t t', keys_sane K -> begins t (cstr k) -> begins t' (cstr k) -> K t <> None -> K t' <> None -> K t = K t'.
Proof.
  intros K k t t' HK H1 H2 N1 N2. destruct (K t) as [a|] eqn:E1; [|congruence]. destruct (K t') as [b|] eqn:E2; [|congruence].
  pose proof (HK _ _ _ H1 E1). pose proof (HK _ _ _ H2 E2). congruence.
Qed.

(** ** A device which starts again *)
Definition default_iam (i : iam) : Prop := i_lim i = i_lim iam_init /\ i_cats i = i_cats iam_init.
Definition valid_run (d : dev) : Prop := forall p, d_run d = Some p -> vi (p_iam p) /\ default_iam (p_iam p).

Lemma step_limits : forall E i x e i', IamStateModel.step E i (x, op_of e) = Some i' -> i_lim i' = i_lim i /\ i_cats i' = i_cats i.
Proof.
  intros E i x e i' H. apply step_fixed in H. destruct H as ([H1|(l & H1 & _)] & [H2|(c & H2 & _)] & _); auto; destruct e; discriminate.
Qed.

Lemma vuser_same : forall l c u v, same_user u v -> vuser l c u -> vuser l c v.
Proof.
  intros l c [i1 n1 d1 f1 p1 r1 s1 t1 q1 c1 o1] [i2 n2 d2 f2 p2 r2 s2 t2 q2 c2 o2] H.
  pose proof (H FName) as A1. pose proof (H FDisplay) as A2. pose proof (H FFps) as A3. pose proof (H FPassword) as A4.
  pose proof (H FRole) as A5. pose proof (H FSct) as A6. pose proof (H FFcmToken) as A7. pose proof (H FFcmProject) as A8.
  pose proof (H FCats) as A9. pose proof (H FOauth) as A10. cbn in *.
  assert (A : f1 = f2) by (apply fps_inj; congruence).
  assert (B : n1 = n2 /\ d1 = d2 /\ p1 = p2 /\ r1 = r2 /\ s1 = s2 /\ t1 = t2 /\ q1 = q2 /\ c1 = c2 /\ o1 = o2)
    by (repeat split; congruence).
  destruct B as (-> & -> & -> & -> & -> & -> & -> & -> & ->). subst. intros []. constructor; auto.
Qed.
Lemma vstate_same : forall l c a b, same_state a b -> vstate l c a -> vstate l c b.
Proof.
  intros l c [a1 a2 a3 a4 a5 a6 a7 a8 a9 a10] [b1 b2 b3 b4 b5 b6 b7 b8 b9 b10] [H1 H2].
  unfold settings in H1. cbn in H1, H2. injection H1 as -> -> -> -> -> -> -> -> ->.
  intros [V1 V2 V3 V4 V5 V6]. cbn in *. constructor; cbn; auto.
  - assert (HL : length a10 = length b10) by (clear - H2; induction H2; cbn; congruence). now rewrite <- HL.
  - clear - H2 V6. induction H2 as [|x y k k' Hxy Hl IH]; constructor; inversion V6; subst; auto. eapply vuser_same; eauto.
Qed.

Lemma load_conf_default : forall i c i1 b, load_conf i c = (i1, b) -> i_lim i1 = i_lim i /\ i_cats i1 = i_cats i.
Proof. intros i c i1 b H. apply load_conf_inv in H. destruct H as [-> | ->]; auto. Qed.

Lemma boot_valid : forall L K b d d' os, boot L K b d = (d', os) -> d_run d = None -> valid_run d'.
Proof.
  intros L K b d d' os H Hr p Hp.
  destruct (boot_inv _ _ _ _ _ _ H Hr) as [-> |(g & ph & _ & _ & _ & [E|(s & k & i1 & i2 & _ & Hc & Hl & _ & E)])]; try congruence.
  rewrite E in Hp. injection Hp as <-. cbn. apply load_conf_default in Hc. destruct Hc as [C1 C2].
  pose proof (load_state_same _ _ _ _ Hl) as Hs.
  apply load_inv in Hl. destruct Hl as (_ & L2 & L3 & _ & _ & _ & _ & [(H1 & _)|(_ & Hv & _)]); [discriminate|].
  split; [|split; congruence]. apply vstate_iff in Hv. unfold vi. rewrite L2, L3. eapply vstate_same; eauto.
Qed.

Lemma step_valid : forall L K E d o d' os, step L K E d o = Some (d', os) -> safe_op d o -> valid_run d -> valid_run d'.
Proof.
  intros L K E d o d' os H Hs Hv. destruct o as [b|x e w|].
  - cbn [step] in H. destruct (d_run d) as [p|] eqn:Hr; [injection H as <- <-; auto|].
    injection H as H. eapply boot_valid; eauto.
  - destruct (d_run d) as [p|] eqn:Hr; [|cbn [step] in H; rewrite Hr in H; injection H as <- <-; auto].
    destruct (serve_inv _ _ _ _ _ _ _ _ _ _ Hr H) as (i' & Hi & _ & Hrun & _).
    intros q Eq. destruct Hrun as [E'|E']; [congruence|]. rewrite E' in Eq. injection Eq as <-. cbn.
    destruct (Hv p Hr) as [V [D1 D2]]. split; [eapply vi_step; eauto|].
    apply step_limits in Hi. destruct Hi. split; congruence.
  - cbn [step] in H. injection H as <- <-. intros p Ep. discriminate.
Qed.
Lemma run_valid : forall L K E ops d d' os, run L K E d ops = Some (d', os) -> safe_ops L K E d ops -> valid_run d -> valid_run d'.
Proof.
  intros L K E. induction ops as [|o ops IH]; intros d d' os H Hs Hv.
  - injection H as <- <-. auto.
  - destruct Hs as [Ho Hs]. cbn [run] in H. destruct (step L K E d o) as [[d1 o1]|] eqn:Hst; [|discriminate].
    destruct (run L K E d1 ops) as [[d2 o2]|] eqn:Hr; [|discriminate]. injection H as <- <-.
    eapply IH; eauto. eapply step_valid; eauto.
Qed.
Lemma safe_app : forall L K E l l' d, safe_ops L K E d (l ++ l') -> safe_ops L K E d l.
Proof. intros L K E. induction l as [|o l IH]; intros l' d H; cbn in *; auto. destruct H as [H1 H2]. split; eauto. Qed.
Lemma safe_app_r : forall L K E l l' d d' os, safe_ops L K E d (l ++ l') -> run L K E d l = Some (d', os) -> safe_ops L K E d' l'.
Proof.
  intros L K E. induction l as [|o l IH]; intros l' d d' os H Hr; cbn in *; [now injection Hr as <- _|].
  destruct H as [H1 H2]. destruct (step L K E d o) as [[d1 o1]|]; [|discriminate].
  destruct (run L K E d1 l) as [[d2 o2]|] eqn:Hl; [|discriminate]. injection Hr as <- <-. eauto.
Qed.

(** ** The name *)
Lemma friendly_upd : forall i n u, st_friendly (i_state (upd n u i)) = st_friendly (i_state i).
Proof. reflexivity. Qed.
Lemma friendly_step : forall E i x e i', IamStateModel.step E i (x, op_of e) = Some i' ->
  st_friendly (i_state i) <> None -> st_friendly (i_state i') <> None.
Proof.
  intros E i x e i' H Hf. destruct e as [c r|c a m|r]; cbn [op_of IamStateModel.step] in H.
  - destruct (coap E x c i r) as [j code|] eqn:Hc; [|discriminate]. injection H as <-.
    apply coap_resp in Hc. destruct Hc as (i1 & -> & Hc).
    assert (D : i_state (do_callbacks i1) = i_state i1) by (unfold do_callbacks; destruct (i_changed i1); reflexivity).
    rewrite D. apply handle_inv in Hc. destruct Hc as [[[->| ->] _]|[_ T]]; [exact Hf..|].
    assert (P : paired c x i i1 -> st_friendly (i_state i1) <> None).
    { intros (n & f & fn & ro & t & u & _ & _ & _ & _ & _ & _ & _ & _ & ->). exact Hf. }
    destruct r; cbn [trans] in T; break T; subst; auto; try exact Hf.
    + destruct (x_add x _); exact Hf.
    + destruct w; exact Hf.
    + discriminate.
  - destruct (check_access E i c a m); [|discriminate]. now injection H as <-.
  - injection H as <-. exact Hf.
Qed.
Definition has_name (d : dev) : Prop := forall p, d_run d = Some p -> st_friendly (i_state (p_iam p)) <> None.
Lemma boot_name : forall L K b d d' os, boot L K b d = (d', os) -> d_run d = None -> has_name d'.
Proof.
  intros L K b d d' os H Hr p Hp.
  destruct (boot_inv _ _ _ _ _ _ H Hr) as [-> |(g & ph & Hne & Ht & _ & [E|(s & k & i1 & i2 & -> & Hc & Hl & _ & E)])]; try congruence.
  rewrite E in Hp. injection Hp as <-. cbn. apply load_state_same in Hl. destruct Hl as [Hl _].
  destruct (d_state d) as [f|]; [|contradiction]. apply tunnel_state_inv in Ht.
  destruct Ht as [[_ Ht]|(t & s' & _ & _ & Hs & _)]; [discriminate|]. rewrite (Hs s eq_refl) in Hl.
  assert (Hn : st_friendly (named s') = st_friendly (i_state i2)) by (unfold settings in Hl; congruence).
  rewrite <- Hn. cbn. destruct (st_friendly s'); discriminate.
Qed.
Lemma step_name : forall L K E d o d' os, step L K E d o = Some (d', os) -> has_name d -> has_name d'.
Proof.
  intros L K E d o d' os H Hv. destruct o as [b|x e w|].
  - cbn [step] in H. destruct (d_run d) as [p|] eqn:Hr; [injection H as <- <-; auto|].
    injection H as H. eapply boot_name; eauto.
  - destruct (d_run d) as [p|] eqn:Hr; [|cbn [step] in H; rewrite Hr in H; injection H as <- <-; auto].
    destruct (serve_inv _ _ _ _ _ _ _ _ _ _ Hr H) as (i' & Hi & _ & Hrun & _).
    intros q Eq. destruct Hrun as [E'|E']; [congruence|]. rewrite E' in Eq. injection Eq as <-. cbn.
    eapply friendly_step; eauto.
  - cbn [step] in H. injection H as <- <-. intros p Ep. discriminate.
Qed.
Lemma run_name : forall L K E ops d d' os, run L K E d ops = Some (d', os) -> has_name d -> has_name d'.
Proof.
  intros L K E. induction ops as [|o ops IH]; intros d d' os H Hv.
  - injection H as <- <-. auto.
  - cbn [run] in H. destruct (step L K E d o) as [[d1 o1]|] eqn:Hst; [|discriminate].
    destruct (run L K E d1 ops) as [[d2 o2]|] eqn:Hr; [|discriminate]. injection H as <- <-.
    eapply IH; eauto. eapply step_name; eauto.
Qed.
Lemma has_named : forall s, st_friendly s <> None -> named s = s.
Proof. intros [] H. cbn in *. unfold named. cbn. destruct st_friendly; [reflexivity|contradiction]. Qed.

(** ** Starting *)
Lemma number_same : forall us n, Forall2 same_user us (number_from n us).
Proof. induction us as [|u us IH]; intros n; cbn [number_from]; constructor; auto. intros f. destruct f; reflexivity. Qed.

Lemma load_state_ok : forall x i s, ext_ok x -> validate_state (i_lim i) (i_cats i) s = true -> snd (load_state x i s) = true.
Proof.
  intros x i s [Hx Hm] V. unfold load_state. rewrite V. cbn [negb].
  pose proof (@add_tokens_ok x [st_pw_open_sct s] i Hx) as T1.
  destruct (add_tokens x [st_pw_open_sct s] i) as [i3 b3]. simpl in T1. subst b3. cbn [negb].
  rewrite Hm. cbn [negb].
  assert (Hf : match st_friendly s with Some _ => false | None => false end = false) by (destruct (st_friendly _); auto).
  rewrite Hf.
  pose proof (@add_tokens_ok x (map u_sct (st_users s)) i3 Hx) as T2.
  destruct (add_tokens x (map u_sct (st_users s)) i3) as [i4 b4]. simpl in T2. subst b4. reflexivity.
Qed.

Lemma boot_good : forall L K b d s k, reads_versions L -> proper_state s -> st_friendly s <> None ->
  vstate (i_lim iam_init) (i_cats iam_init) s -> d_state d = Some (state_dump s) -> d_key d = Some k -> K (cstr k) <> None ->
  good_start b d ->
  exists p, boot L K b d = (set_run (Some p) d, [Started]) /\ same_state s (i_state (p_iam p)) /\ p_key p = cstr k.
Proof.
  intros L K b d s k HR Hp Hf Hv Hd Hk HK (B1 & B2 & B3 & B4 & B5 & B6 & B7).
  unfold boot. rewrite B1, B2, B3, Hd. cbn [file_exists andb negb]. rewrite Hd in B5. unfold load_tunnel_state.
  rewrite (reads_dump _ _ B5), (state_load_dump L 0 s HR Hp). cbn [negb].
  set (s' := with_users (number_from 0 (st_users s)) s).
  assert (Hsame : same_state s s') by (split; [reflexivity|apply number_same]).
  assert (Hf' : st_friendly s' = st_friendly s) by reflexivity.
  rewrite Hf'. destruct (st_friendly s) as [nm|] eqn:Hnm; [|contradiction].
  cbn [d_key set_state_file]. unfold load_key. rewrite Hk. cbn [file_exists].
  rewrite Hk in B6. destruct B6 as (K1 & K2 & K3 & K4). unfold string_file_load. rewrite K1, K2, K3. cbn [andb].
  rewrite take_all by (now apply K4). destruct (K (cstr k)) as [fp|] eqn:HKk; [|contradiction].
  destruct (load_conf iam_init (b_conf b)) as [i1 ok1] eqn:Hc. cbn in B7. subst ok1. cbn [negb].
  apply load_conf_default in Hc. destruct Hc as [C1 C2].
  assert (Hok : snd (load_state (b_ext b) i1 s') = true).
  { apply load_state_ok; [exact B4|]. rewrite C1, C2. apply vstate_iff. eapply vstate_same; eauto. }
  destruct (load_state (b_ext b) i1 s') as [i2 ok2] eqn:Hl. cbn in Hok. subst ok2. cbn [andb negb].
  exists {| p_iam := i2; p_key := cstr k |}. split; [|split; [|reflexivity]].
  - f_equal. unfold set_run, set_key_file, set_state_file. cbn. destruct d as [a c e]. cbn in *. subst. reflexivity.
  - cbn. eapply same_trans; [exact Hsame|]. eapply load_state_same; eauto.
Qed.

(** An event which changes the state is announced. *)
Lemma changed_announced : forall E i x e i', IamStateModel.step E i (x, op_of e) = Some i' ->
  i_state i' <> i_state i -> i_callbacks i < i_callbacks i'.
Proof.
  intros E i x e i' H Hn. destruct e as [c r|c a m|r]; cbn [op_of IamStateModel.step] in H.
  - destruct (coap E x c i r) as [j code|] eqn:Hc; [|discriminate]. injection H as <-.
    destruct (coap_announces Hc Hn) as [-> _]. lia.
  - destruct (check_access E i c a m); [|discriminate]. injection H as <-. contradiction.
  - injection H as <-. exfalso. apply Hn. reflexivity.
Qed.
