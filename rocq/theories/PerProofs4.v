(** * What a start makes of the state file *)
From Coq Require Import String Ascii List Bool Arith NArith ZArith Lia.
From Verif Require Import JsonModel JsonProofs IamPolicyModel IamStateModel IamStateSpec IamStateProofs IamStateFrame IamStateInv IamStateReload
  IamJsonModel IamJsonSpec IamJsonProofs PerModel PerSpec PerProofs PerProofs2 PerProofs3.
Import ListNotations.
Open Scope string_scope.
Open Scope list_scope.
Open Scope nat_scope.

(** ** Same states *)
Lemma same_user_refl : forall u, same_user u u.
Proof. intros u f. reflexivity. Qed.
Lemma F2_refl : forall us, Forall2 same_user us us.
Proof. induction us; constructor; auto using same_user_refl. Qed.
Lemma F2_trans : forall a b c, Forall2 same_user a b -> Forall2 same_user b c -> Forall2 same_user a c.
Proof.
  intros a b c H. revert c. induction H as [|x y a b Hxy Hab IH]; intros c Hc; inversion Hc; subst; constructor; auto.
  intros f. rewrite (Hxy f). auto.
Qed.
Lemma same_trans : forall a b c, same_state a b -> same_state b c -> same_state a c.
Proof. intros a b c [H1 H2] [H3 H4]. split; [congruence|eapply F2_trans; eauto]. Qed.
Lemma same_refl : forall a, same_state a a.
Proof. intros a. split; [reflexivity|apply F2_refl]. Qed.

Lemma named_default : forall s, default_name s = named s.
Proof. intros [a b c d e f g h [n|] us]; reflexivity. Qed.
Lemma named_same : forall a b, same_state a b -> same_state (named a) (named b).
Proof.
  intros [a1 a2 a3 a4 a5 a6 a7 a8 a9 a10] [b1 b2 b3 b4 b5 b6 b7 b8 b9 b10] [H1 H2].
  unfold settings in H1. cbn in H1, H2. injection H1 as -> -> -> -> -> -> -> -> ->.
  split; [reflexivity|exact H2].
Qed.
Lemma named_twice : forall s, named (named s) = named s.
Proof. intros [a b c d e f g h [n|] us]; reflexivity. Qed.
Lemma named_proper : forall s, proper_state s -> proper_state (named s).
Proof.
  intros s (A & B & C & D & F & G). unfold proper_state, named. cbn.
  repeat match goal with |- _ /\ _ => split end; auto.
  destruct (st_friendly s); [exact F|]. cbn. apply c_stringI. cbn. repeat split; discriminate.
Qed.

(** the text does not show allocations *)
Lemma fps_inj : forall l l', map (fun f => (fp_val f, fp_name f)) l = map (fun f => (fp_val f, fp_name f)) l' -> l = l'.
Proof.
  induction l as [|[v n] l IH]; intros [|[v' n'] l'] H; cbn in H; try discriminate; auto.
  injection H as -> -> H. f_equal; auto.
Qed.
Lemma same_user_json : forall u v, same_user u v -> user_to_json u = user_to_json v.
Proof.
  intros [i1 n1 d1 f1 p1 r1 s1 t1 q1 c1 o1] [i2 n2 d2 f2 p2 r2 s2 t2 q2 c2 o2] H.
  pose proof (H FName) as A1. pose proof (H FDisplay) as A2. pose proof (H FFps) as A3. pose proof (H FPassword) as A4.
  pose proof (H FRole) as A5. pose proof (H FSct) as A6. pose proof (H FFcmToken) as A7. pose proof (H FFcmProject) as A8.
  pose proof (H FCats) as A9. pose proof (H FOauth) as A10. cbn in *.
  assert (f1 = f2) by (apply fps_inj; congruence).
  assert (n1 = n2 /\ d1 = d2 /\ p1 = p2 /\ r1 = r2 /\ s1 = s2 /\ t1 = t2 /\ q1 = q2 /\ c1 = c2 /\ o1 = o2)
    by (repeat split; congruence).
  destruct H1 as (-> & -> & -> & -> & -> & -> & -> & -> & ->). subst. reflexivity.
Qed.
Lemma same_dump : forall a b, same_state a b -> state_dump a = state_dump b.
Proof.
  intros [a1 a2 a3 a4 a5 a6 a7 a8 a9 a10] [b1 b2 b3 b4 b5 b6 b7 b8 b9 b10] [H1 H2].
  unfold settings in H1. cbn in H1, H2. injection H1 as -> -> -> -> -> -> -> -> ->.
  assert (Hm : map user_to_json a10 = map user_to_json b10).
  { induction H2; cbn; auto. f_equal; auto using same_user_json. }
  unfold state_dump, state_to_json. cbn [st_pw_open_password st_pw_open_sct st_pw_open st_local_open st_pw_invite
    st_local_initial st_open_role st_initial_user st_friendly st_users]. now rewrite Hm.
Qed.

(** ** Files *)

(** the file is a beginning of a text of [o], with or without the name *)
Definition of_state (o : istate) (f : string) : Prop :=
  begins f (state_dump o) \/ begins f (state_dump (named o)).

Lemma file_load_begins : forall r f t, string_file_load r (Some f) = Some t -> begins t f.
Proof.
  intros r f t H. unfold string_file_load in H. destruct (r_size r && r_mem r && r_open r)%bool; [|discriminate].
  injection H as <-. eapply begins_trans; [apply cstr_begins|apply take_begins].
Qed.

(** What is loaded from a beginning of a printed state is that state. *)
Lemma loads_printed : forall L o t s, strtod_sane L -> reads_versions L -> proper_state o ->
  begins t (state_dump o) -> state_load L 0 empty_state t = (s, true) -> same_state o s.
Proof.
  intros L o t s HL HR Hp Hb Hs. apply (load_begins L 0 empty_state t (state_dump o) s HL Hb) in Hs.
  destruct (state_round L 0 o HR Hp) as (s' & H1 & H2). congruence.
Qed.

Lemma loads_of_state : forall L o t s, strtod_sane L -> reads_versions L -> proper_state o ->
  of_state o t -> state_load L 0 empty_state t = (s, true) -> same_state (named o) (named s).
Proof.
  intros L o t s HL HR Hp [Hb|Hb] Hs.
  - apply named_same. eapply loads_printed; eauto.
  - rewrite <- (named_twice o). apply named_same. eapply loads_printed; eauto. now apply named_proper.
Qed.

Lemma write_begins : forall w f text f' r, write_file w f text = (f', r) ->
  f' = f \/ exists t, f' = Some t /\ begins t text.
Proof.
  intros w f text f' r H. destruct w; cbn in H; injection H as <- <-; auto; right; eexists; split; eauto using take_begins.
Qed.

(** loading the state at a start *)
Lemma tunnel_state_inv : forall L r w f f' ph, load_tunnel_state L r w (Some f) = (f', ph) ->
  (f' = Some f /\ ph = No) \/
  exists t s, begins t f /\ state_load L 0 empty_state t = (s, true) /\
    (forall s', ph = Go s' -> s' = named s) /\
    (f' = Some f \/ (st_friendly s = None /\ exists g, f' = Some g /\ begins g (state_dump (named s)))).
Proof.
  intros L r w f f' ph H. unfold load_tunnel_state in H.
  destruct (string_file_load r (Some f)) as [t|] eqn:Ht; [|injection H as <- <-; auto].
  apply file_load_begins in Ht.
  destruct (state_load L 0 empty_state t) as [s ok] eqn:Hs. destruct ok; cbn [negb] in H; [|injection H as <- <-; auto].
  right. exists t, s. split; [exact Ht|]. split; [exact Hs|].
  destruct (st_friendly s) as [n|] eqn:Hn.
  - injection H as <- <-. split; [|auto]. intros s' E. injection E as <-. rewrite <- named_default. unfold default_name.
    now rewrite Hn.
  - destruct (write_file w (Some f) (state_dump (default_name s))) as [g res] eqn:Hw. injection H as <- <-.
    rewrite named_default in *. split.
    + intros s' E. destruct res; [|discriminate]. now injection E as <-.
    + apply write_begins in Hw. destruct Hw as [-> |(g' & -> & Hb)]; eauto.
Qed.

Lemma boot_inv : forall L K b d d' os, boot L K b d = (d', os) -> d_run d = None ->
  (d' = d) \/
  exists f ph, d_state d <> None /\ load_tunnel_state L (b_rs b) (b_ws b) (d_state d) = (f, ph) /\ d_state d' = f /\
    (d_run d' = None \/
     exists s k i1 i2, ph = Go s /\ load_conf iam_init (b_conf b) = (i1, true) /\ load_state (b_ext b) i1 s = (i2, true) /\
       snd (load_key K (b_new b) (b_wk b) (b_rk b) (d_key d)) = Go k /\
       d_run d' = Some {| p_iam := i2; p_key := k |}).
Proof.
  intros L K b d d' os H Hr. unfold boot in H.
  destruct (negb (b_before b && file_exists (d_state d))%bool) eqn:Hb; [injection H as <- <-; auto|].
  apply negb_false_iff, andb_true_iff in Hb. destruct Hb as [_ Hb].
  destruct (load_tunnel_state L (b_rs b) (b_ws b) (d_state d)) as [f ph] eqn:Hl. right. exists f, ph.
  split; [intros E; rewrite E in Hb; discriminate|]. split; [reflexivity|].
  destruct ph as [s| |]; [|injection H as <- <-; auto|injection H as <- <-; auto].
  destruct (negb (b_middle b)); [injection H as <- <-; auto|].
  cbn [set_state_file d_key] in H.
  destruct (load_key K (b_new b) (b_wk b) (b_rk b) (d_key d)) as [fk phk] eqn:Hk.
  destruct phk as [k| |]; [|injection H as <- <-; auto|injection H as <- <-; auto].
  destruct (load_conf iam_init (b_conf b)) as [i1 ok1] eqn:Hc. destruct ok1; cbn [negb] in H; [|injection H as <- <-; auto].
  destruct (load_state (b_ext b) i1 s) as [i2 ok2] eqn:Hi. destruct ok2; cbn [andb negb] in H; [|injection H as <- <-; auto].
  destruct (b_after b); cbn [negb] in H; [|injection H as <- <-; auto].
  injection H as <- <-. split; [reflexivity|]. right. exists s, k, i1, i2. cbn. auto.
Qed.

Lemma load_state_same : forall x i s i', load_state x i s = (i', true) -> same_state s (i_state i').
Proof.
  intros x i s i' H. apply load_inv in H. destruct H as (_ & _ & _ & _ & _ & _ & _ & [(H & _)|(_ & _ & H & _)]); [discriminate|].
  rewrite H. split; [reflexivity|apply renumber_same].
Qed.

(** A start on a file of [o]: the file stays one of [o], and a device which runs
    has that state. *)
Lemma boot_of_state : forall L K b d d' os o f, strtod_sane L -> reads_versions L -> proper_state o ->
  boot L K b d = (d', os) -> d_run d = None -> d_state d = Some f -> of_state o f ->
  (exists f', d_state d' = Some f' /\ of_state o f') /\
  (forall p, d_run d' = Some p -> same_state (named o) (i_state (p_iam p))).
Proof.
  intros L K b d d' os o f HL HR Hp H Hr Hf Ho.
  destruct (boot_inv _ _ _ _ _ _ H Hr) as [-> |(g & ph & _ & Hl & Hg & Hrun)].
  { split; [eauto|]. intros p E. congruence. }
  rewrite Hf in Hl. apply tunnel_state_inv in Hl.
  destruct Hl as [[-> ->]|(t & s & Hb & Hs & Hgo & Hfile)].
  { split; [eauto|]. intros p E. destruct Hrun as [E'|(s & k & i1 & i2 & E' & _)]; [congruence|discriminate]. }
  assert (Ht : of_state o t) by (destruct Ho; [left|right]; eapply begins_trans; eauto).
  pose proof (loads_of_state _ _ _ _ HL HR Hp Ht Hs) as Hsame.
  split.
  - destruct Hfile as [-> |(Hn & f' & -> & Hf')]; [eauto|]. exists f'. split; [exact Hg|]. right.
    now rewrite (same_dump _ _ Hsame).
  - intros p E. destruct Hrun as [E'|(s' & k & i1 & i2 & -> & _ & Hi & _ & E')]; [congruence|].
    rewrite (Hgo s' eq_refl) in Hi. apply load_state_same in Hi. assert (p_iam p = i2) by (rewrite E' in E; now injection E as <-).
    subst i2. eapply same_trans; eauto.
Qed.
