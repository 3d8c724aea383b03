(** Key agreement: both sides agree, and the hashed transcript is injective. *)
From Coq Require Import String Ascii List Bool Arith NArith ZArith Lia.
From Verif Require Import PwAuthModel SpakeModel.
Import ListNotations.
Open Scope string_scope.

Section Laws.
Variable E : curve.
Hypothesis L : curve_laws E.
Local Notation "p +++ q" := (padd E p q) (at level 50, left associativity).
Local Notation "n ** p" := (pmul E n p) (at level 40).

Lemma padd_zero_r : forall p, p +++ pzero E = p.
Proof. intros. rewrite (padd_comm E L). apply (padd_zero E L). Qed.

Lemma pmul_add : forall a b p, (a + b) ** p = a ** p +++ b ** p.
Proof.
  induction a as [|a IH]; simpl; intros b p.
  - rewrite (padd_zero E L). reflexivity.
  - rewrite IH, (padd_assoc E L). reflexivity.
Qed.

Lemma pmul_zero : forall a, a ** pzero E = pzero E.
Proof. induction a as [|a IH]; simpl; [reflexivity|]. rewrite IH. apply (padd_zero E L). Qed.

Lemma pmul_mul : forall a b p, (a * b) ** p = a ** (b ** p).
Proof.
  induction a as [|a IH]; simpl; intros b p; [reflexivity|].
  rewrite pmul_add, IH. reflexivity.
Qed.

Lemma pmul_dist : forall a p q, a ** (p +++ q) = a ** p +++ a ** q.
Proof.
  induction a as [|a IH]; simpl; intros p q.
  - rewrite (padd_zero E L). reflexivity.
  - rewrite IH. rewrite <- !(padd_assoc E L). f_equal. rewrite !(padd_assoc E L). f_equal.
    apply (padd_comm E L).
Qed.

Lemma pmul_order : forall k, (k * order E) ** const_M E = pzero E.
Proof. intros k. rewrite pmul_mul, (order_M E L). apply pmul_zero. Qed.

Lemma device_K_value : forall x y w,
  device_K E y w (client_share E x w) = (y * x) ** generator E.
Proof.
  intros x y w. unfold device_K, client_share.
  rewrite pmul_dist, <- !pmul_mul, <- (padd_assoc E L).
  rewrite <- pmul_add.
  set (t := Z.to_nat _).
  assert (exists k, y * w + t = k * order E) as [k ->].
  { subst t. pose proof (order_pos E L) as O.
    set (n := Z.of_nat (order E)). assert (0 < n)%Z by (subst n; lia).
    pose proof (Z.mod_pos_bound (-1 * Z.of_nat y * Z.of_nat w) n H).
    pose proof (Z.div_mod (-1 * Z.of_nat y * Z.of_nat w) n ltac:(lia)) as D.
    set (m := ((-1 * Z.of_nat y * Z.of_nat w) mod n)%Z) in *.
    set (q := ((-1 * Z.of_nat y * Z.of_nat w) / n)%Z) in *.
    exists (Z.to_nat (- q)).
    assert (q <= 0)%Z.
    { subst q. apply Z.div_le_upper_bound; nia. }
    apply Nat2Z.inj. rewrite Nat2Z.inj_add, !Nat2Z.inj_mul, !Z2Nat.id by lia. fold n. nia. }
  rewrite pmul_order. apply padd_zero_r.
Qed.

Lemma client_K_value : forall x y w,
  client_K E x w (device_share E y w) = (x * y) ** generator E.
Proof.
  intros x y w. unfold client_K, device_share.
  rewrite (padd_comm E L (w ** const_N E)), <- (padd_assoc E L), (padd_neg E L), padd_zero_r, <- pmul_mul.
  reflexivity.
Qed.

Lemma keys_agree : forall x y w,
  client_K E x w (device_share E y w) = device_K E y w (client_share E x w).
Proof. intros. rewrite client_K_value, device_K_value. f_equal. lia. Qed.

Lemma confirmation_agrees : forall H cfp dfp pw rnd x user old,
  let w := password_scalar H (Some pw) rnd in
  let xch := {| x_user := user; x_T := encode_point E (client_share E x w); x_cfp := cfp; x_dfp := dfp;
                x_password := Some pw; x_rnd := rnd; x_old := old |} in
  exists k, calculate_key (spake_crypto E H) xch = (k, true) /\
    confirmation (spake_crypto E H) k =
    client_proof E H cfp dfp x w (device_share E (device_secret rnd) w).
Proof.
  intros H cfp dfp pw rnd x user old w xch. simpl. unfold spake_key, xch. simpl.
  rewrite (decode_encode E L). eexists. split; [reflexivity|].
  unfold client_proof. rewrite keys_agree. reflexivity.
Qed.
End Laws.

(** ** The transcript *)

Lemma str_app_assoc : forall a b c, (a ++ b) ++ c = a ++ (b ++ c).
Proof. induction a as [|x a IH]; simpl; intros; [auto|]. rewrite IH. auto. Qed.

Lemma str_app_inj : forall a b c d, String.length a = String.length b -> a ++ c = b ++ d -> a = b /\ c = d.
Proof.
  induction a as [|x a IH]; intros [|y b] c d Hl H; simpl in *; try discriminate; [auto|].
  inversion H; subst. inversion Hl. destruct (IH b c d) as [-> ->]; auto.
Qed.

Definition short (s : string) : Prop := (N.of_nat (String.length s) < 2 ^ 32)%N.

Lemma be32_inj : forall a b, (a < 2 ^ 32)%N -> (b < 2 ^ 32)%N -> be32 a = be32 b -> a = b.
Proof.
  intros a b A B H. unfold be32 in H. inversion H as [[H1 H2 H3 H4]]; clear H.
  assert (I : forall x y, (x < 256)%N -> (y < 256)%N -> ascii_of_N x = ascii_of_N y -> x = y).
  { intros x y X Y Q. rewrite <- (N_ascii_embedding x X), <- (N_ascii_embedding y Y), Q. reflexivity. }
  assert (M : forall x, (x mod 256 < 256)%N) by (intros; apply N.mod_lt; discriminate).
  apply I in H1; auto. apply I in H2; auto. apply I in H3; auto. apply I in H4; auto.
  assert (S : forall x, (x < 2 ^ 32)%N ->
     (x = ((((x / 16777216) mod 256) * 256 + (x / 65536) mod 256) * 256 + (x / 256) mod 256) * 256 + x mod 256)%N).
  { intros x X.
    assert (D1 : (x / 65536 = x / 256 / 256)%N) by (rewrite N.div_div; [reflexivity|discriminate|discriminate]).
    assert (D2 : (x / 16777216 = x / 256 / 256 / 256)%N) by (rewrite !N.div_div; [reflexivity|discriminate..]).
    rewrite D1, D2.
    set (p := (x / 256)%N). set (q := (p / 256)%N). set (r := (q / 256)%N).
    assert (R : (r < 256)%N).
    { subst r q p. rewrite !N.div_div by discriminate. apply N.div_lt_upper_bound; [discriminate|]. exact X. }
    rewrite (N.mod_small r) by auto.
    pose proof (N.div_mod q 256 ltac:(discriminate)). pose proof (N.div_mod p 256 ltac:(discriminate)).
    pose proof (N.div_mod x 256 ltac:(discriminate)). fold p in H0. fold q in H. fold r in H. fold p in H5. fold q in H0. lia. }
  rewrite (S a A), (S b B), H1, H2, H3, H4. reflexivity.
Qed.

Lemma hash_data_inj : forall a b c d, short a -> short b -> hash_data a ++ c = hash_data b ++ d -> a = b /\ c = d.
Proof.
  intros a b c d A B H. unfold hash_data in H. rewrite !str_app_assoc in H.
  apply str_app_inj in H; [|reflexivity]. destruct H as [H1 H2].
  apply be32_inj in H1; auto. apply str_app_inj in H2; auto. lia.
Qed.

(** Big endian bytes. *)
Lemma bytes_inv : forall fuel n acc,
  (n < 256 ^ N.of_nat fuel)%N ->
  (fold_left (fun n c => (256 * n + N_of_ascii c)%N) (list_ascii_of_string (nat_to_bytes_fuel fuel n acc)) 0 =
   fold_left (fun n c => (256 * n + N_of_ascii c)%N) (list_ascii_of_string acc) n)%N.
Proof.
  induction fuel as [|f IH]; intros n acc Hn.
  - simpl in Hn. assert (n = 0%N) by lia. subst. reflexivity.
  - cbn [nat_to_bytes_fuel]. destruct (N.eqb_spec n 0) as [->|Z]; [reflexivity|].
    rewrite IH.
    + cbn [list_ascii_of_string fold_left].
      rewrite N_ascii_embedding by (apply N.mod_lt; discriminate).
      rewrite <- (N.div_mod n 256) by discriminate. reflexivity.
    + apply N.div_lt_upper_bound; [discriminate|].
      rewrite Nat2N.inj_succ, N.pow_succ_r' in Hn. exact Hn.
Qed.

Lemma nat_bytes_round : forall n, bytes_to_nat (nat_to_bytes n) = n.
Proof.
  intros n. unfold bytes_to_nat, nat_to_bytes. rewrite bytes_inv; [simpl; apply Nat2N.id|].
  rewrite Nat2N.inj_succ, N2Nat.id, N.pow_succ_r'.
  pose proof (N.size_gt (N.of_nat n)).
  assert (2 ^ N.size (N.of_nat n) <= 256 ^ N.size (N.of_nat n))%N by (apply N.pow_le_mono_l; lia).
  lia.
Qed.

Lemma transcript_inj : forall E, curve_laws E -> forall cfp dfp T S K w cfp' dfp' T' S' K' w',
  short cfp -> short dfp -> short cfp' -> short dfp' ->
  (forall p, short (encode_point E p)) ->
  transcript E cfp dfp T S K w = transcript E cfp' dfp' T' S' K' w' ->
  cfp = cfp' /\ dfp = dfp' /\ T = T' /\ S = S' /\ K = K' /\ w = w'.
Proof.
  intros E L cfp dfp T S K w cfp' dfp' T' S' K' w' A B A' B' EP H. unfold transcript in H.
  assert (EI : forall p q, encode_point E p = encode_point E q -> p = q).
  { intros p q Q. pose proof (decode_encode E L p) as P. rewrite Q, (decode_encode E L) in P. congruence. }
  apply hash_data_inj in H; auto. destruct H as [-> H].
  apply hash_data_inj in H; auto. destruct H as [-> H].
  apply hash_data_inj in H; auto. destruct H as [H1 H]. apply EI in H1.
  apply hash_data_inj in H; auto. destruct H as [H2 H]. apply EI in H2.
  apply hash_data_inj in H; auto. destruct H as [H3 H]. apply EI in H3.
  unfold hash_data in H. apply str_app_inj in H; [|reflexivity]. destruct H as [_ H].
  assert (w = w') by (rewrite <- (nat_bytes_round w), H; apply nat_bytes_round).
  auto 10.
Qed.

(** Equal keys mean equal inputs, or a collision of the hash. *)
Lemma key_binds : forall E H, curve_laws E -> forall x1 x2 k,
  short (x_cfp x1) -> short (x_dfp x1) -> short (x_cfp x2) -> short (x_dfp x2) ->
  (forall p, short (encode_point E p)) ->
  calculate_key (spake_crypto E H) x1 = (k, true) ->
  calculate_key (spake_crypto E H) x2 = (k, true) ->
  (exists a b, a <> b /\ H a = H b) \/
  (x_cfp x1 = x_cfp x2 /\ x_dfp x1 = x_dfp x2 /\
   decode_point E (x_T x1) = decode_point E (x_T x2) /\
   password_scalar H (x_password x1) (x_rnd x1) = password_scalar H (x_password x2) (x_rnd x2)).
Proof.
  intros E H L x1 x2 k A B A' B' EP K1 K2. simpl in K1, K2. unfold spake_key in *.
  destruct (decode_point E (x_T x1)) as [T1|] eqn:D1; [|discriminate].
  destruct (decode_point E (x_T x2)) as [T2|] eqn:D2; [|discriminate].
  injection K1 as K1. injection K2 as K2.
  match type of K1 with H ?a = _ => match type of K2 with H ?b = _ => destruct (string_dec a b) as [e|n] end end.
  - right. apply transcript_inj in e; auto. destruct e as (-> & -> & -> & _ & _ & ->). auto.
  - left. eexists _, _. split; [exact n|]. congruence.
Qed.

(** ** A client with the right password is let in *)
Lemma right_password_accepted : forall E H, curve_laws E -> (forall s, String.length (H s) = 32) ->
  forall s c p r x pw rnd user,
  st_conns s c = Some p -> st_listening s = true -> st_tokens s <> 0%N ->
  find_app s r = Some {| rq_id := r; rq_conn := c; rq_user := user;
      rq_T := encode_point E (client_share E x (bytes_to_nat (H pw))); rq_handled := false |} ->
  let w := bytes_to_nat (H pw) in
  let share := device_share E (device_secret rnd) w in
  let proof := client_proof E H (pc_cfp p) (pc_dfp p) x w share in
  exists s' xch k r',
    run (spake_crypto E H) s [SetPassword r (Some pw) rnd; Step2 c (Some proof)] =
      Some (s', [Exchanged c xch k true; Answer r 201; Returned EcOk; Checked c proof true; Answer r' 201])
    /\ is_password_authenticated s' c = true
    /\ (user <> "" -> get_username s' c = UOk user).
Proof.
  intros E H L H32 s c p r x pw rnd user P Li T FA w share proof.
  destruct (confirmation_agrees E L H (pc_cfp p) (pc_dfp p) pw rnd x user (pc_key p)) as (k & K & V).
  simpl password_scalar in K, V. fold w share in V. fold proof in V.
  set (C := spake_crypto E H) in *.
  set (xch := {| x_user := user; x_T := encode_point E (client_share E x w); x_cfp := pc_cfp p; x_dfp := pc_dfp p;
     x_password := Some pw; x_rnd := rnd; x_old := pc_key p |}) in *.
  change (calculate_key C xch = (k, true)) in K.
  assert (S1 : exists s1, step C s (SetPassword r (Some pw) rnd) =
     Some (s1, [Exchanged c xch k true; Answer r 201; Returned EcOk]) /\
     st_tokens s1 = st_tokens s /\ st_listening s1 = true /\
     st_conns s1 c = Some {| pc_cfp := pc_cfp p; pc_dfp := pc_dfp p; pc_has_key := true; pc_key := k;
        pc_user := Some user; pc_auth := pc_auth p |}).
  { cbn [step]. rewrite FA. cbn [rq_handled]. unfold password_ready. cbn [rq_conn rq_user rq_T rq_id].
    rewrite P. change (bytes_to_nat (H pw)) with w. fold xch. rewrite K.
    eexists. split; [reflexivity|]. cbn. repeat split; auto. unfold set_conn. rewrite Nat.eqb_refl. auto. }
  destruct S1 as (s1 & S1 & T1 & L1 & C1).
  assert (PL : String.length proof = 32) by apply H32.
  assert (S2 : exists s2, step C s1 (Step2 c (Some proof)) = Some (s2, [Checked c proof true; Answer (st_next s1) 201])
     /\ st_conns s2 c = Some {| pc_cfp := pc_cfp p; pc_dfp := pc_dfp p; pc_has_key := true; pc_key := k;
        pc_user := Some user; pc_auth := true |}).
  { cbn [step]. rewrite C1. unfold handle_2. cbn [st_tokens st_listening bump]. rewrite T1, L1.
    destruct (N.eqb_spec (st_tokens s) 0); [contradiction|]. cbn [negb].
    rewrite PL, Nat.eqb_refl. cbn [negb pc_has_key pc_key]. rewrite V, String.eqb_refl.
    eexists. split; [reflexivity|]. cbn. unfold set_conn. rewrite Nat.eqb_refl. reflexivity. }
  destruct S2 as (s2 & S2 & C2).
  exists s2, xch, k, (st_next s1). split; [|split].
  - cbn [run]. rewrite S1, S2. reflexivity.
  - unfold is_password_authenticated. rewrite C2. reflexivity.
  - intros NE. unfold get_username. rewrite C2. cbn. destruct user; [contradiction|reflexivity].
Qed.
