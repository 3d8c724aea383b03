(** Proofs about the codecs. *)
From Coq Require Import String Ascii List Bool Arith NArith Lia.
From Verif Require Import CodecModel CodecSpec.
Import ListNotations.
Open Scope list_scope.

(** ** Variable length integers *)
Definition be_bytes (v : N) (n : nat) : list N := map (fun k => byte_of v (N.of_nat k)) (rev (seq 0 n)).

Lemma be_bytes_S : forall v n, be_bytes v (S n) = byte_of v (N.of_nat n) :: be_bytes v n.
Proof.
  intros. unfold be_bytes. rewrite seq_S, rev_app_distr. reflexivity.
Qed.

Lemma be_bytes_len : forall v n, length (be_bytes v n) = n.
Proof. intros. unfold be_bytes. rewrite map_length, rev_length, seq_length. auto. Qed.

Lemma byte_of_lt : forall v k, (byte_of v k < 256)%N.
Proof. intros. unfold byte_of. apply N.mod_lt. discriminate. Qed.

Lemma byte_of_div : forall v n, byte_of v (N.of_nat n) = ((v / 256 ^ N.of_nat n) mod 256)%N.
Proof.
  intros. unfold byte_of. rewrite N.shiftr_div_pow2, N.pow_mul_r. reflexivity.
Qed.

Lemma nth_error_mid : forall (a : list N) x b, nth_error (a ++ x :: b) (length a) = Some x.
Proof. induction a; simpl; auto. Qed.

Lemma read_more_be : forall v n pre rest acc,
  read_more (pre ++ be_bytes v n ++ rest) (length pre) n acc =
  Some (acc * 256 ^ N.of_nat n + v mod 256 ^ N.of_nat n)%N.
Proof.
  intros v. induction n as [|n IH]; intros pre rest acc.
  - cbn [read_more]. rewrite N.mod_1_r. f_equal. simpl (256 ^ N.of_nat 0)%N. lia.
  - cbn [read_more]. rewrite be_bytes_S. cbn [app].
    unfold nth_byte. rewrite nth_error_mid.
    replace (pre ++ byte_of v (N.of_nat n) :: be_bytes v n ++ rest)
      with ((pre ++ [byte_of v (N.of_nat n)]) ++ be_bytes v n ++ rest)
      by (rewrite <- app_assoc; reflexivity).
    replace (S (length pre)) with (length (pre ++ [byte_of v (N.of_nat n)]))
      by (rewrite app_length; simpl; lia).
    rewrite IH. f_equal. rewrite Nat2N.inj_succ, N.pow_succ_r', byte_of_div.
    rewrite (N.mul_comm 256 (256 ^ N.of_nat n)).
    rewrite (N.mod_mul_r v (256 ^ N.of_nat n) 256); [lia|apply N.pow_nonzero; discriminate|discriminate].
Qed.

Lemma tag_bits : forall b k, (b < 64)%N -> (k < 4)%N ->
  N.land (N.lor b (64 * k)) 63 = b /\ N.shiftr (N.lor b (64 * k)) 6 = k.
Proof.
  intros b k B K.
  change 63%N with (N.ones 6). change 64%N with (2 ^ 6)%N in *. split.
  - rewrite N.land_lor_distr_l, !N.land_ones, N.mod_small by auto.
    rewrite N.mul_comm, N.mod_mul by discriminate. apply N.lor_0_r.
  - rewrite N.shiftr_lor, !N.shiftr_div_pow2, (N.div_small b) by auto.
    rewrite N.mul_comm, N.div_mul by discriminate. apply N.lor_0_l.
Qed.

Lemma read_tagged : forall n k v rest, (k < 4)%N -> S n = 2 ^ N.to_nat k ->
  (v < 64 * 256 ^ N.of_nat n)%N ->
  forall mem, mem = (N.lor (byte_of v (N.of_nat n)) (64 * k) :: be_bytes v n) ++ rest ->
  var_uint_read mem (length mem) = RdOk v (S n).
Proof.
  intros n k v rest K E V mem ->.
  assert (B : (byte_of v (N.of_nat n) < 64)%N).
  { rewrite byte_of_div. eapply N.le_lt_trans; [apply N.mod_le; discriminate|].
    apply N.div_lt_upper_bound; [apply N.pow_nonzero; discriminate|]. lia. }
  destruct (tag_bits _ k B K) as [T1 T2].
  unfold var_uint_read. cbn [app nth_byte nth_error]. unfold nth_byte. cbn [nth_error].
  rewrite T1, T2, <- E.
  replace (Nat.ltb (length (N.lor (byte_of v (N.of_nat n)) (64 * k) :: be_bytes v n ++ rest)) (S n)) with false.
  2:{ symmetry. apply Nat.ltb_ge. simpl. rewrite app_length, be_bytes_len. lia. }
  replace (S n - 1) with n by lia.
  pose proof (read_more_be v n [N.lor (byte_of v (N.of_nat n)) (64 * k)] rest (byte_of v (N.of_nat n))) as R.
  cbn [app length] in R. rewrite R. f_equal.
  rewrite byte_of_div.
  assert (P : (256 ^ N.of_nat n <> 0)%N) by (apply N.pow_nonzero; discriminate).
  rewrite (N.mod_small (v / 256 ^ N.of_nat n)).
  - rewrite (N.mul_comm (v / _)). symmetry. apply N.div_mod; auto.
  - apply N.div_lt_upper_bound; [auto|]. lia.
Qed.

Lemma write_shape : forall v, (v < 2 ^ 62)%N -> exists n k,
  var_uint_write v = N.lor (byte_of v (N.of_nat n)) (64 * k) :: be_bytes v n
  /\ (k < 4)%N /\ S n = 2 ^ N.to_nat k /\ (v < 64 * 256 ^ N.of_nat n)%N.
Proof.
  intros v V. unfold var_uint_write.
  destruct (N.ltb_spec v (2 ^ 6)).
  - exists 0, 0%N. split; [|split; [reflexivity|split; [reflexivity|exact H]]].
    rewrite N.lor_0_r. reflexivity.
  - destruct (N.ltb_spec v (2 ^ 14)).
    + exists 1, 1%N. split; [reflexivity|split; [reflexivity|split; [reflexivity|exact H0]]].
    + destruct (N.ltb_spec v (2 ^ 30)).
      * exists 3, 2%N. split; [reflexivity|split; [reflexivity|split; [reflexivity|exact H1]]].
      * exists 7, 3%N. split; [reflexivity|split; [reflexivity|split; [reflexivity|exact V]]].
Qed.

Lemma write_read : forall v rest, (v < 2 ^ 62)%N ->
  var_uint_read (var_uint_write v ++ rest) (length (var_uint_write v ++ rest)) =
  RdOk v (length (var_uint_write v)).
Proof.
  intros v rest V. destruct (write_shape v V) as (n & k & E & K & L & B). rewrite E.
  rewrite (read_tagged n k v rest K L B) by reflexivity. f_equal. simpl. rewrite be_bytes_len. auto.
Qed.

Lemma write_bytes : forall v, bytes (var_uint_write v) /\
  (length (var_uint_write v) = 1 \/ length (var_uint_write v) = 2 \/ length (var_uint_write v) = 4 \/ length (var_uint_write v) = 8).
Proof.
  intros v. assert (L : forall a b, (a < 256)%N -> (b < 256)%N -> (N.lor a b < 256)%N).
  { intros a b A B. destruct (N.eq_dec (N.lor a b) 0) as [->|Z]; [reflexivity|].
    change 256%N with (2 ^ 8)%N in *. apply N.log2_lt_pow2; [lia|]. rewrite N.log2_lor.
    apply N.max_lub_lt.
    - destruct (N.eq_dec a 0) as [->|]; [reflexivity|]. apply N.log2_lt_pow2; lia.
    - destruct (N.eq_dec b 0) as [->|]; [reflexivity|]. apply N.log2_lt_pow2; lia. }
  unfold var_uint_write, bytes, is_byte. pose proof (byte_of_lt v) as B.
  destruct (N.ltb _ _); [split; [repeat constructor; auto|auto]|].
  destruct (N.ltb _ _); [split; [repeat (constructor; [first [apply B|apply L; [apply B|reflexivity]]|]); constructor|auto]|].
  destruct (N.ltb _ _); split; auto; repeat (constructor; [first [apply B|apply L; [apply B|reflexivity]]|]); constructor.
Qed.

Lemma read_more_some : forall n mem i v, i + n <= length mem -> exists r, read_more mem i n v = Some r.
Proof.
  induction n as [|n IH]; intros mem i v H; [simpl; eauto|]. simpl. unfold nth_byte.
  destruct (nth_error mem i) eqn:E; [|apply nth_error_None in E; lia]. apply IH. lia.
Qed.

Lemma pow2_pos : forall k, 2 ^ k >= 1.
Proof. induction k; simpl; lia. Qed.

Lemma read_safe : forall mem size, mem <> [] -> size <= length mem -> var_uint_read mem size <> RdUndef.
Proof.
  intros mem size NE L. unfold var_uint_read. destruct mem as [|b mem]; [congruence|].
  unfold nth_byte. cbn [nth_error].
  destruct (Nat.ltb_spec size (2 ^ N.to_nat (N.shiftr b 6))); [discriminate|].
  destruct (read_more_some (2 ^ N.to_nat (N.shiftr b 6) - 1) (b :: mem) 1 (N.land b 63)) as [r R].
  - pose proof (pow2_pos (N.to_nat (N.shiftr b 6))). lia.
  - rewrite R. discriminate.
Qed.

(** What a successful read tells. *)
Lemma read_more_lt : forall n mem i v r, bytes mem -> read_more mem i n v = Some r ->
  (r < (v + 1) * 256 ^ N.of_nat n)%N.
Proof.
  induction n as [|n IH]; intros mem i v r B H.
  - simpl in H. inversion H; subst. simpl (256 ^ N.of_nat 0)%N. lia.
  - cbn [read_more] in H. unfold nth_byte in H. destruct (nth_error mem i) as [b|] eqn:E; [|discriminate].
    apply IH in H; auto. apply nth_error_In in E.
    pose proof (proj1 (Forall_forall _ _) B b E) as Bb. unfold is_byte in Bb.
    rewrite Nat2N.inj_succ, N.pow_succ_r'. nia.
Qed.

Lemma read_ok : forall mem size v len, bytes mem -> var_uint_read mem size = RdOk v len ->
  len <= size /\ (v < 2 ^ 62)%N /\ (len = 1 \/ len = 2 \/ len = 4 \/ len = 8).
Proof.
  intros mem size v len B H. unfold var_uint_read in H.
  destruct mem as [|b mem]; [discriminate|]. unfold nth_byte in H. cbn [nth_error] in H.
  assert (Bb : (b < 256)%N) by (inversion B; auto).
  destruct (Nat.ltb_spec size (2 ^ N.to_nat (N.shiftr b 6))); [discriminate|].
  destruct (read_more _ _ _ _) as [r|] eqn:E; [|discriminate]. injection H as <- <-.
  change (N.div2 (N.div2 (N.div2 (N.div2 (N.div2 (N.div2 b)))))) with (N.shiftr b 6).
  split; [auto|].
  assert (K : (N.shiftr b 6 < 4)%N).
  { rewrite N.shiftr_div_pow2. apply N.div_lt_upper_bound; [discriminate|exact Bb]. }
  apply read_more_lt in E; auto.
  assert (A : (N.land b 63 < 64)%N).
  { change 63%N with (N.ones 6). rewrite N.land_ones. apply N.mod_lt. discriminate. }
  set (k := N.shiftr b 6) in *. clearbody k.
  assert (D : k = 0%N \/ k = 1%N \/ k = 2%N \/ k = 3%N) by lia.
  change (2 ^ 62)%N with (64 * 256 ^ 7)%N.
  assert (Q : forall m : nat, m <= 7 -> ((N.land b 63 + 1) * 256 ^ N.of_nat m <= 64 * 256 ^ 7)%N).
  { intros m M. apply N.mul_le_mono; [lia|]. apply N.pow_le_mono_r; [discriminate|]. lia. }
  destruct D as [D|[D|[D|D]]]; subst k;
    match type of E with (_ < (_ + 1) * 256 ^ N.of_nat ?m)%N =>
      split; [eapply N.lt_le_trans; [exact E|apply Q; vm_compute; repeat constructor]|vm_compute; auto] end.
Qed.

(** ** Stream packet headers *)

Lemma stream_header_ok : forall at_s id f body, (id < 2 ^ 62)%N ->
  4 <= length (stream_packet at_s id (f :: body)) ->
  stream_header (stream_packet at_s id (f :: body)) = HdrOk id f (f :: body).
Proof.
  intros a id f body V L. unfold stream_header, stream_packet in *.
  destruct (Nat.ltb_spec (length (a :: var_uint_write id ++ f :: body)) 4); [lia|].
  cbn [tl length]. replace (S (length (var_uint_write id ++ f :: body)) - 1)
    with (length (var_uint_write id ++ f :: body)) by lia.
  rewrite write_read by auto. unfold nth_byte. cbn [Nat.add nth_error skipn].
  rewrite nth_error_mid. f_equal.
  rewrite skipn_app, skipn_all, Nat.sub_diag. reflexivity.
Qed.

Lemma stream_header_safe : forall pkt, bytes pkt -> 10 <= length pkt -> stream_header pkt <> HdrUndef.
Proof.
  intros pkt B L. unfold stream_header.
  destruct (Nat.ltb_spec (length pkt) 4); [lia|].
  destruct pkt as [|a mem]; [simpl in L; lia|]. cbn [tl length] in *.
  replace (S (length mem) - 1) with (length mem) by lia.
  assert (NE : mem <> []) by (destruct mem; [simpl in L; lia|discriminate]).
  pose proof (read_safe mem (length mem) NE (le_n _)) as S.
  destruct (var_uint_read mem (length mem)) as [| |v len] eqn:R; [congruence|discriminate|].
  apply read_ok in R; [|inversion B; auto]. destruct R as (R1 & _ & R2).
  unfold nth_byte. destruct (nth_error (a :: mem) (1 + len)) eqn:E; [discriminate|].
  apply nth_error_None in E. simpl in E. lia.
Qed.

(** Any header that is read says what the packet holds. *)
Lemma stream_header_reads : forall pkt id f rest, bytes pkt -> stream_header pkt = HdrOk id f rest ->
  exists a pre, pkt = a :: pre ++ rest /\ hd_error rest = Some f /\ (id < 2 ^ 62)%N
    /\ forall more, var_uint_read (pre ++ more) (length (pre ++ more)) = RdOk id (length pre).
Proof.
  intros pkt id f rest B H. unfold stream_header in H.
  destruct (Nat.ltb_spec (length pkt) 4); [discriminate|].
  destruct pkt as [|a mem]; [discriminate|]. cbn [tl length] in *.
  replace (S (length mem) - 1) with (length mem) in H by lia.
  destruct (var_uint_read mem (length mem)) as [| |v len] eqn:R; [discriminate..|].
  unfold nth_byte in H. cbn [Nat.add nth_error skipn] in H.
  destruct (nth_error mem len) as [x|] eqn:E; [|discriminate]. inversion H; subst; clear H.
  assert (Bm : bytes mem) by (inversion B; auto).
  pose proof (read_ok _ _ _ _ Bm R) as (R1 & R2 & _).
  exists a, (firstn len mem). split; [rewrite firstn_skipn; auto|]. split.
  { clear - E. revert len E. induction mem as [|y mem IH]; intros [|len] E; simpl in *; try discriminate; auto. }
  split; [auto|]. intros more.
  assert (LEN : length (firstn len mem) = len) by (apply firstn_length_le; auto).
  rewrite LEN. unfold var_uint_read in *. unfold nth_byte in *.
  destruct mem as [|b mem]; [discriminate|]. cbn [nth_error] in R.
  assert (P : 2 ^ N.to_nat (N.shiftr b 6) >= 1) by (apply pow2_pos).
  remember (2 ^ N.to_nat (N.shiftr b 6)) as len' eqn:EL.
  destruct (Nat.ltb_spec (length (b :: mem)) len'); [discriminate|].
  destruct (read_more (b :: mem) 1 _ _) as [r|] eqn:RM; [|discriminate]. injection R as R0 R3; subst r; rewrite R3 in *; clear R3.
  assert (F0 : nth_error (firstn len (b :: mem) ++ more) 0 = Some b) by (destruct len; [lia|reflexivity]).
  rewrite F0, <- EL.
  destruct (Nat.ltb_spec (length (firstn len (b :: mem) ++ more)) len); [rewrite app_length, LEN in *; lia|].
  assert (G : forall n i v r, i + n <= len -> read_more (b :: mem) i n v = Some r ->
     read_more (firstn len (b :: mem) ++ more) i n v = Some r).
  { induction n as [|n IH]; intros i v' r' Hl Hr; [exact Hr|]. cbn [read_more] in *. unfold nth_byte in *.
    assert (NE : nth_error (firstn len (b :: mem) ++ more) i = nth_error (b :: mem) i).
    { rewrite nth_error_app1 by lia. rewrite <- (firstn_skipn len (b :: mem)) at 2.
      rewrite nth_error_app1 by lia. reflexivity. }
    rewrite NE. destruct (nth_error (b :: mem) i); [|discriminate]. apply IH; [lia|auto]. }
  rewrite (G (len - 1) 1 _ _ ltac:(lia) RM). reflexivity.
Qed.

(** ** Hexadecimal *)

Lemma hex_value_digit : forall c v, hex_value c = Some v <-> hex_digit c v.
Proof.
  intros c v. split.
  - intros H. exists (N.to_nat v).
    split; [rewrite N2Nat.id; auto|].
    assert (G : forall c, match hex_value c with Some v =>
        nth_error (list_ascii_of_string "0123456789abcdef") (N.to_nat v) = Some c \/
        nth_error (list_ascii_of_string "0123456789ABCDEF") (N.to_nat v) = Some c | None => True end).
    { intros [[] [] [] [] [] [] [] []]; vm_compute; auto. }
    specialize (G c). rewrite H in G. exact G.
  - intros (i & -> & H).
    do 16 (destruct i as [|i]; [destruct H as [H|H]; inversion H; subst; reflexivity|]).
    destruct H as [H|H]; destruct i; discriminate.
Qed.

Lemma hex_value_lt : forall c v, hex_value c = Some v -> (v < 16)%N.
Proof.
  intros c v H.
  assert (G : forall c, match hex_value c with Some v => N.ltb v 16 = true | None => True end)
    by (intros [[] [] [] [] [] [] [] []]; vm_compute; auto).
  specialize (G c). rewrite H in G. apply N.ltb_lt. auto.
Qed.

Fixpoint values (hex : list ascii) : option (list N) :=
  match hex with
  | [] => Some []
  | c :: h => match hex_value c, values h with Some v, Some l => Some (v :: l) | _, _ => None end
  end.

Fixpoint join2 (l : list N) : list N :=
  match l with
  | a :: b :: l' => (a * 16 + b)%N :: join2 l'
  | _ => []
  end.

Lemma update_mid : forall a x b f, update (a ++ x :: b) (length a) f = a ++ f x :: b.
Proof. induction a as [|y a IH]; simpl; intros; [auto|]. rewrite IH. auto. Qed.

Lemma hex_loop_even : forall n hex done, length hex = 2 * n ->
  hex_loop hex (2 * length done) (done ++ repeat 0%N n) =
  match values hex with Some l => Some (done ++ join2 l) | None => None end.
Proof.
  induction n as [|n IH]; intros hex done H.
  - destruct hex; [|discriminate]. simpl. reflexivity.
  - destruct hex as [|c1 [|c2 hex]]; try (simpl in H; lia).
    cbn [hex_loop values repeat].
    destruct (hex_value c1) as [v1|] eqn:V1; [|reflexivity].
    destruct (hex_value c2) as [v2|] eqn:V2; [|reflexivity].
    pose proof (hex_value_lt _ _ V1). pose proof (hex_value_lt _ _ V2).
    replace (2 * length done / 2) with (length done) by (rewrite Nat.mul_comm, Nat.div_mul; lia).
    rewrite update_mid.
    replace (S (2 * length done) / 2) with (length done).
    2:{ replace (S (2 * length done)) with (1 + length done * 2) by lia.
        rewrite Nat.div_add by lia. reflexivity. }
    rewrite update_mid.
    replace ((2 * length done + 1) mod 2) with 1
      by (rewrite Nat.add_comm, Nat.mul_comm, Nat.mod_add by lia; reflexivity).
    replace ((S (2 * length done) + 1) mod 2) with 0
      by (replace (S (2 * length done) + 1) with (0 + (S (length done)) * 2) by lia; rewrite Nat.mod_add by lia; reflexivity).
    replace (((0 + N.shiftl v1 (N.of_nat (1 * 4))) mod 256 + N.shiftl v2 (N.of_nat (0 * 4))) mod 256)%N
      with (v1 * 16 + v2)%N.
    2:{ simpl (N.of_nat _). rewrite !N.shiftl_mul_pow2. change (2 ^ 4)%N with 16%N. change (2 ^ 0)%N with 1%N.
        rewrite N.add_0_l, (N.mod_small (v1 * 16)), N.mul_1_r, N.mod_small by lia. reflexivity. }
    replace (done ++ (v1 * 16 + v2)%N :: repeat 0%N n) with ((done ++ [(v1 * 16 + v2)%N]) ++ repeat 0%N n)
      by (rewrite <- app_assoc; reflexivity).
    replace (S (S (2 * length done))) with (2 * length (done ++ [(v1 * 16 + v2)%N]))
      by (rewrite app_length; simpl; lia).
    rewrite IH by (simpl in H; lia).
    destruct (values hex) as [l|]; [|reflexivity]. rewrite <- app_assoc. reflexivity.
Qed.

Lemma hex_loop_odd : forall n hex, length hex = 2 * n + 1 ->
  hex_loop hex 1 (repeat 0%N (S n)) =
  match values hex with Some l => Some (join2 (0%N :: l)) | None => None end.
Proof.
  intros n hex H. destruct hex as [|c hex]; [simpl in H; lia|].
  cbn [hex_loop values repeat update Nat.div].
  destruct (hex_value c) as [v|] eqn:V; [|reflexivity].
  change (1 / 2) with 0. cbn [update].
  change ((1 + 1) mod 2) with 0. simpl (N.of_nat (0 * 4)).
  pose proof (hex_value_lt _ _ V).
  rewrite N.add_0_l, N.shiftl_0_r, N.mod_small by lia.
  pose proof (hex_loop_even n hex [v] ltac:(simpl in H; lia)) as E.
  change (2 * length [v]) with 2 in E. cbn [app] in E.
  change (fst (Nat.divmod 1 1 0 1)) with 0. cbv iota. rewrite E.
  destruct (values hex) as [l|]; reflexivity.
Qed.

Lemma values_length : forall hex l, values hex = Some l -> length l = length hex.
Proof.
  induction hex as [|c hex IH]; simpl; intros l H; [inversion H; auto|].
  destruct (hex_value c); [|discriminate]. destruct (values hex); [|discriminate].
  inversion H; subst. simpl. rewrite (IH l0 eq_refl). auto.
Qed.

Lemma values_spec : forall hex l, values hex = Some l <-> Forall2 hex_digit hex l.
Proof.
  induction hex as [|c hex IH]; simpl; intros l.
  - split; [intros H; inversion H; constructor|intros H; inversion H; auto].
  - split.
    + intros H. destruct (hex_value c) as [v|] eqn:V; [|discriminate].
      destruct (values hex) as [l'|]; [|discriminate]. inversion H; subst.
      constructor; [apply hex_value_digit; auto|]. apply IH. auto.
    + intros H. inversion H; subst. apply hex_value_digit in H2. rewrite H2.
      apply IH in H4. rewrite H4. auto.
Qed.

Lemma values_lt : forall hex l, values hex = Some l -> Forall (fun v => (v < 16)%N) l.
Proof.
  induction hex as [|c hex IH]; simpl; intros l H; [inversion H; auto|].
  destruct (hex_value c) eqn:V; [|discriminate]. destruct (values hex); [|discriminate].
  inversion H; subst. constructor; [eapply hex_value_lt; eauto|]. apply IH; auto.
Qed.

Lemma join2_spec : forall n l, length l = 2 * n -> Forall (fun v => (v < 16)%N) l ->
  length (join2 l) = n /\ bytes (join2 l) /\
  forall a, fold_left (fun n d => (n * 256 + d)%N) (join2 l) a = fold_left (fun n d => (n * 16 + d)%N) l a.
Proof.
  induction n as [|n IH]; intros l H F.
  - destruct l; [|discriminate]. simpl. repeat split; constructor.
  - destruct l as [|x [|y l]]; try (simpl in H; lia). inversion F as [|? ? Fx F']; subst.
    inversion F' as [|? ? Fy F'']; subst.
    destruct (IH l ltac:(simpl in H; lia) F'') as (A & B & D). cbn [join2 length].
    split; [auto|]. split.
    + constructor; [unfold is_byte; lia|auto].
    + intros a. cbn [fold_left]. rewrite D. f_equal. lia.
Qed.

Lemma positional_inj : forall d1 d2, length d1 = length d2 -> bytes d1 -> bytes d2 ->
  positional 256 d1 = positional 256 d2 -> d1 = d2.
Proof.
  unfold positional.
  assert (G : forall d1 d2 a b, length d1 = length d2 -> bytes d1 -> bytes d2 ->
    fold_left (fun n d => (n * 256 + d)%N) d1 a = fold_left (fun n d => (n * 256 + d)%N) d2 b ->
    a = b /\ d1 = d2).
  { induction d1 as [|x d1 IH]; intros [|y d2] a b L B1 B2 H; try discriminate; [auto|].
    cbn [fold_left] in H. inversion L. inversion B1; subst. inversion B2; subst.
    apply IH in H; auto. destruct H as [H ->]. unfold is_byte in *.
    assert (a = b /\ x = y) as [-> ->] by nia. auto. }
  intros d1 d2 L B1 B2 H. eapply G; eauto.
Qed.

Lemma hex_to_data_spec : forall hex n d,
  hex_to_data hex n = Some d <->
  (length hex = 2 * n \/ n <> 0 /\ length hex = 2 * n - 1) /\
  length d = n /\ bytes d /\
  exists ds, Forall2 hex_digit hex ds /\ positional 256 d = positional 16 ds.
Proof.
  intros hex n d. unfold hex_to_data.
  assert (CASES : (length hex = 2 * n \/ n <> 0 /\ length hex = 2 * n - 1) ->
     match values hex with
     | Some l => exists d0, hex_loop hex (if length hex mod 2 =? 1 then 1 else 0) (repeat 0%N n) = Some d0 /\
         length d0 = n /\ bytes d0 /\ positional 256 d0 = positional 16 l
     | None => hex_loop hex (if length hex mod 2 =? 1 then 1 else 0) (repeat 0%N n) = None
     end).
  { intros [L|[N0 L]].
    - replace (length hex mod 2) with 0 by (rewrite L, Nat.mul_comm, Nat.mod_mul; auto). simpl (0 =? 1).
      pose proof (hex_loop_even n hex [] L) as E. simpl in E. simpl. rewrite E.
      destruct (values hex) as [l|] eqn:V; [|auto]. exists (join2 l).
      destruct (join2_spec n l) as (A & B & D); [rewrite (values_length _ _ V); auto|eapply values_lt; eauto|].
      repeat split; auto. apply D.
    - destruct n as [|n]; [congruence|].
      assert (L' : length hex = 2 * n + 1) by lia.
      replace (length hex mod 2) with 1
        by (rewrite L', Nat.add_comm, Nat.mul_comm, Nat.mod_add by lia; reflexivity).
      change (1 =? 1) with true. cbv iota. rewrite (hex_loop_odd n hex L').
      destruct (values hex) as [l|] eqn:V; [|auto].
      exists (join2 (0%N :: l)).
      destruct (join2_spec (S n) (0%N :: l)) as (A & B & D).
      + simpl. rewrite (values_length _ _ V). lia.
      + constructor; [reflexivity|]. eapply values_lt; eauto.
      + repeat split; auto. unfold positional. rewrite D. reflexivity. }
  split.
  - intros H. destruct (negb _) eqn:G; [discriminate|].
    assert (LL : length hex = 2 * n \/ n <> 0 /\ length hex = 2 * n - 1).
    { apply negb_false_iff, orb_true_iff in G. destruct G as [G|G].
      - left. apply Nat.eqb_eq; auto.
      - right. apply andb_true_iff in G. destruct G as [G1 G2]. apply negb_true_iff, Nat.eqb_neq in G1.
        apply Nat.eqb_eq in G2. auto. }
    split; [auto|]. specialize (CASES LL). destruct (values hex) as [l|] eqn:V; [|congruence].
    destruct CASES as (d0 & E & A & B & D). rewrite E in H. inversion H; subst d0.
    repeat split; auto. exists l. split; [apply values_spec; auto|auto].
  - intros (LL & A & B & ds & F & P).
    replace (negb _) with false.
    2:{ symmetry. apply negb_false_iff, orb_true_iff. destruct LL as [LL|[N0 LL]].
        - left. apply Nat.eqb_eq; auto.
        - right. apply andb_true_iff. split; [apply negb_true_iff, Nat.eqb_neq; auto|apply Nat.eqb_eq; auto]. }
    specialize (CASES LL). apply values_spec in F. rewrite F in CASES.
    destruct CASES as (d0 & E & A0 & B0 & D0). rewrite E. f_equal.
    apply positional_inj; auto; congruence.
Qed.

Lemma encode_value : forall v, (v < 16)%N -> hex_value (encode_char v) = Some v.
Proof.
  intros v H. assert (G : forall n, n < 16 -> hex_value (encode_char (N.of_nat n)) = Some (N.of_nat n)).
  { intros n Hn. do 16 (destruct n as [|n]; [reflexivity|]). lia. }
  specialize (G (N.to_nat v)). rewrite N2Nat.id in G. apply G. lia.
Qed.

Lemma data_to_hex_values : forall d, bytes d ->
  values (data_to_hex d) = Some (flat_map (fun b => [(b / 16)%N; (b mod 16)%N]) d).
Proof.
  induction d as [|b d IH]; intros B; [reflexivity|]. inversion B as [|? ? Bb Bd]; subst.
  unfold is_byte in Bb. cbn [data_to_hex flat_map app values].
  assert (A1 : N.land (N.shiftr b 4) 15 = (b / 16)%N).
  { change 15%N with (N.ones 4). rewrite N.land_ones, N.shiftr_div_pow2. change (2 ^ 4)%N with 16%N.
    apply N.mod_small. apply N.div_lt_upper_bound; [discriminate|exact Bb]. }
  assert (A2 : N.land b 15 = (b mod 16)%N).
  { change 15%N with (N.ones 4). rewrite N.land_ones. reflexivity. }
  rewrite A1, A2, !encode_value.
  - unfold data_to_hex in IH. rewrite IH by auto. reflexivity.
  - apply N.mod_lt. discriminate.
  - apply N.div_lt_upper_bound; [discriminate|exact Bb].
Qed.

Lemma data_to_hex_length : forall d, length (data_to_hex d) = 2 * length d.
Proof. induction d as [|b d IH]; [reflexivity|]. cbn [data_to_hex flat_map app length]. unfold data_to_hex in IH. rewrite IH. lia. Qed.

Lemma hex_round_trip : forall d, bytes d -> hex_to_data (data_to_hex d) (length d) = Some d.
Proof.
  intros d B. apply hex_to_data_spec. split; [left; apply data_to_hex_length|].
  split; [auto|]. split; [auto|]. eexists. split; [apply values_spec, data_to_hex_values; auto|].
  unfold positional. clear B. generalize 0%N. induction d as [|b d IH]; intros a; [reflexivity|].
  cbn [fold_left flat_map app]. rewrite IH. f_equal.
  pose proof (N.div_mod b 16 ltac:(discriminate)). lia.
Qed.

(** ** Fingerprint strings *)

Lemma encode_nonzero : forall v, (v < 16)%N -> N_of_ascii (encode_char v) <> 0%N.
Proof.
  intros v H. assert (G : forall n, n < 16 -> N_of_ascii (encode_char (N.of_nat n)) <> 0%N).
  { intros n Hn. do 16 (destruct n as [|n]; [discriminate|]). lia. }
  specialize (G (N.to_nat v)). rewrite N2Nat.id in G. apply G. lia.
Qed.

Lemma strlen_hex : forall d tail, bytes d ->
  c_strlen (chars (data_to_hex d) ++ tail) =
  option_map (fun k => 2 * length d + k) (c_strlen tail).
Proof.
  induction d as [|b d IH]; intros tail B.
  - simpl. destruct (c_strlen tail); reflexivity.
  - inversion B as [|? ? Bb Bd]; subst. unfold is_byte in Bb.
    cbn [data_to_hex flat_map app chars map c_strlen].
    assert (L1 : (N.land (N.shiftr b 4) 15 < 16)%N)
      by (change 15%N with (N.ones 4); rewrite N.land_ones; apply N.mod_lt; discriminate).
    assert (L2 : (N.land b 15 < 16)%N)
      by (change 15%N with (N.ones 4); rewrite N.land_ones; apply N.mod_lt; discriminate).
    apply encode_nonzero in L1. apply encode_nonzero in L2.
    apply N.eqb_neq in L1. apply N.eqb_neq in L2. rewrite L1, L2.
    unfold chars, data_to_hex in IH. rewrite IH by auto.
    destruct (c_strlen tail); simpl; [|reflexivity]. do 3 f_equal. lia.
Qed.

Lemma to_hex_terminated : forall d, bytes d ->
  c_strlen (to_hex_region d) = Some (2 * length d) /\ length (to_hex_region d) = 2 * length d + 1.
Proof.
  intros d B. unfold to_hex_region. rewrite strlen_hex by auto. simpl c_strlen. simpl option_map.
  split; [f_equal; lia|]. rewrite app_length. unfold chars. rewrite map_length, data_to_hex_length. simpl. lia.
Qed.

Lemma virtual_unterminated : forall d, bytes d -> c_strlen (virtual_fingerprint_region d) = None.
Proof.
  intros d B. unfold virtual_fingerprint_region. rewrite <- (app_nil_r (chars _)).
  rewrite strlen_hex by auto. reflexivity.
Qed.

(** ** Tokens *)

Lemma token_loop_ok : forall src left acc t,
  token_loop src left acc = TokOk t ->
  exists s, t = rev acc ++ s /\ length s = left /\ Forall (fun c => In c alphabet) s.
Proof.
  induction src as [|[b|] src IH]; intros [|left] acc t H; simpl in H; try discriminate;
    try solve [inversion H; subst; exists []; rewrite app_nil_r; auto].
  destruct (nth_error alphabet (N.to_nat b)) as [c|] eqn:E.
  - apply IH in H. destruct H as (s & -> & L & F). exists (c :: s). cbn [rev length]. rewrite <- app_assoc.
    split; [auto|]. split; [auto|]. constructor; [exact (nth_error_In _ _ E)|auto].
  - apply IH in H. auto.
Qed.

Lemma token_shape : forall src t, create_token src = TokOk t -> is_token t.
Proof.
  intros src t H. apply token_loop_ok in H. destruct H as (s & -> & L & F). split; auto.
Qed.

Lemma alphabet_spec : NoDup alphabet /\ length alphabet = 62 /\
  forall c, In c alphabet <-> (let n := nat_of_ascii c in 48 <= n <= 57 \/ 65 <= n <= 90 \/ 97 <= n <= 122).
Proof.
  split; [|split].
  - unfold alphabet. repeat (constructor; [intros H; simpl in H; repeat (destruct H as [H|H]; [discriminate|]); contradiction|]).
    constructor.
  - reflexivity.
  - intros c.
    assert (G : forall c, (if in_dec ascii_dec c alphabet then true else false) =
       (let n := nat_of_ascii c in (Nat.leb 48 n && Nat.leb n 57 || Nat.leb 65 n && Nat.leb n 90 || Nat.leb 97 n && Nat.leb n 122)%bool))
      by (intros [[] [] [] [] [] [] [] []]; vm_compute; reflexivity).
    specialize (G c). cbv zeta in *. destruct (in_dec ascii_dec c alphabet) as [I|I].
    + split; [intros _|auto]. symmetry in G. rewrite !orb_true_iff, !andb_true_iff, !Nat.leb_le in G. lia.
    + split; [tauto|]. intros H. exfalso. symmetry in G. rewrite !orb_false_iff, !andb_false_iff, !Nat.leb_gt in G. lia.
Qed.

(** The bytes used for a token: those below 62, the others are skipped. *)
Fixpoint usable (l : list N) : list ascii :=
  match l with
  | [] => []
  | b :: l' => match nth_error alphabet (N.to_nat b) with Some c => c :: usable l' | None => usable l' end
  end.

Lemma token_loop_bytes : forall l left acc,
  token_loop (map Some l) left acc =
  if Nat.leb left (length (usable l)) then TokOk (rev acc ++ firstn left (usable l)) else TokMore.
Proof.
  induction l as [|b l IH]; intros [|left] acc; cbn [token_loop map usable length firstn Nat.leb];
    try (rewrite app_nil_r; reflexivity); try reflexivity.
  destruct (nth_error alphabet (N.to_nat b)) as [c|]; cbn [length Nat.leb firstn].
  - rewrite IH. cbn [rev]. rewrite <- app_assoc. reflexivity.
  - rewrite IH. reflexivity.
Qed.

Lemma create_token_bytes : forall l,
  create_token (map Some l) =
  if Nat.leb 12 (length (usable l)) then TokOk (firstn 12 (usable l)) else TokMore.
Proof. intros. unfold create_token. rewrite token_loop_bytes. reflexivity. Qed.

(** Counting. *)
Definition starts (t : list ascii) (l : list N) : bool :=
  if list_eq_dec ascii_dec (firstn (length t) (usable l)) t then true else false.

Lemma produces_starts : forall t l, length t = 12 -> produces t l = starts t l.
Proof.
  intros t l L. unfold produces, starts. rewrite create_token_bytes, L.
  destruct (Nat.leb_spec 12 (length (usable l))).
  - reflexivity.
  - destruct (list_eq_dec ascii_dec (firstn 12 (usable l)) t) as [e|]; [|reflexivity].
    exfalso. rewrite <- e, firstn_length in L. lia.
Qed.

Definition cnt (n : nat) (t : list ascii) : nat := length (filter (starts t) (sequences n)).

Lemma filter_flat_map : forall (A B : Type) (f : A -> list B) p l,
  length (filter p (flat_map f l)) = list_sum (map (fun a => length (filter p (f a))) l).
Proof.
  intros. induction l as [|a l IH]; simpl; [auto|]. rewrite filter_app, app_length, IH. auto.
Qed.

Lemma filter_map_cons : forall p b (ls : list (list N)),
  length (filter p (map (cons b) ls)) = length (filter (fun l => p (b :: l)) ls).
Proof. intros. induction ls as [|x ls IH]; simpl; [auto|]. destruct (p (b :: x)); simpl; auto. Qed.

Lemma starts_cons : forall c t b l,
  starts (c :: t) (b :: l) =
  match nth_error alphabet (N.to_nat b) with
  | Some d => if ascii_dec d c then starts t l else false
  | None => starts (c :: t) l
  end.
Proof.
  intros. unfold starts. cbn [usable]. destruct (nth_error alphabet (N.to_nat b)) as [d|]; [|reflexivity].
  cbn [length firstn]. destruct (ascii_dec d c) as [->|n].
  - destruct (list_eq_dec ascii_dec (firstn (length t) (usable l)) t) as [e|e];
    destruct (list_eq_dec ascii_dec (c :: firstn (length t) (usable l)) (c :: t)) as [e2|e2]; congruence.
  - destruct (list_eq_dec ascii_dec (d :: firstn (length t) (usable l)) (c :: t)); congruence.
Qed.

Lemma filter_ext_len : forall (A : Type) (p q : A -> bool) l, (forall x, p x = q x) ->
  length (filter p l) = length (filter q l).
Proof. intros. rewrite (filter_ext p q); auto. Qed.

Lemma filter_none : forall (A : Type) (l : list A), length (filter (fun _ => false) l) = 0.
Proof. induction l; simpl; auto. Qed.

(** Position of a character in the alphabet and what each byte contributes. *)
Lemma sum_bytes : forall c x y, In c alphabet ->
  list_sum (map (fun b => match nth_error alphabet (N.to_nat b) with
                          | Some d => if ascii_dec d c then x else 0
                          | None => y end) all_bytes) = x + 194 * y.
Proof.
  intros c x y I. unfold all_bytes.
  rewrite map_map. change 256 with (62 + 194) at 1. rewrite seq_app, map_app.
  assert (S2 : forall n, list_sum (map (fun b => match nth_error alphabet (N.to_nat (N.of_nat b)) with
      | Some d => if ascii_dec d c then x else 0 | None => y end) (seq (0 + 62) n)) = n * y).
  { assert (Q : forall n k, 62 <= k -> list_sum (map (fun b => match nth_error alphabet (N.to_nat (N.of_nat b)) with
      | Some d => if ascii_dec d c then x else 0 | None => y end) (seq k n)) = n * y).
    { induction n as [|n IH]; intros k K; [reflexivity|].
      cbn [seq map list_sum fold_right]. rewrite Nat2N.id.
      replace (nth_error alphabet k) with (@None ascii) by (symmetry; apply nth_error_None; exact K).
      unfold list_sum in IH. rewrite (IH (S k)) by lia. lia. }
    intros n. apply Q. lia. }
  rewrite list_sum_app. rewrite S2. f_equal.
  destruct alphabet_spec as (ND & LEN & _).
  rewrite (map_ext _ (fun k => match nth_error alphabet k with Some d => if ascii_dec d c then x else 0 | None => y end))
    by (intros a; rewrite Nat2N.id; reflexivity).
  rewrite <- LEN. clear S2 LEN. revert I ND. generalize alphabet as al. intros al.
  assert (M : forall al, map (fun k => match nth_error al k with Some d => if ascii_dec d c then x else 0 | None => y end) (seq 0 (length al))
     = map (fun d => if ascii_dec d c then x else 0) al).
  { clear. intros al. induction al as [|d l IH]; [reflexivity|]. cbn [length seq map]. f_equal.
    rewrite <- seq_shift, map_map. exact IH. }
  rewrite M. clear M. induction al as [|d l IH]; [intros []|].
  intros I ND. inversion ND; subst. cbn [map list_sum fold_right].
  destruct (ascii_dec d c) as [->|n].
  - assert (Z : forall l, ~ In c l -> fold_right Nat.add 0 (map (fun d => if ascii_dec d c then x else 0) l) = 0).
    { induction l0 as [|e l0 IHl]; intros NI; [reflexivity|]. cbn [map fold_right].
      destruct (ascii_dec e c) as [->|]; [exfalso; apply NI; left; auto|]. apply IHl. intros J; apply NI; right; auto. }
    rewrite Z by auto. lia.
  - destruct I as [->|I]; [congruence|]. apply IH; auto.
Qed.

Lemma cnt_rec : forall n c t, In c alphabet -> cnt (S n) (c :: t) = cnt n t + 194 * cnt n (c :: t).
Proof.
  intros n c t I. unfold cnt. cbn [sequences]. rewrite filter_flat_map.
  rewrite (map_ext _ (fun b => match nth_error alphabet (N.to_nat b) with
     | Some d => if ascii_dec d c then length (filter (starts t) (sequences n)) else 0
     | None => length (filter (starts (c :: t)) (sequences n)) end)).
  - apply sum_bytes; auto.
  - intros b. rewrite filter_map_cons.
    rewrite (filter_ext_len _ _ _ _ (fun l => starts_cons c t b l)).
    destruct (nth_error alphabet (N.to_nat b)) as [d|]; [|reflexivity].
    destruct (ascii_dec d c); [reflexivity|apply filter_none].
Qed.

Lemma cnt_uniform : forall n t u, length t = length u ->
  Forall (fun c => In c alphabet) t -> Forall (fun c => In c alphabet) u -> cnt n t = cnt n u.
Proof.
  induction n as [|n IH]; intros t u L T U.
  - destruct t, u; try discriminate; [reflexivity|]. unfold cnt, starts. simpl.
    destruct (list_eq_dec ascii_dec [] (a :: t)); [discriminate|].
    destruct (list_eq_dec ascii_dec [] (a0 :: u)); [discriminate|]. reflexivity.
  - destruct t as [|c t], u as [|d u]; try discriminate; [reflexivity|].
    inversion T; subst. inversion U; subst. rewrite !cnt_rec by auto.
    rewrite (IH t u) by (simpl in L; auto). rewrite (IH (c :: t) (d :: u)) by auto. reflexivity.
Qed.

Lemma token_uniform : forall n t u, is_token t -> is_token u -> ways n t = ways n u.
Proof.
  intros n t u [Lt Ft] [Lu Fu]. unfold ways.
  rewrite (filter_ext_len _ _ _ _ (fun l => produces_starts t l Lt)).
  rewrite (filter_ext_len _ _ _ _ (fun l => produces_starts u l Lu)).
  apply (cnt_uniform n t u); auto. congruence.
Qed.

(** Every token can come out: its own positions as bytes. *)
Lemma token_reachable : forall t, is_token t -> exists l, bytes l /\ create_token (map Some l) = TokOk t.
Proof.
  intros t [L F].
  assert (G : forall t, Forall (fun c => In c alphabet) t -> exists l, bytes l /\ usable l = t).
  { induction t0 as [|c t0 IH]; intros F0; [exists []; split; [constructor|reflexivity]|].
    inversion F0; subst. destruct (IH H2) as (l & B & E).
    destruct (In_nth_error _ _ H1) as [i Hi].
    assert (i < 62) by (change 62 with (length alphabet); apply nth_error_Some; congruence).
    exists (N.of_nat i :: l). split; [constructor; [unfold is_byte; lia|auto]|].
    cbn [usable]. rewrite Nat2N.id, Hi, E. reflexivity. }
  destruct (G t F) as (l & B & E). exists l. split; [auto|].
  rewrite create_token_bytes, E, L. simpl Nat.leb. rewrite <- L, firstn_all. reflexivity.
Qed.

(** An error of the random source before the token is complete is reported. *)
Lemma token_error : forall l rest, length (usable l) < 12 ->
  create_token (map Some l ++ None :: rest) = TokError.
Proof.
  intros l rest. unfold create_token.
  assert (G : forall l left acc, length (usable l) < left -> token_loop (map Some l ++ None :: rest) left acc = TokError).
  { induction l0 as [|b l0 IH]; intros [|left] acc H; try (simpl in H; lia); [reflexivity|].
    cbn [map app token_loop usable] in *. destruct (nth_error alphabet (N.to_nat b)); apply IH; simpl in H; lia. }
  intros H. apply G. auto.
Qed.

(** ** CoAP codes *)
Lemma coap_code_round : forall k d, (k < 8)%N -> (d < 32)%N -> get_code_human (set_code_human (100 * k + d)) = (100 * k + d)%N.
Proof.
  intros k d K D. unfold set_code_human, get_code_human, coap_code.
  replace ((100 * k + d) / 100)%N with k
    by (rewrite (N.mul_comm 100), N.div_add_l, N.div_small by lia; lia).
  replace ((100 * k + d) mod 100)%N with d
    by (rewrite (N.mul_comm 100), N.add_comm, N.mod_add, N.mod_small by lia; reflexivity).
  assert (E : N.lor (N.shiftl k 5) d = (k * 32 + d)%N).
  { rewrite N.shiftl_mul_pow2. change (2 ^ 5)%N with 32%N.
    rewrite <- N.lxor_lor.
    - rewrite <- N.add_nocarry_lxor; [reflexivity|].
      change 32%N with (2 ^ 5)%N. rewrite <- N.shiftl_mul_pow2. apply N.bits_inj_0. intros i.
      rewrite N.land_spec. destruct (N.lt_ge_cases i 5).
      + rewrite N.shiftl_spec_low by auto. reflexivity.
      + rewrite <- (N.mod_small d (2 ^ 5)) by exact D. rewrite N.mod_pow2_bits_high by auto. apply andb_false_r.
    - change 32%N with (2 ^ 5)%N. rewrite <- N.shiftl_mul_pow2. apply N.bits_inj_0. intros i.
      rewrite N.land_spec. destruct (N.lt_ge_cases i 5).
      + rewrite N.shiftl_spec_low by auto. reflexivity.
      + rewrite <- (N.mod_small d (2 ^ 5)) by exact D. rewrite N.mod_pow2_bits_high by auto. apply andb_false_r. }
  rewrite E. cbv zeta. rewrite (N.mod_small (k * 32 + d)) by lia.
  change 31%N with (N.ones 5). rewrite N.land_ones, N.shiftr_div_pow2. change (2 ^ 5)%N with 32%N.
  rewrite N.div_add_l, N.div_small, N.add_0_r by lia.
  replace ((k * 32 + d) mod 32)%N with d; [lia|].
  rewrite N.add_comm, N.mod_add, N.mod_small by lia. reflexivity.
Qed.

(** Exactly which packets are read one byte too far. *)
Lemma stream_header_undef_iff : forall pkt, bytes pkt ->
  (stream_header pkt = HdrUndef <->
   4 <= length pkt /\ exists id, var_uint_read (tl pkt) (length (tl pkt)) = RdOk id (length (tl pkt))).
Proof.
  intros pkt B. unfold stream_header.
  destruct (Nat.ltb_spec (length pkt) 4) as [L|L]; [split; [discriminate|intros [? _]; lia]|].
  destruct pkt as [|a mem]; [simpl in L; lia|]. cbn [tl length] in *.
  replace (S (length mem) - 1) with (length mem) by lia.
  assert (NE : mem <> []) by (destruct mem; [simpl in L; lia|discriminate]).
  assert (Bm : bytes mem) by (inversion B; auto).
  pose proof (read_safe mem (length mem) NE (le_n _)) as S.
  destruct (var_uint_read mem (length mem)) as [| |v len] eqn:R; [congruence|split; [discriminate|intros (_ & id & H); discriminate]|].
  apply read_ok in R; [|auto]. destruct R as (R1 & _ & R2).
  unfold nth_byte. cbn [Nat.add nth_error].
  destruct (nth_error mem len) as [x|] eqn:E.
  - split; [discriminate|]. intros (_ & id & H). injection H as _ H. subst len.
    assert (nth_error mem (length mem) = None) by (apply nth_error_None; auto). congruence.
  - apply nth_error_None in E. split; [|auto]. intros _. split; [lia|]. exists v. f_equal. lia.
Qed.
