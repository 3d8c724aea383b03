(** * Proofs about the log line *)
From Coq Require Import String List Bool NArith Arith Lia.
From Verif Require Import PprModel PprSpec.
Import ListNotations.
Local Open Scope N_scope.

Lemma value_app : forall a c, value (a ++ [c]) = 10 * value a + (c - 48).
Proof. intros. unfold value. now rewrite fold_left_app. Qed.

Lemma dec_f_ok : forall f n, n < 10 ^ N.of_nat (S f) -> numeral n (dec_f f n).
Proof.
  induction f as [|f IH]; intros n Hn.
  - change (10 ^ N.of_nat 1) with 10 in Hn. cbn [dec_f]. rewrite N.mod_small by exact Hn. repeat split; [discriminate|constructor; [lia|constructor]|]. unfold value. cbn [fold_left]. lia.
  - cbn [dec_f]. destruct (N.ltb_spec n 10).
    + repeat split; [discriminate|constructor; [lia|constructor]|]. unfold value. cbn [fold_left]. lia.
    + assert (Hd : n / 10 < 10 ^ N.of_nat (S f)).
      { apply N.div_lt_upper_bound; [discriminate|]. rewrite <- N.pow_succ_r', <- Nat2N.inj_succ. exact Hn. }
      destruct (IH _ Hd) as (E1 & E2 & E3). pose proof (N.mod_upper_bound n 10 ltac:(discriminate)) as B. pose proof (N.div_mod n 10 ltac:(discriminate)) as DM.
      set (q := n / 10) in *. set (r := n mod 10) in *. clearbody q r.
      split; [intros X; apply app_eq_nil in X; destruct X; discriminate|]. split.
      * apply Forall_app. split; [exact E2|]. constructor; [lia|constructor].
      * rewrite value_app, E3. lia.
Qed.
Lemma dec_ok : forall n, n < 10 ^ 21 -> numeral n (dec n).
Proof. intros n H. apply dec_f_ok. exact H. Qed.

Lemma dec_f_len : forall k f n, n < 10 ^ N.of_nat (S k) -> (length (dec_f f n) <= S k)%nat.
Proof.
  induction k as [|k IH]; intros f n Hn; (destruct f as [|f]; [cbn; lia|]); cbn [dec_f].
  - change (10 ^ N.of_nat 1) with 10 in Hn. destruct (N.ltb_spec n 10); [cbn; lia|lia].
  - destruct (N.ltb_spec n 10); [cbn; lia|]. rewrite app_length. cbn [length].
    assert (Hd : n / 10 < 10 ^ N.of_nat (S k)).
    { apply N.div_lt_upper_bound; [discriminate|]. rewrite <- N.pow_succ_r', <- Nat2N.inj_succ. exact Hn. }
    specialize (IH f _ Hd). lia.
Qed.
Lemma dec_len : forall k n, n < 10 ^ N.of_nat (S k) -> (length (dec n) <= S k)%nat.
Proof. intros k n. apply dec_f_len. Qed.

Lemma dec_nz : forall n, ~ In 0 (dec n).
Proof.
  intros n. unfold dec. generalize 20%nat as f. intros f. revert n. induction f as [|f IH]; intros n; cbn [dec_f].
  - generalize (n mod 10). intros m [X|[]]. lia.
  - destruct (n <? 10); [intros [X|[]]; lia|]. intros X. apply in_app_or in X. destruct X as [X|[X|[]]]; [now apply (IH (n / 10))|]. revert X. generalize (n mod 10). intros; lia.
Qed.

Lemma sprintf_ok : forall k t, (length t < k)%nat -> sprintf k t = Some t.
Proof. intros k t H. unfold sprintf. replace (Nat.leb (S (length t)) k) with true by (symmetry; apply Nat.leb_le; lia). reflexivity. Qed.
Lemma sprintf_inv : forall k t u, sprintf k t = Some u -> u = t.
Proof. intros k t u. unfold sprintf. destruct (Nat.leb _ _); intros X; now inversion X. Qed.

Lemma block_ok : forall v, v < 16777216 -> exists t, block_to_string v = Some t /\ block v t /\ ~ In 0 t.
Proof.
  intros v Hv. unfold block_to_string.
  assert (A : v / 16 < 10 ^ N.of_nat 7) by (apply N.div_lt_upper_bound; [discriminate|]; change (16 * 10 ^ N.of_nat 7) with 160000000; lia).
  assert (B : v mod 16 / 8 < 10 ^ N.of_nat 1).
  { pose proof (N.mod_upper_bound v 16 ltac:(discriminate)). apply N.div_lt_upper_bound; [discriminate|]. change (8 * 10 ^ N.of_nat 1) with 80. lia. }
  pose proof (N.mod_upper_bound v 8 ltac:(discriminate)) as B8.
  assert (C : (16 * 2 ^ (v mod 8)) = 2 ^ (4 + v mod 8)) by (rewrite N.pow_add_r; reflexivity).
  assert (C2 : 2 ^ (4 + v mod 8) <= 2 ^ 11) by (apply N.pow_le_mono_r; [discriminate|lia]). change (2 ^ 11) with 2048 in C2.
  rewrite C, (N.mod_small (2 ^ (4 + v mod 8)) 65536) by lia.
  assert (D : 2 ^ (4 + v mod 8) < 10 ^ N.of_nat 4) by (change (10 ^ N.of_nat 4) with 10000; lia).
  assert (E : v mod 16 / 8 = v / 8 mod 2).
  { rewrite (N.div_mod v 16) at 2 by discriminate. replace (16 * (v / 16) + v mod 16) with (v mod 16 + (2 * (v / 16)) * 8) by lia.
    rewrite N.div_add by discriminate. rewrite N.mul_comm, N.mod_add by discriminate. symmetry. apply N.mod_small.
    pose proof (N.mod_upper_bound v 16 ltac:(discriminate)). apply N.div_lt_upper_bound; [discriminate|]. lia. }
  pose proof (dec_len 6 _ A) as LA. pose proof (dec_len 0 _ B) as LB. pose proof (dec_len 3 _ D) as LD.
  eexists. split; [apply sprintf_ok; rewrite !app_length; cbn [length bytes map String.list_ascii_of_string]; lia|]. split.
  - exists (dec (v / 16)), (dec (v mod 16 / 8)), (dec (2 ^ (4 + v mod 8))). split; [reflexivity|]. split; [|split].
    + apply dec_ok. eapply N.lt_trans; [exact A|reflexivity].
    + rewrite <- E. apply dec_ok. eapply N.lt_trans; [exact B|reflexivity].
    + apply dec_ok. eapply N.lt_trans; [exact D|reflexivity].
  - intros X. apply in_app_or in X. destruct X as [X|X]; [now apply (dec_nz _ X)|]. apply in_app_or in X. destruct X as [[X|[]]|X]; [discriminate|].
    apply in_app_or in X. destruct X as [X|X]; [now apply (dec_nz _ X)|]. apply in_app_or in X. destruct X as [[X|[]]|X]; [discriminate|now apply (dec_nz _ X)].
Qed.

Lemma hexd_nz : forall m, hexd m <> 0.
Proof. intros m. unfold hexd. destruct (m <? 10); lia. Qed.
Lemma hex_nz : forall n, ~ In 0 (hex2 n).
Proof. intros n [X|[X|[]]]; now apply hexd_nz in X. Qed.

Lemma token_ok : forall t, (length t <= 8)%nat -> token_to_string t = Some (concat (map hex2 t)) /\ ~ In 0 (concat (map hex2 t)).
Proof.
  intros t H. split.
  - apply sprintf_ok. assert (L : length (concat (map hex2 t)) = (2 * length t)%nat).
    { clear H. induction t as [|a t IH]; [reflexivity|]. cbn [map concat]. rewrite app_length, IH. cbn [length hex2]. lia. }
    lia.
  - clear H. induction t as [|a t IH]; [intros []|]. cbn [map concat]. intros X. apply in_app_or in X. destruct X as [X|X]; [now apply (hex_nz a)|auto].
Qed.

Lemma nz_app : forall a b : list N, ~ In 0 a -> ~ In 0 b -> ~ In 0 (a ++ b).
Proof. intros a b A B X. apply in_app_or in X. tauto. Qed.
Ltac lit := let X := fresh in intros X; vm_compute in X; repeat (destruct X as [X|X]; [discriminate|]); exact X.

Lemma code_ok : forall c, exists t, code_to_string c = Some t /\ ~ In 0 t.
Proof.
  intros c. unfold code_to_string. set (r := c mod 256). pose proof (N.mod_upper_bound c 256 ltac:(discriminate)) as B. fold r in B. cbv zeta.
  repeat match goal with |- context [if (?a =? 0) && ?b then Some _ else _] => destruct ((a =? 0) && b); [eexists; split; [reflexivity|lit]|] end.
  destruct ((1 <? r / 32) && (r / 32 <=? 5)).
  - assert (A : r / 32 < 10 ^ N.of_nat 1) by (apply N.div_lt_upper_bound; [discriminate|]; change (32 * 10 ^ N.of_nat 1) with 320; lia).
    pose proof (N.mod_upper_bound r 32 ltac:(discriminate)) as B3.
    assert (D : r mod 32 < 10 ^ N.of_nat 2) by (change (10 ^ N.of_nat 2) with 100; lia).
    pose proof (dec_len 0 _ A) as LA. pose proof (dec_len 1 _ D) as LD.
    eexists. split.
    + apply sprintf_ok. rewrite app_length. unfold dec2. destruct (r mod 32 <? 10); cbn [length]; lia.
    + apply nz_app; [apply dec_nz|]. unfold dec2. destruct (r mod 32 <? 10); [intros [X|X]; [discriminate|now apply (dec_nz _ X)]|apply dec_nz].
  - assert (A : r < 10 ^ N.of_nat 3) by (change (10 ^ N.of_nat 3) with 1000; lia). pose proof (dec_len 2 _ A) as LA.
    eexists. split.
    + apply sprintf_ok. rewrite !app_length. change (length (bytes "UNKNOWN(")) with 8%nat. change (length (bytes ")")) with 1%nat. lia.
    + apply nz_app; [lit|]. apply nz_app; [apply dec_nz|lit].
Qed.

Lemma name_nz : forall k s, name_of k option_names = Some s -> ~ In 0 (bytes s).
Proof.
  intros k s. unfold option_names. cbn [name_of]. repeat (match goal with |- context [if ?a =? k then _ else _] => destruct (a =? k) end; [intros X; injection X as <-; lit|]). discriminate.
Qed.

Lemma option_name_ok : forall k, exists t, option_to_string k = Some t /\ ~ In 0 t.
Proof.
  intros k. unfold option_to_string. destruct (name_of k option_names) as [s|] eqn:E; [exists (bytes s); split; [reflexivity|eapply name_nz; eauto]|].
  pose proof (N.mod_upper_bound k 65536 ltac:(discriminate)) as B.
  assert (A : k mod 65536 < 10 ^ N.of_nat 5) by (change (10 ^ N.of_nat 5) with 100000; lia). pose proof (dec_len 4 _ A) as LA.
  eexists. split.
  - apply sprintf_ok. rewrite !app_length. change (length (bytes "UNKNOWN(")) with 8%nat. change (length (bytes ")")) with 1%nat. lia.
  - apply nz_app; [lit|]. apply nz_app; [apply dec_nz|lit].
Qed.

Lemma until0_ok : forall d, before0 d (until0 d).
Proof.
  induction d as [|c d [I1 I2]]; [split; [intros []|now left]|]. cbn [until0]. destruct (N.eqb_spec c 0) as [->|Hc].
  - split; [intros []|]. right. exists d. reflexivity.
  - split; [intros [X|X]; [congruence|auto]|]. destruct I2 as [I2|[r I2]]; [left; congruence|right; exists r; cbn; congruence].
Qed.

Lemma variable_ok : forall d, octets d -> (forall v, number3 d v -> variable_int d = Some v) /\ forall v, variable_int d = Some v -> number3 d v /\ v < 16777216.
Proof.
  intros d Ho. unfold variable_int.
  assert (E : (length d <= 3)%nat -> fold_left (fun a b => a * 256 + b mod 256) d 0 = match d with [a] => a | [a; b] => 256 * a + b | [a; b; c] => 65536 * a + 256 * b + c | _ => 0 end
     /\ fold_left (fun a b => a * 256 + b mod 256) d 0 < 16777216).
  { intros L. destruct d as [|a [|b [|c [|e d]]]]; cbn [length] in L; try lia; cbn [fold_left];
      repeat match goal with H : octets (_ :: _) |- _ => inversion H as [|? ? ? Ho']; clear H; subst; fold (octets) in * | H : Forall _ (_ :: _) |- _ => inversion H; clear H; subst end;
      rewrite ?N.mod_small by assumption; split; lia. }
  split.
  - intros v (L & ->). replace (Nat.leb (length d) 3) with true by (symmetry; apply Nat.leb_le; lia). f_equal. apply (E L).
  - intros v. destruct (Nat.leb_spec (length d) 3) as [L|L]; [|discriminate]. intros X. injection X as <-. destruct (E L) as [E1 E2]. split; [split; [exact L|exact E1]|exact E2].
Qed.

Lemma option_text_ok : forall k d, octets d -> N.of_nat (length d) < 10 ^ 20 -> exists t, option_text (k, d) = Some t /\ option_says k d t /\ ~ In 0 t.
Proof.
  intros k d Ho Hl.
  assert (Hl' : N.of_nat (length d) < 10 ^ 21) by (eapply N.lt_trans; [exact Hl|reflexivity]).
  destruct (option_name_ok k) as (nm & En & Nn). destruct (variable_ok d Ho) as (V1 & V2). destruct (until0_ok d) as (U1 & U2).
  assert (R : exists t, Some (bytes ", " ++ nm ++ bytes ": OptionDataLength: " ++ dec (N.of_nat (length d))) = Some t /\ ~ In 0 t).
  { eexists. split; [reflexivity|]. apply nz_app; [lit|]. apply nz_app; [exact Nn|]. apply nz_app; [lit|apply dec_nz]. }
  destruct R as (rt & Er & Rn). unfold option_text. rewrite En. cbv zeta.
  assert (Rs : exists nm' u, rt = bytes ", " ++ nm' ++ bytes ": OptionDataLength: " ++ u /\ numeral (N.of_nat (length d)) u).
  { exists nm, (dec (N.of_nat (length d))). split; [congruence|now apply dec_ok]. }
  rewrite Er. clear Er. destruct (N.eqb_spec k 11) as [->|K11].
  { eexists. split; [reflexivity|]. split; [|apply nz_app; [lit|exact U1]]. unfold option_says. split; [intros _; eexists; split; [reflexivity|now split]|].
    repeat (split; [discriminate|]). intros X. exfalso. apply X. cbn. auto. }
  destruct (N.eqb_spec k 3) as [->|K3].
  { eexists. split; [reflexivity|]. split; [|apply nz_app; [lit|exact U1]]. unfold option_says. split; [discriminate|]. split; [intros _; eexists; split; [reflexivity|now split]|].
    repeat (split; [discriminate|]). intros X. exfalso. apply X. cbn. auto. }
  destruct (variable_int d) as [v|] eqn:Ev.
  2:{ assert (NV : forall v, ~ number3 d v) by (intros v X; apply V1 in X; congruence).
      exists rt. split; [destruct (k =? 7), (k =? 27), (k =? 23); reflexivity|]. split; [|exact Rn]. unfold option_says.
      split; [congruence|]. split; [congruence|]. split; [intros _ v X; now apply NV in X|]. split; [intros _ v X; now apply NV in X|]. split; [intros _ v X; now apply NV in X|]. intros _. exact Rs. }
  destruct (V2 v eq_refl) as [Nv Bv]. assert (UV : forall v', number3 d v' -> v' = v) by (intros v' (_ & ->); destruct Nv as (_ & ->); reflexivity).
  destruct (N.eqb_spec k 7) as [->|K7].
  { eexists. split; [reflexivity|]. split; [|apply nz_app; [lit|apply dec_nz]]. unfold option_says. split; [discriminate|]. split; [discriminate|]. split.
    - intros _ v' X. rewrite (UV v' X). eexists. split; [reflexivity|]. apply dec_ok. eapply N.lt_trans; [exact Bv|reflexivity].
    - repeat (split; [discriminate|]). intros X. exfalso. apply X. cbn. auto. }
  destruct (block_ok v Bv) as (bt & Eb & Bb & Bn).
  destruct (N.eqb_spec k 27) as [->|K27].
  { rewrite Eb. eexists. split; [reflexivity|]. split; [|apply nz_app; [lit|exact Bn]]. unfold option_says. do 3 (split; [discriminate|]). split.
    - intros _ v' X. rewrite (UV v' X). eexists. split; [reflexivity|exact Bb].
    - split; [discriminate|]. intros X. exfalso. apply X. cbn. auto. }
  destruct (N.eqb_spec k 23) as [->|K23].
  { rewrite Eb. eexists. split; [reflexivity|]. split; [|apply nz_app; [lit|exact Bn]]. unfold option_says. do 4 (split; [discriminate|]). split.
    - intros _ v' X. rewrite (UV v' X). eexists. split; [reflexivity|exact Bb].
    - intros X. exfalso. apply X. cbn. tauto. }
  exists rt. split; [reflexivity|]. split; [|exact Rn]. unfold option_says. do 5 (split; [congruence|]). intros _. exact Rs.
Qed.

Lemma options_ok : forall l, Forall (fun o => fst o < 65536 /\ octets (snd o) /\ N.of_nat (length (snd o)) < 10 ^ 20) l ->
  exists ts, options_texts l = Some ts /\ Forall2 (fun o t => option_says (fst o) (snd o) t) l ts /\ ~ In 0 (concat ts).
Proof.
  induction l as [|[k d] l IH]; intros H; [exists []; repeat split; [constructor|intros []]|].
  inversion H as [|? ? (H1 & H2 & H3) Hl]; subst. cbn [fst snd] in *. destruct (option_text_ok k d H2 H3) as (t & E & S1 & S2). destruct (IH Hl) as (ts & Es & F & Z).
  exists (t :: ts). cbn [options_texts]. rewrite E, Es. split; [reflexivity|]. split; [constructor; assumption|]. cbn [concat]. now apply nz_app.
Qed.

Lemma type_nz : forall t, ~ In 0 (type_to_string t).
Proof. intros t. unfold type_to_string. repeat (destruct (_ =? _); [lit|]). lit. Qed.

Lemma pieces_ok : forall header p, ~ In 0 header -> (forall m, p = Good m -> parses m) -> exists l, pieces header p = Some l /\ ~ In 0 (concat l).
Proof.
  intros header p Hh Hp. destruct p as [|m]; cbn [pieces].
  - eexists. split; [reflexivity|]. cbn [concat]. apply nz_app; [exact Hh|]. apply nz_app; [lit|intros []].
  - destruct (Hp m eq_refl) as (P1 & P2 & P3 & P4). destruct (code_ok (g_code m)) as (c & -> & C). destruct (token_ok (g_token m) P1) as (-> & T). destruct (options_ok _ P3) as (ts & -> & _ & Z).
    eexists. split; [reflexivity|]. cbn [app concat]. rewrite concat_app. cbn [concat]. rewrite app_nil_r.
    apply nz_app; [exact Hh|]. apply nz_app.
    { repeat (apply nz_app; [first [apply type_nz | apply dec_nz | exact C | exact T | lit]|]). exact T. }
    apply nz_app; [lit|]. apply nz_app; [exact Z|]. apply nz_app; [lit|apply dec_nz].
Qed.

(** ** The buffer *)
Definition holds (t : list N) (s : cursor) : Prop :=
  let (buf, ptr) := s in length buf = 1024%nat /\ (exists rest, buf = firstn 1022 t ++ 0 :: rest) /\
  match ptr with Some p => p = length t | None => (1023 < length t)%nat end.

Lemma safe_write_ok : forall t u s, holds t s -> exists s', safe_write s u = Some s' /\ holds (t ++ u) s'.
Proof.
  intros t u [buf ptr] (L & (rest & B) & P). unfold safe_write. destruct ptr as [p|].
  - subst p. unfold the_end. destruct (Nat.ltb_spec 1023 (length t)) as [Hp|Hp].
    + eexists. split; [reflexivity|]. split; [exact L|]. split; [exists rest; rewrite firstn_app; replace (1022 - length t)%nat with 0%nat by lia; now rewrite firstn_O, app_nil_r|]. rewrite app_length. lia.
    + unfold vsnprintf. destruct (1023 - length t)%nat as [|m] eqn:Em.
      * eexists. split; [reflexivity|]. split; [exact L|]. split; [exists rest; rewrite firstn_app; replace (1022 - length t)%nat with 0%nat by lia; now rewrite firstn_O, app_nil_r|]. now rewrite app_length.
      * unfold put_all. assert (Ht : (length t <= 1022)%nat) by lia. assert (Hm : m = (1022 - length t)%nat) by lia.
        assert (Lf : (length (firstn m u ++ [0]%N) <= S m)%nat) by (rewrite app_length, firstn_length; cbn [length]; lia).
        replace (Nat.leb (length t + length (firstn m u ++ [0])) (length buf)) with true by (symmetry; apply Nat.leb_le; lia).
        eexists. split; [reflexivity|].
        assert (E : firstn (length t) buf = t).
        { rewrite B. rewrite (firstn_all2 t) by lia. rewrite firstn_app, Nat.sub_diag, firstn_O, app_nil_r. apply firstn_all. }
        split; [|split; [|now rewrite app_length]].
        -- rewrite E, !app_length, skipn_length, L. rewrite app_length in Lf. lia.
        -- eexists. rewrite E. rewrite firstn_app. rewrite (firstn_all2 t) by lia. rewrite <- Hm, <- !app_assoc. reflexivity.
  - eexists. split; [reflexivity|]. split; [exact L|]. split; [exists rest; rewrite firstn_app; replace (1022 - length t)%nat with 0%nat by lia; now rewrite firstn_O, app_nil_r|]. rewrite app_length. lia.
Qed.

Lemma write_all_ok : forall l t s, holds t s -> exists s', write_all s l = Some s' /\ holds (t ++ concat l) s'.
Proof.
  induction l as [|u l IH]; intros t s H; cbn [write_all concat]; [exists s; rewrite app_nil_r; auto|].
  destruct (safe_write_ok t u s H) as (s1 & -> & H1). destruct (IH _ _ H1) as (s2 & -> & H2). exists s2. rewrite app_assoc. auto.
Qed.

Lemma cstr_nz : forall t rest, ~ In 0 t -> cstr (t ++ 0 :: rest) = Some t.
Proof.
  induction t as [|c t IH]; intros rest H; [reflexivity|]. cbn [app cstr]. destruct (N.eqb_spec c 0) as [E|E]; [exfalso; apply H; now left|].
  rewrite IH; [reflexivity|]. intros X. apply H. now right.
Qed.

Lemma print_ok : forall header p l, pieces header p = Some l -> ~ In 0 (concat l) ->
  packet_print true header p = Line (firstn 1022 (concat l)) \/ (packet_print true header p = CanNotPrint /\ (1023 < length (concat l))%nat).
Proof.
  intros header p l E Z. unfold packet_print. cbn [negb]. rewrite E.
  destruct (write_all_ok l [] (repeat 0 1024, Some 0%nat)) as ([buf ptr] & -> & (L & (rest & B) & P)).
  { split; [apply repeat_length|]. split; [|reflexivity]. exists (repeat 0 1023). reflexivity. }
  cbn [app] in *. destruct ptr as [q|].
  - left. rewrite B, cstr_nz; [reflexivity|]. intros X. apply Z. rewrite <- (firstn_skipn 1022 (concat l)). apply in_or_app. now left.
  - right. auto.
Qed.
