(** * Proofs about the questions *)
From Coq Require Import List Bool NArith Arith Lia.
From Verif Require Import PrmModel PrmSpec.
Import ListNotations.
Open Scope N_scope.

Lemma put_app : forall d c x t, put (length d) c (d ++ x :: t) = Some (d ++ c :: t).
Proof. induction d as [|a d IH]; intros c x t; [reflexivity|]. cbn [length app put]. now rewrite IH. Qed.

Lemma put_length : forall b i c, (i < length b)%nat -> exists b', put i c b = Some b' /\ length b' = length b.
Proof.
  induction b as [|x b IH]; intros i c H; [cbn in H; lia|]. destruct i as [|i]; cbn [put].
  - exists (c :: b). auto.
  - cbn in H. destruct (IH i c) as (b' & -> & E); [lia|]. exists (x :: b'). cbn. auto.
Qed.

Lemma plain_char : forall c, 32 <= c <= 126 -> (c =? 0) = false /\ (c =? 10) = false /\ (c =? 255) = false /\ is_printable c = true.
Proof.
  intros c H. repeat split; try (apply N.eqb_neq; lia). unfold is_printable. apply andb_true_intro. split; apply N.leb_le; lia.
Qed.

(** Once the buffer is full the characters are only counted. *)
Lemma prompt_full : forall w rest b i n, plain w -> (n <= i)%nat ->
  prompt (w ++ 10 :: rest) b i n = match put n 0 b with Some b' => Some (Nat.leb (i + length w) n, b', rest) | None => None end.
Proof.
  induction w as [|c w IH]; intros rest b i n Hp Hi.
  - cbn [app prompt length]. change (10 =? 0) with false. change (10 =? 10) with true. cbn [orb]. rewrite Nat.add_0_r.
    replace (Nat.ltb i n) with false by (symmetry; apply Nat.ltb_ge; lia). reflexivity.
  - inversion Hp as [|? ? Hc Hw]; subst. destruct (plain_char c Hc) as (E0 & E1 & E2 & E3).
    cbn [app prompt length]. rewrite E0, E1, E2, E3. cbn [orb].
    replace (Nat.ltb i n) with false by (symmetry; apply Nat.ltb_ge; lia). cbn [andb].
    rewrite IH by (auto; lia). rewrite Nat.add_succ_r. reflexivity.
Qed.

Lemma prompt_plain : forall w rest d t n, plain w -> length (d ++ t) = S n -> (length d <= n)%nat ->
  exists t', prompt (w ++ 10 :: rest) (d ++ t) (length d) n = Some (Nat.leb (length d + length w) n, firstn n (d ++ w) ++ 0 :: t', rest) /\
    length (firstn n (d ++ w) ++ 0 :: t') = S n.
Proof.
  induction w as [|c w IH]; intros rest d t n Hp Hl Hd.
  - destruct t as [|x t]; [rewrite app_nil_r in Hl; lia|]. exists t.
    assert (L : length (d ++ 0 :: t) = S n) by (rewrite app_length in *; cbn [length] in *; lia).
    cbn [app prompt length]. change (10 =? 0) with false. change (10 =? 10) with true. cbn [orb]. rewrite Nat.add_0_r, app_nil_r.
    rewrite firstn_all2 by lia.
    replace (if Nat.ltb (length d) n then length d else n) with (length d).
    2:{ destruct (Nat.ltb_spec (length d) n); lia. }
    rewrite put_app. auto.
  - inversion Hp as [|? ? Hc Hw]; subst. destruct (plain_char c Hc) as (E0 & E1 & E2 & E3).
    destruct (Nat.eq_dec (length d) n) as [En|En].
    + destruct t as [|x t]; [rewrite app_nil_r in Hl; lia|]. exists t.
      subst n. rewrite prompt_full by (auto; lia). rewrite put_app.
      rewrite firstn_app, Nat.sub_diag, firstn_O, app_nil_r, firstn_all2 by lia.
      split; [reflexivity|]. rewrite app_length in *. cbn [length] in *. lia.
    + cbn [app prompt]. rewrite E0, E1, E2, E3. cbn [orb].
      replace (Nat.ltb (length d) n) with true by (symmetry; apply Nat.ltb_lt; lia). cbn [andb].
      destruct t as [|x t]; [rewrite app_nil_r in Hl; lia|]. rewrite put_app.
      destruct (IH rest (d ++ [c]) t n Hw) as (t' & IH1 & IH2).
      { rewrite !app_length in *. cbn [length] in *. lia. }
      { rewrite app_length. cbn [length]. lia. }
      assert (Ea : forall u : list N, (d ++ [c]) ++ u = d ++ c :: u) by (intros u; now rewrite <- app_assoc).
      rewrite (Ea t), (Ea w) in IH1. rewrite (Ea w) in IH2. cbn [app] in IH1, IH2. rewrite app_length in IH1. cbn [length] in IH1.
      exists t'. replace (length d + 1)%nat with (S (length d)) in IH1 by lia. change (length (c :: w)) with (S (length w)). rewrite <- Nat.add_succ_comm. split; [exact IH1|exact IH2].
Qed.

Corollary prompt_line : forall w rest b n, plain w -> length b = S n ->
  exists t', prompt (w ++ 10 :: rest) b 0 n = Some (Nat.leb (length w) n, firstn n w ++ 0 :: t', rest) /\ length (firstn n w ++ 0 :: t') = S n.
Proof. intros w rest b n Hp Hb. apply (prompt_plain w rest [] b n Hp); cbn; lia. Qed.

(** Every input: the buffer keeps its size and nothing is written outside. *)
Lemma prompt_inside : forall inp b i n, length b = S n -> exists v b' r, prompt inp b i n = Some (v, b', r) /\ length b' = S n /\ (length r <= length inp)%nat.
Proof.
  assert (P : forall b i n, length b = S n -> exists b', put (if Nat.ltb i n then i else n) 0 b = Some b' /\ length b' = S n).
  { intros b i n H. destruct (put_length b (if Nat.ltb i n then i else n) 0) as (b' & E & L); [destruct (Nat.ltb_spec i n); lia|]. exists b'. rewrite E. split; [reflexivity|lia]. }
  induction inp as [|c inp IH]; intros b i n H; cbn [prompt].
  - destruct (P b i n H) as (b' & -> & L). exists (Nat.leb i n), b', []. auto.
  - destruct (c =? 0); [exists false, b, inp; cbn; auto|]. destruct ((c =? 10) || (c =? 255)).
    + destruct (P b i n H) as (b' & -> & L). exists (Nat.leb i n), b', inp. cbn. auto.
    + destruct (Nat.ltb_spec i n) as [Hi|Hi]; cbn [andb].
      * destruct (is_printable c).
        -- destruct (put_length b i c) as (b' & -> & L); [lia|]. destruct (IH b' (S i) n) as (v & b2 & r & -> & E & Lr); [lia|]. exists v, b2, r. cbn. auto.
        -- destruct (IH b (S i) n H) as (v & b2 & r & -> & E & Lr). exists v, b2, r. cbn. auto.
      * destruct (IH b (S i) n H) as (v & b2 & r & -> & E & Lr). exists v, b2, r. cbn. auto.
Qed.

(** ** Words *)
Lemma lower_end : forall w t, plain w -> to_lowercase (w ++ 0 :: t) = map (fun c => if (65 <=? c) && (c <=? 90) then c + 32 else c) w ++ 0 :: t.
Proof.
  induction w as [|c w IH]; intros t H; [reflexivity|]. inversion H as [|? ? Hc Hw]; subst. destruct (plain_char c Hc) as (E0 & _).
  cbn [app to_lowercase map]. rewrite E0, IH by exact Hw. reflexivity.
Qed.

Lemma low_char : forall c b, 97 <= b <= 122 -> ((if (65 <=? c) && (c <=? 90) then c + 32 else c) = b <-> c = b \/ c + 32 = b).
Proof.
  intros c b Hb. destruct (N.leb_spec 65 c), (N.leb_spec c 90); cbn [andb]; split; intros X; lia.
Qed.

Lemma strncmp_word : forall word w t n, plain w -> Forall (fun b => 97 <= b <= 122) word -> (length word < n)%nat ->
  (strncmp_eq n (to_lowercase (w ++ 0 :: t)) (word ++ [0]) = true <-> letters w word).
Proof.
  intros word w t n Hw. rewrite lower_end by exact Hw. revert w n Hw. induction word as [|b word IH]; intros w n Hw Hword Hn.
  - destruct n as [|n]; [cbn in Hn; lia|]. destruct w as [|c w]; cbn.
    + split; [constructor|reflexivity].
    + inversion Hw as [|? ? Hc Hw']; subst. split; intros X.
      * exfalso. destruct ((65 <=? c) && (c <=? 90)); (destruct (N.eqb_spec (c + 32) 0) || idtac); try lia; destruct (N.eqb_spec c 0); try lia; discriminate.
      * inversion X.
  - destruct n as [|n]; [cbn in Hn; lia|]. inversion Hword as [|? ? Hb Hword']; subst. destruct w as [|c w]; cbn [map app strncmp_eq].
    + replace (0 =? b) with false by (symmetry; apply N.eqb_neq; lia). split; [discriminate|intros X; inversion X].
    + inversion Hw as [|? ? Hc Hw']; subst. set (c' := if (65 <=? c) && (c <=? 90) then c + 32 else c).
      assert (C0 : (c' =? 0) = false) by (apply N.eqb_neq; unfold c'; destruct ((65 <=? c) && (c <=? 90)); lia).
      pose proof (low_char c b Hb) as LC. fold c' in LC. rewrite C0.
      destruct (N.eqb_spec c' b) as [E|E].
      * cbn in Hn. rewrite (IH w n Hw' Hword') by lia. split; intros X; [constructor; [tauto|exact X] | inversion X; assumption].
      * split; [discriminate|]. intros X. inversion X; subst. exfalso. tauto.
Qed.

Definition yesb (b : list N) : bool := strncmp_eq 4 (to_lowercase b) [121; 0] || strncmp_eq 4 (to_lowercase b) [121; 101; 115; 0].
Definition nob (b : list N) : bool := strncmp_eq 4 (to_lowercase b) [110; 0] || strncmp_eq 4 (to_lowercase b) [110; 111; 0].

Lemma yesb_ok : forall w t, plain w -> (yesb (w ++ 0 :: t) = true <-> yes w).
Proof.
  intros w t H. unfold yesb, yes. rewrite orb_true_iff.
  rewrite (strncmp_word [121] w t 4 H), (strncmp_word [121; 101; 115] w t 4 H); try reflexivity; try (cbn; lia); repeat constructor; lia.
Qed.
Lemma nob_ok : forall w t, plain w -> (nob (w ++ 0 :: t) = true <-> no w).
Proof.
  intros w t H. unfold nob, no. rewrite orb_true_iff.
  rewrite (strncmp_word [110] w t 4 H), (strncmp_word [110; 111] w t 4 H); try reflexivity; try (cbn; lia); repeat constructor; lia.
Qed.

Lemma letters_length : forall w word, letters w word -> length w = length word.
Proof. intros w word H. induction H; cbn; auto. Qed.
Lemma yes_length : forall w, yes w -> (length w <= 3)%nat /\ w <> [].
Proof. intros w [H|H]; pose proof (letters_length _ _ H) as E; cbn in E; (split; [lia|intros ->; discriminate]). Qed.
Lemma no_length : forall w, no w -> (length w <= 3)%nat /\ w <> [].
Proof. intros w [H|H]; pose proof (letters_length _ _ H) as E; cbn in E; (split; [lia|intros ->; discriminate]). Qed.
Lemma yes_no_apart : forall w, yes w -> no w -> False.
Proof. intros w [H|H] [K|K]; inversion H; inversion K; subst; try discriminate; injection H4 as -> _ || idtac; match goal with X : _ :: _ = _ :: _ |- _ => injection X as -> ? end; lia. Qed.

(** One line put to a question. *)
Lemma yes_no_line : forall def mem f w rest, (length (mem f) = 4)%nat -> plain w ->
  (exists b, says def w b /\ yes_no def mem (S f) (w ++ 10 :: rest) = Answer b rest) \/
  ((forall b, ~ says def w b) /\ yes_no def mem (S f) (w ++ 10 :: rest) = yes_no def mem f rest).
Proof.
  intros def mem f w rest Hm Hp. destruct (prompt_line w rest (mem f) 3 Hp Hm) as (t & E & L). cbn [yes_no]. rewrite E.
  destruct (Nat.leb_spec (length w) 3) as [Hl|Hl]; cbn [negb].
  - rewrite firstn_all2 by lia.
    fold (yesb (w ++ 0 :: t)). fold (nob (w ++ 0 :: t)). pose proof (yesb_ok w t Hp) as Y. pose proof (nob_ok w t Hp) as Z.
    destruct w as [|c w'].
    + cbn [app hd]. change (0 =? 0) with true.
      destruct def as [d|].
      * left. exists d. split; [right; right; auto|reflexivity].
      * right. split; [intros b [[_ X]|[[_ X]|[_ X]]]; [now apply yes_length in X|now apply no_length in X|discriminate]|].
        destruct (yesb ([] ++ 0 :: t)) eqn:Ey; [now destruct (yes_length [] (proj1 Y eq_refl))|]. destruct (nob ([] ++ 0 :: t)) eqn:Ez; [now destruct (no_length [] (proj1 Z eq_refl))|].
        cbn [app] in Ey, Ez. rewrite Ey, Ez. reflexivity.
    + inversion Hp as [|? ? Hc Hw]; subst. destruct (plain_char c Hc) as (E0 & _). cbn [app hd] in *. rewrite E0.
      assert (G : forall A (x y : A), match def with Some d => y | None => y end = y) by (intros; destruct def; reflexivity).
      destruct (yesb (c :: w' ++ 0 :: t)) eqn:Ey.
      * left. exists true. split; [left; split; [reflexivity|now apply Y]|]. destruct def; reflexivity.
      * destruct (nob (c :: w' ++ 0 :: t)) eqn:Ez.
        -- left. exists false. split; [right; left; split; [reflexivity|now apply Z]|]. destruct def; reflexivity.
        -- right. split; [|destruct def; reflexivity].
           intros b [[_ X]|[[_ X]|[X _]]]; [apply Y in X; discriminate|apply Z in X; discriminate|discriminate].
  - right. split; [|reflexivity]. intros b [[_ X]|[[_ X]|[X _]]]; [apply yes_length in X; lia|apply no_length in X; lia|subst; cbn in Hl; lia].
Qed.

(** ** Numbers *)
Lemma numerical_ok : forall w t, plain w -> (str_is_numerical (w ++ 0 :: t) = true <-> Forall (fun c => 48 <= c <= 57) w).
Proof.
  induction w as [|c w IH]; intros t H; [cbn; split; [constructor|reflexivity]|].
  inversion H as [|? ? Hc Hw]; subst. destruct (plain_char c Hc) as (E0 & _). cbn [app str_is_numerical]. rewrite E0.
  destruct (N.ltb_spec c 48); cbn [orb]; [split; [discriminate|intros X; inversion X; lia]|].
  destruct (N.ltb_spec 57 c); [split; [discriminate|intros X; inversion X; lia]|].
  rewrite (IH t Hw). split; intros X; [constructor; [lia|exact X]|now inversion X].
Qed.

Lemma strtol_ok : forall w t acc, plain w -> strtol acc (w ++ 0 :: t) = acc * 10 ^ N.of_nat (length w) + decimal w.
Proof.
  induction w as [|c w IH]; intros t acc H.
  - cbn [app strtol]. change (0 =? 0) with true. cbn [length decimal N.of_nat]. rewrite N.pow_0_r. lia.
  - inversion H as [|? ? Hc Hw]; subst. destruct (plain_char c Hc) as (E0 & _). cbn [app strtol]. rewrite E0, IH by exact Hw.
    cbn [length decimal]. rewrite Nat2N.inj_succ, N.pow_succ_r'. ring.
Qed.

Lemma uint16_line : forall def max f w rest, plain w ->
  (exists v, counts def max w v /\ uint16 def max (S f) (w ++ 10 :: rest) = Answer v rest) \/
  ((forall v, ~ counts def max w v) /\ uint16 def max (S f) (w ++ 10 :: rest) = uint16 def max f rest).
Proof.
  intros def max f w rest Hp. destruct (prompt_line w rest (repeat 0 16) 15 Hp eq_refl) as (t & E & L). cbn [uint16]. rewrite E.
  destruct (Nat.leb_spec (length w) 15) as [Hl|Hl]; cbn [negb].
  - rewrite firstn_all2 by lia. destruct w as [|c w'].
    + cbn [app hd]. change (0 =? 0) with true. destruct def as [d|].
      * left. exists d. split; [right; auto|reflexivity].
      * right. split; [|reflexivity]. intros v [((X & _) & _)|(_ & X)]; [congruence|discriminate].
    + pose proof (numerical_ok (c :: w') t Hp) as Nu. pose proof (strtol_ok (c :: w') t 0 Hp) as St. rewrite N.mul_0_l, N.add_0_l in St.
      inversion Hp as [|? ? Hc Hw]; subst. destruct (plain_char c Hc) as (E0 & _). cbn [hd]. change ((c :: w') ++ 0 :: t) with (c :: (w' ++ 0 :: t)) in *. cbn [hd]. rewrite E0.
      destruct (str_is_numerical (c :: w' ++ 0 :: t)); cbn [negb].
      * rewrite St. destruct (N.leb_spec (decimal (c :: w')) max) as [Hm|Hm].
        -- left. exists (decimal (c :: w')). split; [|reflexivity]. left. split; [split; [discriminate|now apply Nu]|]. auto.
        -- right. split; [|reflexivity]. intros v [(_ & _ & -> & X)|(X & _)]; [lia|discriminate].
      * right. split; [|reflexivity]. intros v [((_ & X) & _)|(X & _)]; [apply Nu in X; discriminate|discriminate].
  - right. split; [|reflexivity]. intros v [(_ & X & _)|(X & _)]; [lia|subst; cbn in Hl; lia].
Qed.

(** ** Texts *)
Lemma cstr_ok : forall w t, plain w -> cstr (w ++ 0 :: t) = Some w.
Proof.
  induction w as [|c w IH]; intros t H; [reflexivity|]. inversion H as [|? ? Hc Hw]; subst. destruct (plain_char c Hc) as (E0 & _).
  cbn [app cstr]. now rewrite E0, IH.
Qed.

Lemma plain_firstn : forall n w, plain w -> plain (firstn n w).
Proof. unfold plain. intros n w H. rewrite Forall_forall in *. intros x Hx. apply H. rewrite <- (firstn_skipn n w). apply in_or_app. now left. Qed.

Lemma repeating_line : forall f w rest b n, plain w -> length b = S (S n) ->
  exists t, length (firstn (S n) w ++ 0 :: t) = S (S n) /\
  repeating (S f) (w ++ 10 :: rest) b (S n) =
  match w with [] => repeating f rest (0 :: t) (S n) | _ => Answer (Nat.leb (length w) (S n), firstn (S n) w ++ 0 :: t) rest end.
Proof.
  intros f w rest b n Hp Hb. destruct (prompt_line w rest b (S n) Hp Hb) as (t & E & L). exists t. split; [exact L|].
  cbn [repeating]. rewrite E. destruct w as [|c w]; [reflexivity|]. inversion Hp as [|? ? Hc Hw]; subst. destruct (plain_char c Hc) as (E0 & _).
  cbn [firstn app hd]. rewrite E0. reflexivity.
Qed.

Lemma typed_cons : forall w l rest, typed (w :: l) rest = w ++ 10 :: typed l rest.
Proof. intros. unfold typed. cbn. now rewrite <- !app_assoc. Qed.

(** ** Many lines *)
Lemma yes_no_lines : forall def mem pre w rest b f, (forall k, length (mem k) = 4%nat) -> Forall plain (pre ++ [w]) ->
  (forall x c, In x pre -> ~ says def x c) -> says def w b -> (length pre < f)%nat ->
  yes_no def mem f (typed (pre ++ [w]) rest) = Answer b rest.
Proof.
  intros def mem pre w rest b. induction pre as [|x pre IH]; intros f Hm Hp Hn Hs Hf; (destruct f as [|f]; [cbn in Hf; lia|]).
  - cbn [app] in *. inversion Hp; subst. rewrite typed_cons. cbn [typed map concat app].
    destruct (yes_no_line def mem f w rest (Hm f)) as [(c & Hc & E)|(Hc & _)]; auto; [|exfalso; now apply (Hc b)].
    unfold typed. cbn [map concat app]. rewrite E. f_equal.
    destruct Hs as [[-> X]|[[-> X]|[X1 X2]]], Hc as [[-> Y]|[[-> Y]|[Y1 Y2]]]; try reflexivity; try congruence;
      try (now exfalso; apply (yes_no_apart w)); subst; first [now apply yes_length in X | now apply no_length in X | now apply yes_length in Y | now apply no_length in Y].
  - cbn [app] in *. inversion Hp; subst. rewrite typed_cons.
    destruct (yes_no_line def mem f x (typed (pre ++ [w]) rest) (Hm f)) as [(c & Hc & _)|(_ & E)]; auto; [exfalso; now apply (Hn x c (or_introl eq_refl))|].
    rewrite E. cbn in Hf. apply IH; auto; [intros y c Hy; apply Hn; now right|lia].
Qed.

Lemma counts_one : forall def max w v v', counts def max w v -> counts def max w v' -> v = v'.
Proof. intros def max w v v' [(D & _ & -> & _)|(D & E)] [(D' & _ & -> & _)|(D' & E')]; try reflexivity; [destruct D; congruence|destruct D'; congruence|congruence]. Qed.

Lemma uint16_lines : forall def max pre w rest v f, Forall plain (pre ++ [w]) ->
  (forall x c, In x pre -> ~ counts def max x c) -> counts def max w v -> (length pre < f)%nat ->
  uint16 def max f (typed (pre ++ [w]) rest) = Answer v rest.
Proof.
  intros def max pre w rest v. induction pre as [|x pre IH]; intros f Hp Hn Hs Hf; (destruct f as [|f]; [cbn in Hf; lia|]).
  - cbn [app] in *. inversion Hp; subst. rewrite typed_cons.
    destruct (uint16_line def max f w (typed [] rest)) as [(c & Hc & E)|(Hc & _)]; auto; [|exfalso; now apply (Hc v)].
    rewrite E. cbn [typed map concat app]. f_equal. eapply counts_one; eauto.
  - cbn [app] in *. inversion Hp; subst. rewrite typed_cons.
    destruct (uint16_line def max f x (typed (pre ++ [w]) rest)) as [(c & Hc & _)|(_ & E)]; auto; [exfalso; now apply (Hn x c (or_introl eq_refl))|].
    rewrite E. cbn in Hf. apply IH; auto; [intros y c Hy; apply Hn; now right|lia].
Qed.

Lemma repeating_lines : forall k w rest n f b, plain w -> w <> [] -> length b = S (S n) -> (k < f)%nat ->
  exists t, repeating f (typed (repeat [] k ++ [w]) rest) b (S n) = Answer (Nat.leb (length w) (S n), firstn (S n) w ++ 0 :: t) rest.
Proof.
  induction k as [|k IH]; intros w rest n f b Hp Hw Hb Hf; (destruct f as [|f]; [lia|]).
  - cbn [repeat app]. rewrite typed_cons. destruct (repeating_line f w (typed [] rest) b n Hp Hb) as (t & _ & E). exists t. rewrite E.
    destruct w; [congruence|reflexivity].
  - cbn [repeat app]. rewrite typed_cons. destruct (repeating_line f [] (typed (repeat [] k ++ [w]) rest) b n) as (t & L & E); [constructor|exact Hb|].
    rewrite E. cbn in L. apply IH; auto; lia.
Qed.

Lemma text20_lines : forall k w rest f, plain w -> w <> [] -> (k < f)%nat ->
  text20 f (typed (repeat [] k ++ [w]) rest) = Answer (firstn 19 w) rest.
Proof.
  intros k w rest f Hp Hw Hf. unfold text20. destruct (repeating_lines k w rest 18 f (repeat 0 20) Hp Hw eq_refl Hf) as (t & ->).
  cbn [bind snd]. now rewrite cstr_ok by now apply plain_firstn.
Qed.
