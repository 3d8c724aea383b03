(** * What a JSON reader makes of the beginning of a text *)
From Coq Require Import String Ascii List Bool Arith NArith ZArith Lia.
From Verif Require Import JsonModel JsonProofs IamPolicyModel IamStateModel IamJsonModel PerModel PerSpec.
Import ListNotations.
Open Scope string_scope.
Open Scope list_scope.
Open Scope nat_scope.

Notation "a +++ b" := (String.append a b) (at level 60, right associativity).

Lemma app_assoc_s : forall a b c, (a +++ b) +++ c = a +++ (b +++ c).
Proof. induction a; intros; cbn; congruence. Qed.
Lemma app_nil_s : forall a, a +++ "" = a.
Proof. induction a; cbn; congruence. Qed.
Lemma len_app_s : forall a b, String.length (a +++ b) = String.length a + String.length b.
Proof. induction a; intros; cbn; auto. Qed.

Lemma skip_ws_app : forall s c r u, skip_ws s = String c r -> skip_ws (s +++ u) = String c (r +++ u).
Proof.
  induction s as [|a s IH]; intros c r u H; cbn in *; [discriminate|].
  destruct (N.leb (N_of_ascii a) 32); [now apply IH|]. now injection H as -> ->.
Qed.

Lemma scan_app : forall n s b r u, String.length s <= n -> scan s = Some (b, r) -> scan (s +++ u) = Some (b, r +++ u).
Proof.
  induction n as [|n IH]; intros [|c s] b r u Hn H; cbn in *; try discriminate; try lia.
  destruct (Ascii.eqb c dq); [now injection H as <- <-|].
  destruct (Ascii.eqb c bs).
  - destruct s as [|d s]; [discriminate|]. cbn in *.
    destruct (scan s) as [[b' r']|] eqn:Hs; [|discriminate]. injection H as <- <-.
    now rewrite (IH s b' r' u) by (auto; lia).
  - destruct (scan s) as [[b' r']|] eqn:Hs; [|discriminate]. injection H as <- <-.
    now rewrite (IH s b' r' u) by (auto; lia).
Qed.

Lemma parse_string_app : forall s x r u, parse_string s = Some (x, r) -> parse_string (s +++ u) = Some (x, r +++ u).
Proof.
  intros s x r u H. unfold parse_string in *.
  destruct (scan s) as [[b r']|] eqn:Hs; [|discriminate].
  rewrite (scan_app (String.length s) s b r' u) by auto.
  destruct (decode b); [|discriminate]. now injection H as <- <-.
Qed.

(** a rest which ends a number *)
Definition ends (r : string) : Prop := match r with EmptyString => False | String c _ => numchar c = false end.

Lemma num_prefix_len : forall k s, String.length (num_prefix k s) <= String.length s.
Proof. induction k; intros [|c s]; cbn; try lia. destruct (numchar c); cbn; [|lia]. specialize (IHk s). lia. Qed.

Lemma num_prefix_drop : forall k s u m, m <= String.length (num_prefix k s) -> ends (drop m s) ->
  num_prefix k (s +++ u) = num_prefix k s.
Proof.
  induction k as [|k IH]; intros s u m Hm He; [now destruct s|].
  destruct s as [|c s]; [now destruct m|]. cbn in *.
  destruct (numchar c) eqn:Hc.
  - destruct m as [|m]; cbn in *; [congruence|]. f_equal. apply IH with m; [lia|auto].
  - reflexivity.
Qed.

Lemma drop_app2 : forall m s u, m <= String.length s -> drop m (s +++ u) = drop m s +++ u.
Proof. induction m; intros [|c s] u H; cbn in *; auto; try lia. apply IHm. lia. Qed.

Lemma parse_number_app : forall L s z r u, strtod_sane L -> parse_number L s = Some (z, r) -> ends r ->
  parse_number L (s +++ u) = Some (z, r +++ u).
Proof.
  intros L s z r u HL H He. unfold parse_number in *.
  destruct (L (num_prefix 63 s)) as [[z' k]|] eqn:Hl; [|discriminate]. injection H as <- <-.
  pose proof (HL _ _ _ Hl) as Hk. rewrite (num_prefix_drop 63 s u k) by auto. rewrite Hl.
  f_equal. f_equal. apply drop_app2. pose proof (num_prefix_len 63 s). lia.
Qed.

Lemma prefix_app : forall p s u, prefix p s = true -> prefix p (s +++ u) = true.
Proof.
  induction p as [|a p IH]; intros [|b s] u H; cbn in *; try discriminate; auto; try now destruct u.
  destruct (ascii_dec a b); [auto|discriminate].
Qed.
Lemma prefix_len : forall p s, prefix p s = true -> String.length p <= String.length s.
Proof.
  induction p as [|a p IH]; intros [|b s] H; cbn in *; try discriminate; try lia.
  destruct (ascii_dec a b); [|discriminate]. specialize (IH _ H). lia.
Qed.
Lemma prefix_head : forall a p b s, prefix (String a p) (String b s) = true -> a = b.
Proof. intros a p b s H. cbn in H. destruct (ascii_dec a b); [auto|discriminate]. Qed.

(** ** More fuel *)
Lemma fuel_S : forall L f,
  (forall d s x, parse_value L f d s = Some x -> parse_value L (S f) d s = Some x) /\
  (forall d s x, parse_elems L f d s = Some x -> parse_elems L (S f) d s = Some x) /\
  (forall d s x, parse_members L f d s = Some x -> parse_members L (S f) d s = Some x).
Proof.
  intros L. induction f as [|f (IHv & IHe & IHm)]; [repeat split; intros; discriminate|].
  repeat split; intros d s x H.
  - cbn [parse_value] in H. remember (S f) as g. cbn [parse_value].
    destruct (prefix "null" s); [exact H|]. destruct (prefix "false" s); [exact H|].
    destruct (prefix "true" s); [exact H|]. destruct s as [|c r]; [exact H|].
    destruct (Ascii.eqb c dq); [exact H|].
    destruct (Ascii.eqb c "-" || (N.leb 48 (N_of_ascii c) && N.leb (N_of_ascii c) 57))%bool; [exact H|].
    destruct (Ascii.eqb c "[").
    + destruct (nesting_limit <=? d); [exact H|]. destruct (skip_ws r) as [|e r']; [exact H|].
      destruct (Ascii.eqb e "]"); [exact H|].
      destruct (parse_elems L f (S d) (String e r')) as [[l r'']|] eqn:He; [|discriminate].
      rewrite (IHe _ _ _ He). exact H.
    + destruct (Ascii.eqb c "{"); [|exact H].
      destruct (nesting_limit <=? d); [exact H|]. destruct (skip_ws r) as [|e r']; [exact H|].
      destruct (Ascii.eqb e "}"); [exact H|].
      destruct (parse_members L f (S d) (String e r')) as [[l r'']|] eqn:He; [|discriminate].
      rewrite (IHm _ _ _ He). exact H.
  - cbn [parse_elems] in H. remember (S f) as g. cbn [parse_elems].
    destruct (parse_value L f d (skip_ws s)) as [[v r]|] eqn:Hv; [|discriminate].
    rewrite (IHv _ _ _ Hv). destruct (skip_ws r) as [|c r']; [exact H|].
    destruct (Ascii.eqb c ","); [|exact H].
    destruct (parse_elems L f d r') as [[l r'']|] eqn:He; [|discriminate].
    rewrite (IHe _ _ _ He). exact H.
  - cbn [parse_members] in H. remember (S f) as g. cbn [parse_members].
    destruct (skip_ws s) as [|q s1]; [exact H|]. destruct (negb (Ascii.eqb q dq)); [exact H|].
    destruct (parse_string s1) as [[k s2]|]; [|exact H].
    destruct (skip_ws s2) as [|c s3]; [exact H|]. destruct (negb (Ascii.eqb c ":")); [exact H|].
    destruct (parse_value L f d (skip_ws s3)) as [[v r]|] eqn:Hv; [|discriminate].
    rewrite (IHv _ _ _ Hv). destruct (skip_ws r) as [|c' r']; [exact H|].
    destruct (Ascii.eqb c' ","); [|exact H].
    destruct (parse_members L f d r') as [[l r'']|] eqn:He; [|discriminate].
    rewrite (IHm _ _ _ He). exact H.
Qed.

Lemma fuel_mono : forall L f g d s x, f <= g -> parse_value L f d s = Some x -> parse_value L g d s = Some x.
Proof.
  intros L f g d s x Hle. induction Hle; intros H; [exact H|]. now apply (proj1 (fuel_S L m)), IHHle.
Qed.

(** ** More text *)
Definition closed (v : json) (r : string) : Prop :=
  match v with JNum _ => ends r | _ => True end.

Lemma ws_not_num : forall c, N.leb (N_of_ascii c) 32 = true -> numchar c = false.
Proof. intros [[|][|][|][|][|][|][|][|]]; cbn; intros; try discriminate; reflexivity. Qed.

Lemma ends_skip : forall r c r', skip_ws r = String c r' -> numchar c = false -> ends r.
Proof.
  intros [|a r] c r' H Hc; cbn in *; [discriminate|].
  destruct (N.leb (N_of_ascii a) 32) eqn:Ha; [now apply ws_not_num|]. now injection H as -> ->.
Qed.
Lemma closed_ends : forall v r, ends r -> closed v r.
Proof. intros [ | | | | | ] r H; cbn; auto. Qed.

Lemma num_head : forall c, (Ascii.eqb c "-" || (N.leb 48 (N_of_ascii c) && N.leb (N_of_ascii c) 57))%bool = true ->
  c <> "n"%char /\ c <> "f"%char /\ c <> "t"%char.
Proof. intros [[|][|][|][|][|][|][|][|]]; cbn; intros; try discriminate; repeat split; discriminate. Qed.

Lemma no_prefix : forall a p c s, c <> a -> prefix (String a p) (String c s) = false.
Proof. intros a p c s H. cbn. destruct (ascii_dec a c); [congruence|reflexivity]. Qed.

Lemma literal_app : forall s u, 
  match s with String c _ => c <> "n"%char /\ c <> "f"%char /\ c <> "t"%char | _ => False end ->
  prefix "null" (s +++ u) = false /\ prefix "false" (s +++ u) = false /\ prefix "true" (s +++ u) = false.
Proof.
  intros [|c s] u H; [easy|]. destruct H as (H1 & H2 & H3).
  repeat split; apply no_prefix; auto.
Qed.

Lemma eqb_head : forall c d, Ascii.eqb c d = true -> c = d.
Proof. intros. now apply Ascii.eqb_eq. Qed.

Lemma more_text : forall L, strtod_sane L -> forall f,
  (forall d s v r u, parse_value L f d s = Some (v, r) -> closed v r -> parse_value L f d (s +++ u) = Some (v, r +++ u)) /\
  (forall d s l r u, parse_elems L f d s = Some (l, r) -> parse_elems L f d (s +++ u) = Some (l, r +++ u)) /\
  (forall d s l r u, parse_members L f d s = Some (l, r) -> parse_members L f d (s +++ u) = Some (l, r +++ u)).
Proof.
  intros L HL. induction f as [|f (IHv & IHe & IHm)]; [repeat split; intros; discriminate|].
  repeat split.
  - intros d s v r u H Hc. cbn [parse_value] in H. cbn [parse_value].
    destruct (prefix "null" s) eqn:P1.
    { injection H as <- <-. rewrite (prefix_app _ _ u P1). apply prefix_len in P1.
      now rewrite drop_app2. }
    destruct (prefix "false" s) eqn:P2.
    { injection H as <- <-. rewrite (prefix_app _ _ u P2).
      assert (P0 : prefix "null" (s +++ u) = false).
      { destruct s as [|c s]; [discriminate|]. apply prefix_head in P2. subst c. now apply no_prefix. }
      rewrite P0. apply prefix_len in P2. now rewrite drop_app2. }
    destruct (prefix "true" s) eqn:P3.
    { injection H as <- <-. rewrite (prefix_app _ _ u P3).
      assert (P0 : prefix "null" (s +++ u) = false /\ prefix "false" (s +++ u) = false).
      { destruct s as [|c s]; [discriminate|]. apply prefix_head in P3. subst c. split; now apply no_prefix. }
      destruct P0 as [-> ->]. apply prefix_len in P3. now rewrite drop_app2. }
    destruct s as [|c s]; [discriminate|].
    assert (Hlit : c <> "n"%char /\ c <> "f"%char /\ c <> "t"%char).
    { destruct (Ascii.eqb c dq) eqn:H1; [apply eqb_head in H1; subst c; repeat split; discriminate|].
      destruct (Ascii.eqb c "-" || (N.leb 48 (N_of_ascii c) && N.leb (N_of_ascii c) 57))%bool eqn:H2;
        [now apply num_head|].
      destruct (Ascii.eqb c "[") eqn:H3; [apply eqb_head in H3; subst c; repeat split; discriminate|].
      destruct (Ascii.eqb c "{") eqn:H4; [apply eqb_head in H4; subst c; repeat split; discriminate|].
      discriminate. }
    destruct (literal_app (String c s) u Hlit) as (-> & -> & ->).
    change (String c s +++ u) with (String c (s +++ u)). cbv iota beta.
    destruct (Ascii.eqb c dq).
    { destruct (parse_string s) as [[x r']|] eqn:Hs; [|discriminate]. injection H as <- <-.
      now rewrite (parse_string_app _ _ _ u Hs). }
    destruct (Ascii.eqb c "-" || (N.leb 48 (N_of_ascii c) && N.leb (N_of_ascii c) 57))%bool.
    { destruct (parse_number L (String c s)) as [[z r']|] eqn:Hs; [|discriminate]. injection H as <- <-.
      change (String c (s +++ u)) with (String c s +++ u).
      now rewrite (parse_number_app L _ _ _ u HL Hs Hc). }
    destruct (Ascii.eqb c "[").
    { destruct (nesting_limit <=? d); [discriminate|].
      destruct (skip_ws s) as [|e r'] eqn:Hs; [discriminate|]. rewrite (skip_ws_app _ _ _ u Hs).
      destruct (Ascii.eqb e "]"); [now injection H as <- <-|].
      destruct (parse_elems L f (S d) (String e r')) as [[l r'']|] eqn:He; [|discriminate].
      injection H as <- <-. change (String e (r' +++ u)) with (String e r' +++ u).
      now rewrite (IHe _ _ _ _ u He). }
    destruct (Ascii.eqb c "{"); [|discriminate].
    destruct (nesting_limit <=? d); [discriminate|].
    destruct (skip_ws s) as [|e r'] eqn:Hs; [discriminate|]. rewrite (skip_ws_app _ _ _ u Hs).
    destruct (Ascii.eqb e "}"); [now injection H as <- <-|].
    destruct (parse_members L f (S d) (String e r')) as [[l r'']|] eqn:He; [|discriminate].
    injection H as <- <-. change (String e (r' +++ u)) with (String e r' +++ u).
    now rewrite (IHm _ _ _ _ u He).
  - intros d s l r u H. cbn [parse_elems] in *.
    destruct (parse_value L f d (skip_ws s)) as [[v r1]|] eqn:Hv; [|discriminate].
    destruct (skip_ws r1) as [|c r2] eqn:Hr; [discriminate|].
    assert (Hs : skip_ws (s +++ u) = skip_ws s +++ u).
    { destruct (skip_ws s) as [|a t] eqn:Hs; [destruct f; discriminate|]. now apply skip_ws_app. }
    rewrite Hs.
    assert (He : ends r1).
    { apply (ends_skip _ _ _ Hr). destruct (Ascii.eqb c ",") eqn:C1; [apply eqb_head in C1; now subst c|].
      destruct (Ascii.eqb c "]") eqn:C2; [apply eqb_head in C2; now subst c|discriminate]. }
    rewrite (IHv _ _ _ _ u Hv (closed_ends v r1 He)), (skip_ws_app _ _ _ u Hr).
    destruct (Ascii.eqb c ",").
    + destruct (parse_elems L f d r2) as [[l' r']|] eqn:Hl; [|discriminate].
      rewrite (IHe _ _ _ _ u Hl). now injection H as <- <-.
    + destruct (Ascii.eqb c "]"); [now injection H as <- <-|discriminate].
  - intros d s l r u H. cbn [parse_members] in *.
    destruct (skip_ws s) as [|q s1] eqn:Hs; [discriminate|]. rewrite (skip_ws_app _ _ _ u Hs).
    destruct (negb (Ascii.eqb q dq)); [discriminate|].
    destruct (parse_string s1) as [[k s2]|] eqn:Hk; [|discriminate]. rewrite (parse_string_app _ _ _ u Hk).
    destruct (skip_ws s2) as [|c s3] eqn:H2; [discriminate|]. rewrite (skip_ws_app _ _ _ u H2).
    destruct (negb (Ascii.eqb c ":")); [discriminate|].
    destruct (parse_value L f d (skip_ws s3)) as [[v r1]|] eqn:Hv; [|discriminate].
    destruct (skip_ws r1) as [|c' r2] eqn:Hr; [discriminate|].
    assert (H3 : skip_ws (s3 +++ u) = skip_ws s3 +++ u).
    { destruct (skip_ws s3) as [|a t] eqn:H3; [destruct f; discriminate|]. now apply skip_ws_app. }
    rewrite H3.
    assert (He : ends r1).
    { apply (ends_skip _ _ _ Hr). destruct (Ascii.eqb c' ",") eqn:C1; [apply eqb_head in C1; now subst c'|].
      destruct (Ascii.eqb c' "}") eqn:C2; [apply eqb_head in C2; now subst c'|discriminate]. }
    rewrite (IHv _ _ _ _ u Hv (closed_ends v r1 He)), (skip_ws_app _ _ _ u Hr).
    destruct (Ascii.eqb c' ",").
    + destruct (parse_members L f d r2) as [[l' r']|] eqn:Hl; [|discriminate].
      rewrite (IHm _ _ _ _ u Hl). now injection H as <- <-.
    + destruct (Ascii.eqb c' "}"); [now injection H as <- <-|discriminate].
Qed.

(** ** The whole text *)
Lemma skip_len : forall s, String.length (skip_ws s) <= String.length s.
Proof. induction s as [|c s IH]; cbn; [lia|]. destruct (N.leb (N_of_ascii c) 32); cbn; lia. Qed.

Lemma value_head : forall L f d s l r, parse_value L f d s = Some (JObj l, r) -> exists t, s = String "{" t.
Proof.
  intros L [|f] d s l r H; [discriminate|]. cbn [parse_value] in H.
  destruct (prefix "null" s); [discriminate|]. destruct (prefix "false" s); [discriminate|].
  destruct (prefix "true" s); [discriminate|]. destruct s as [|c s]; [discriminate|].
  destruct (Ascii.eqb c dq); [destruct (parse_string s) as [[? ?]|]; discriminate|].
  destruct (Ascii.eqb c "-" || (N.leb 48 (N_of_ascii c) && N.leb (N_of_ascii c) 57))%bool;
    [destruct (parse_number L (String c s)) as [[? ?]|]; discriminate|].
  destruct (Ascii.eqb c "[").
  { destruct (nesting_limit <=? d); [discriminate|]. destruct (skip_ws s); [discriminate|].
    destruct (Ascii.eqb a "]"); [discriminate|]. destruct (parse_elems L f (S d) (String a s0)) as [[? ?]|]; discriminate. }
  destruct (Ascii.eqb c "{") eqn:Hc; [|discriminate]. apply eqb_head in Hc. subst c. eauto.
Qed.

Lemma skip_bom_app : forall t u c r, skip_ws (skip_bom t) = String c r -> N.eqb (N_of_ascii c) 239 = false ->
  skip_ws (skip_bom (t +++ u)) = String c (r +++ u).
Proof.
  intros t u c r H Hc.
  assert (Hb : skip_bom (t +++ u) = skip_bom t +++ u).
  { destruct t as [|a t]; [discriminate|].
    destruct (N.eqb (N_of_ascii a) 239) eqn:Ha.
    - destruct t as [|b [|e [|g t]]]; cbn in H; try (now (apply N.eqb_eq in Ha; rewrite Ha in H; cbn in H;
        injection H as <- _; rewrite Ha in Hc; discriminate)).
      cbn. rewrite Ha. cbn. destruct (N.eqb (N_of_ascii b) 187 && N.eqb (N_of_ascii e) 191)%bool; reflexivity.
    - assert (Hn : forall x, skip_bom (String a x) = String a x).
      { intros [|b [|e [|g x]]]; cbn; rewrite ?Ha; reflexivity. }
      change (String a t +++ u) with (String a (t +++ u)). now rewrite !Hn. }
  rewrite Hb. now apply skip_ws_app.
Qed.

(** A text which is read as an object is read as the same object whatever
    follows. *)
Lemma parse_more : forall L t u l, strtod_sane L -> parse L t = Some (JObj l) -> parse L (t +++ u) = Some (JObj l).
Proof.
  intros L t u l HL H. unfold parse in *.
  destruct (parse_value L (S (String.length t)) 0 (skip_ws (skip_bom t))) as [[v r]|] eqn:Hv; [|discriminate].
  injection H as ->. destruct (value_head _ _ _ _ _ _ Hv) as [w Hw].
  rewrite (skip_bom_app t u "{" w Hw eq_refl). change (String "{" (w +++ u)) with (String "{" w +++ u).
  rewrite <- Hw.
  rewrite (fuel_mono L (S (String.length t)) (S (String.length (t +++ u))) 0 _ (JObj l, r +++ u)); auto.
  - rewrite len_app_s. lia.
  - now apply (proj1 (more_text L HL _)).
Qed.

Lemma load_more : forall L id s t u s', strtod_sane L -> state_load L id s t = (s', true) ->
  state_load L id s (t +++ u) = (s', true).
Proof.
  intros L id s t u s' HL H. unfold state_load in *. destruct (parse L t) as [j|] eqn:Hp; [|discriminate].
  destruct j; try discriminate. now rewrite (parse_more L t u l HL Hp).
Qed.

(** ** The beginning of a text *)
Lemma begins_refl : forall t, begins t t.
Proof. intros t. exists "". now rewrite app_nil_s. Qed.
Lemma begins_trans : forall a b c, begins a b -> begins b c -> begins a c.
Proof. intros a b c [u ->] [v ->]. exists (u +++ v). apply app_assoc_s. Qed.
Lemma take_begins : forall n t, begins (take n t) t.
Proof.
  induction n as [|n IH]; intros t; [now exists t|]. destruct t as [|c t]; [now exists ""|].
  destruct (IH t) as [u Hu]. exists u. cbn. congruence.
Qed.
Lemma cstr_begins : forall t, begins (cstr t) t.
Proof.
  induction t as [|c t [u Hu]]; [now exists ""|]. cbn. destruct (N.eqb (N_of_ascii c) 0).
  - now exists (String c t).
  - exists u. cbn. congruence.
Qed.
Lemma take_all : forall n t, String.length t <= n -> take n t = t.
Proof. induction n; intros [|c t] H; cbn in *; auto; try lia. f_equal. apply IHn. lia. Qed.

Lemma load_begins : forall L id s t' t s', strtod_sane L -> begins t' t -> state_load L id s t' = (s', true) ->
  state_load L id s t = (s', true).
Proof. intros L id s t' t s' HL [u ->]. now apply load_more. Qed.

Lemma brace_obj : forall L f d s v r, parse_value L f d (String "{" s) = Some (v, r) -> exists l, v = JObj l.
Proof.
  intros L [|f] d s v r H; [discriminate|]. cbn [parse_value] in H.
  change (prefix "null" (String "{" s)) with false in H. change (prefix "false" (String "{" s)) with false in H.
  change (prefix "true" (String "{" s)) with false in H. cbv iota in H.
  change (Ascii.eqb "{" dq) with false in H. change (Ascii.eqb "{" "[") with false in H.
  change (Ascii.eqb "{" "{") with true in H.
  change (Ascii.eqb "{" "-" || (N.leb 48 (N_of_ascii "{") && N.leb (N_of_ascii "{") 57))%bool with false in H.
  cbv iota in H. destruct (nesting_limit <=? d); [discriminate|].
  destruct (skip_ws s) as [|a t]; [discriminate|]. destruct (Ascii.eqb a "}"); [injection H as <- _; eauto|].
  destruct (parse_members L f (S d) (String a t)) as [[l ?]|]; [injection H as <- _; eauto|discriminate].
Qed.

(** What is loaded of a printed object is all of it. *)
Lemma parse_print_begins : forall L l t', strtod_sane L -> jwf L (JObj l) -> jdepth (JObj l) <= nesting_limit ->
  begins t' (print (JObj l)) -> t' <> print (JObj l) -> parse L t' = None.
Proof.
  intros L l t' HL Hw Hd [u Hu] Hne.
  destruct (parse L t') as [v|] eqn:Hp; [exfalso|reflexivity].
  unfold parse in Hp.
  destruct (parse_value L (S (String.length t')) 0 (skip_ws (skip_bom t'))) as [[v' r]|] eqn:Hv; [|discriminate].
  injection Hp as ->.
  destruct t' as [|c t']; [discriminate|].
  assert (Hc : c = "{"%char).
  { pose proof Hu as Hu'. cbn [print] in Hu'. change (String c t' +++ u) with (String c (t' +++ u)) in Hu'.
    congruence. }
  subst c.
  assert (Hb : forall x, skip_ws (skip_bom (String "{" x)) = String "{" x) by (intros [|? [|? [|? ?]]]; reflexivity).
  rewrite Hb in Hv.
  assert (Ho : closed v r).
  { destruct (brace_obj _ _ _ _ _ _ Hv) as [m ->]. exact I. }
  pose proof (proj1 (more_text L HL _) _ _ _ _ u Hv Ho) as H1. rewrite <- Hu in H1.
  pose proof (good_all L (JObj l) (S (String.length (print (JObj l)))) 0 "" Hw) as H2.
  rewrite str_app_nil_r in H2.
  assert (Hlen : S (String.length (String "{" t')) <= S (String.length (print (JObj l)))) by (rewrite Hu, len_app_s; lia).
  rewrite (fuel_mono L _ _ 0 _ _ Hlen H1) in H2.
  assert (H3 : Some (v, r +++ u) = Some (JObj l, "")).
  { apply H2; [| exact Hd | exact I]. pose proof (jsize_print L _ Hw). lia. }
  injection H3 as _ H3. destruct r; [|discriminate]. cbn in H3. subst u. apply Hne. rewrite Hu.
  now rewrite app_nil_s.
Qed.
