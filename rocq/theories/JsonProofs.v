(** * Printing and parsing JSON are inverse *)

From Coq Require Import List String Ascii NArith ZArith Bool Lia Arith.
From Verif Require Import JsonModel.
Import ListNotations.
Local Open Scope string_scope.

(** ** Induction over JSON values *)

Section JsonInd.
  Variable P : json -> Prop.
  Hypothesis HNull : P JNull.
  Hypothesis HBool : forall b, P (JBool b).
  Hypothesis HNum : forall z, P (JNum z).
  Hypothesis HStr : forall s, P (JStr s).
  Hypothesis HArr : forall l, Forall P l -> P (JArr l).
  Hypothesis HObj : forall l, Forall (fun kv => P (snd kv)) l -> P (JObj l).

  Fixpoint json_ind2 (v : json) : P v :=
    match v with
    | JNull => HNull
    | JBool b => HBool b
    | JNum z => HNum z
    | JStr s => HStr s
    | JArr l =>
        HArr l ((fix go (l : list json) : Forall P l :=
          match l with
          | [] => Forall_nil _
          | x :: l' => Forall_cons x (json_ind2 x) (go l')
          end) l)
    | JObj l =>
        HObj l ((fix go (l : list (string * json)) : Forall (fun kv => P (snd kv)) l :=
          match l with
          | [] => Forall_nil _
          | x :: l' => Forall_cons x (json_ind2 (snd x)) (go l')
          end) l)
    end.
End JsonInd.

(** ** Well-formed values *)

(** the bytes of a C string: no NUL *)
Fixpoint no_nul (s : string) : Prop :=
  match s with
  | EmptyString => True
  | String c s' => c <> "000"%char /\ no_nul s'
  end.

(** strtod reads a printed integer back *)
Definition num_ok (L : strtod_t) (z : Z) : Prop :=
  L (print_num z) = Some (z, String.length (print_num z)) /\
  num_prefix 63 (print_num z) = print_num z /\
  String.length (print_num z) < 63 /\
  match print_num z with
  | String c _ =>
      (Ascii.eqb c "-" || (N.leb 48 (N_of_ascii c) && N.leb (N_of_ascii c) 57))%bool = true
  | EmptyString => False
  end.

Fixpoint jwf (L : strtod_t) (v : json) : Prop :=
  match v with
  | JNum z => num_ok L z
  | JStr s => no_nul s
  | JArr l => fold_right (fun x P => jwf L x /\ P) True l
  | JObj l => fold_right (fun kv P => (no_nul (fst kv) /\ jwf L (snd kv)) /\ P) True l
  | _ => True
  end.

Fixpoint jdepth (v : json) : nat :=
  match v with
  | JArr l => S (fold_right (fun x m => Nat.max (jdepth x) m) 0 l)
  | JObj l => S (fold_right (fun kv m => Nat.max (jdepth (snd kv)) m) 0 l)
  | _ => 0
  end.

Fixpoint jsize (v : json) : nat :=
  match v with
  | JArr l => S (fold_right (fun x m => S (jsize x) + m) 0 l)
  | JObj l => S (fold_right (fun kv m => S (jsize (snd kv)) + m) 0 l)
  | _ => 1
  end.

(** ** Strings *)

Lemma str_app_assoc : forall a b c : string, (a ++ b) ++ c = a ++ (b ++ c).
Proof. induction a; simpl; intros; congruence. Qed.

Lemma str_app_nil_r : forall a : string, a ++ "" = a.
Proof. induction a; simpl; congruence. Qed.

Lemma str_len_app : forall a b : string,
  String.length (a ++ b) = String.length a + String.length b.
Proof. induction a; simpl; intros; auto. Qed.

Lemma scan_print_char : forall c rest,
  scan (print_char c ++ rest) =
  match scan rest with
  | Some (b, r) => Some (print_char c ++ b, r)
  | None => None
  end.
Proof.
  intros [b0 b1 b2 b3 b4 b5 b6 b7] rest.
  destruct b0, b1, b2, b3, b4, b5, b6, b7;
    cbn -[scan]; cbn; destruct (scan rest) as [[? ?]|]; reflexivity.
Qed.

Lemma decode_print_char : forall c rest, c <> "000"%char ->
  decode (print_char c ++ rest) = opt_app (String c "") (decode rest).
Proof.
  intros [b0 b1 b2 b3 b4 b5 b6 b7] rest H.
  destruct b0, b1, b2, b3, b4, b5, b6, b7; try reflexivity.
Qed.

Lemma scan_print_body : forall s rest,
  scan (print_body s ++ String dq rest) = Some (print_body s, rest).
Proof.
  induction s as [|c s IH]; intros rest.
  - reflexivity.
  - cbn [print_body]. rewrite str_app_assoc, scan_print_char, IH. reflexivity.
Qed.

Lemma decode_print_body : forall s, no_nul s -> decode (print_body s) = Some s.
Proof.
  induction s as [|c s IH]; intros H.
  - reflexivity.
  - destruct H as [Hc Hs]. cbn [print_body].
    rewrite decode_print_char by assumption. rewrite IH by assumption. reflexivity.
Qed.

Lemma cstr_no_nul : forall s, no_nul s -> cstr s = s.
Proof.
  induction s as [|c s IH]; intros H; [reflexivity|].
  destruct H as [Hc Hs]. cbn [cstr].
  destruct (N.eqb (N_of_ascii c) 0) eqn:E.
  - exfalso. apply N.eqb_eq in E. apply Hc.
    rewrite <- (ascii_N_embedding c), E. reflexivity.
  - rewrite IH by assumption. reflexivity.
Qed.

Lemma parse_print_string : forall s rest, no_nul s ->
  parse_string (print_body s ++ String dq rest) = Some (s, rest).
Proof.
  intros s rest H. unfold parse_string.
  rewrite scan_print_body, decode_print_body, cstr_no_nul by assumption. reflexivity.
Qed.

(** ** Numbers *)

(** what may follow a value in a printed document *)
Definition tail_ok (s : string) : Prop :=
  match s with
  | EmptyString => True
  | String c _ => numchar c = false
  end.

Lemma num_prefix_app : forall k p rest,
  num_prefix k p = p -> String.length p < k -> tail_ok rest ->
  num_prefix k (p ++ rest) = p.
Proof.
  induction k as [|k IH]; intros p rest H Hlen Ht; [lia|].
  destruct p as [|c p]; cbn in *.
  - destruct rest as [|c r]; [reflexivity|]. cbn in Ht. rewrite Ht. reflexivity.
  - destruct (numchar c); [|discriminate].
    injection H as H. rewrite IH; auto; lia.
Qed.

Lemma drop_app : forall p rest, drop (String.length p) (p ++ rest) = rest.
Proof. induction p; intros; cbn; [now destruct rest|auto]. Qed.

Lemma parse_print_num : forall L z rest, num_ok L z -> tail_ok rest ->
  parse_number L (print_num z ++ rest) = Some (z, rest).
Proof.
  intros L z rest (H1 & H2 & H3 & _) Ht. unfold parse_number.
  rewrite num_prefix_app by assumption. rewrite H1, drop_app. reflexivity.
Qed.

(** ** First bytes of printed values *)

Definition starts_value (L : strtod_t) (s : string) : Prop :=
  match s with
  | String c _ => N.leb (N_of_ascii c) 32 = false /\ c <> "]"%char /\ c <> "}"%char
  | EmptyString => False
  end.

Lemma print_starts : forall L v rest, jwf L v -> starts_value L (print v ++ rest).
Proof.
  intros L [ |b|z|s|l|l] rest H; try (cbn; repeat split; discriminate).
  - destruct b; cbn; repeat split; discriminate.
  - cbn [print]. destruct H as (_ & _ & _ & H).
    destruct (print_num z) as [|c r]; [contradiction|]. cbn.
    destruct c as [b0 b1 b2 b3 b4 b5 b6 b7].
    destruct b0, b1, b2, b3, b4, b5, b6, b7; cbn in H |- *; try discriminate H;
      repeat split; discriminate.
Qed.

Lemma skip_ws_starts : forall L s, starts_value L s -> skip_ws s = s.
Proof.
  intros L [|c r] H; [contradiction|]. cbn in *. destruct H as [H _]. now rewrite H.
Qed.

(** ** Sizes *)

Lemma print_num_len : forall L z, num_ok L z -> 1 <= String.length (print_num z).
Proof.
  intros L z (_ & _ & _ & H). destruct (print_num z); [contradiction|cbn; lia].
Qed.

Lemma join_cons : forall x y l, join (x :: y :: l) = x ++ String "," (join (y :: l)).
Proof. reflexivity. Qed.

Lemma jsize_print : forall L v, jwf L v -> jsize v <= String.length (print v).
Proof.
  intros L v. induction v as [ |b|z|s|l IH|l IH] using json_ind2; intros H.
  - cbn; lia.
  - destruct b; cbn; lia.
  - cbn [jsize print]. eapply print_num_len. exact H.
  - cbn. lia.
  - cbn [print jsize String.length]. rewrite str_len_app. cbn [String.length].
    cut (fold_right (fun x m => S (jsize x) + m) 0 l
         <= String.length (join (map print l)) + 1); [lia|].
    cbn [jwf] in H.
    induction l as [|x l IHl]; [cbn; lia|].
    inversion IH as [|? ? Hx Hl]; subst. destruct H as [H1 H2].
    specialize (IHl Hl H2). specialize (Hx H1).
    cbn [fold_right map]. destruct l as [|y l].
    + cbn [map join fold_right]. lia.
    + cbn [map] in IHl |- *. rewrite join_cons, str_len_app.
      cbn [String.length]. cbn [fold_right] in *. lia.
  - cbn [print jsize String.length]. rewrite str_len_app. cbn [String.length].
    set (f := fun kv : string * json =>
                print_string (fst kv) ++ String ":" (print (snd kv))).
    cut (fold_right (fun kv m => S (jsize (snd kv)) + m) 0 l
         <= String.length (join (map f l)) + 1); [lia|].
    cbn [jwf] in H.
    induction l as [|x l IHl]; [cbn; lia|].
    inversion IH as [|? ? Hx Hl]; subst. destruct H as [[H0 H1] H2].
    specialize (IHl Hl H2). specialize (Hx H1).
    assert (Hf : S (jsize (snd x)) <= String.length (f x)).
    { unfold f. rewrite str_len_app. cbn [String.length]. lia. }
    cbn [fold_right map]. destruct l as [|y l].
    + cbn [map join fold_right]. lia.
    + cbn [map] in IHl |- *. rewrite join_cons, str_len_app.
      cbn [String.length]. cbn [fold_right] in *. lia.
Qed.

(** ** The round trip *)

Definition good (L : strtod_t) (v : json) : Prop :=
  forall fuel depth rest, jwf L v -> jsize v <= fuel ->
    depth + jdepth v <= nesting_limit -> tail_ok rest ->
    parse_value L fuel depth (print v ++ rest) = Some (v, rest).

Lemma tail_comma : forall s, tail_ok (String "," s).
Proof. reflexivity. Qed.
Lemma tail_rb : forall s, tail_ok (String "]" s).
Proof. reflexivity. Qed.
Lemma tail_rc : forall s, tail_ok (String "}" s).
Proof. reflexivity. Qed.

Lemma parse_elems_step : forall L f depth s,
  parse_elems L (S f) depth s =
  match parse_value L f depth (skip_ws s) with
  | None => None
  | Some (v, r) =>
      match skip_ws r with
      | String c r' =>
          if Ascii.eqb c "," then
            match parse_elems L f depth r' with
            | Some (l, r'') => Some (v :: l, r'')
            | None => None
            end
          else if Ascii.eqb c "]" then Some ([v], r')
          else None
      | EmptyString => None
      end
  end.
Proof. reflexivity. Qed.

Lemma parse_members_step : forall L f depth s,
  parse_members L (S f) depth s =
  match skip_ws s with
  | String q s1 =>
      if negb (Ascii.eqb q dq) then None
      else
        match parse_string s1 with
        | None => None
        | Some (k, s2) =>
            match skip_ws s2 with
            | String c s3 =>
                if negb (Ascii.eqb c ":") then None
                else
                  match parse_value L f depth (skip_ws s3) with
                  | None => None
                  | Some (v, r) =>
                      match skip_ws r with
                      | String c' r' =>
                          if Ascii.eqb c' "," then
                            match parse_members L f depth r' with
                            | Some (l, r'') => Some ((k, v) :: l, r'')
                            | None => None
                            end
                          else if Ascii.eqb c' "}" then Some ([(k, v)], r')
                          else None
                      | EmptyString => None
                      end
                  end
            | EmptyString => None
            end
        end
  | EmptyString => None
  end.
Proof. reflexivity. Qed.

Lemma elems_round : forall L l, Forall (good L) l -> l <> [] ->
  forall fuel depth rest,
  fold_right (fun x P => jwf L x /\ P) True l ->
  fold_right (fun x m => S (jsize x) + m) 0 l <= fuel ->
  depth + fold_right (fun x m => Nat.max (jdepth x) m) 0 l <= nesting_limit ->
  parse_elems L fuel depth (join (map print l) ++ String "]" rest) = Some (l, rest).
Proof.
  intros L l Hg. induction Hg as [|x l Hx Hl IH]; intros Hne fuel depth rest Hw Hf Hd;
    [congruence|].
  destruct Hw as [Hw1 Hw2]. cbn [fold_right] in Hf, Hd.
  destruct fuel as [|f]; [lia|].
  rewrite parse_elems_step.
  destruct l as [|y l].
  - cbn [map join]. rewrite (skip_ws_starts L) by (now apply print_starts).
    rewrite Hx; [reflexivity| assumption | cbn in Hf; lia | cbn in Hd; lia | apply tail_rb].
  - cbn [map]. rewrite join_cons, str_app_assoc. cbn [append].
    rewrite (skip_ws_starts L) by (now apply print_starts).
    rewrite Hx; [ | assumption | cbn in Hf; lia | lia | apply tail_comma].
    cbn [skip_ws]. change (N.leb (N_of_ascii ",") 32) with false. cbv iota.
    change (Ascii.eqb "," ",") with true. cbv iota.
    change (print y :: map print l) with (map print (y :: l)).
    rewrite IH; [reflexivity | discriminate | assumption | lia | lia].
Qed.

Lemma members_round : forall L l, Forall (fun kv => good L (snd kv)) l -> l <> [] ->
  forall fuel depth rest,
  fold_right (fun kv P => (no_nul (fst kv) /\ jwf L (snd kv)) /\ P) True l ->
  fold_right (fun kv m => S (jsize (snd kv)) + m) 0 l <= fuel ->
  depth + fold_right (fun kv m => Nat.max (jdepth (snd kv)) m) 0 l <= nesting_limit ->
  parse_members L fuel depth
    (join (map (fun kv => print_string (fst kv) ++ String ":" (print (snd kv))) l)
     ++ String "}" rest) = Some (l, rest).
Proof.
  intros L l Hg. set (pm := fun kv : string * json =>
    print_string (fst kv) ++ String ":" (print (snd kv))).
  assert (Hpm : forall kv r, pm kv ++ r =
    String dq (print_body (fst kv) ++ String dq (String ":" (print (snd kv) ++ r)))).
  { intros kv r. unfold pm, print_string. cbn [append].
    rewrite !str_app_assoc. reflexivity. }
  induction Hg as [|[k x] l Hx Hl IH]; intros Hne fuel depth rest Hw Hf Hd;
    [congruence|].
  destruct Hw as [[Hk Hw1] Hw2]. cbn [fold_right fst snd] in Hf, Hd, Hx, Hk, Hw1.
  destruct fuel as [|f]; [lia|].
  rewrite parse_members_step.
  destruct l as [|y l].
  - cbn [map join]. rewrite Hpm. cbn [skip_ws fst snd].
    change (N.leb (N_of_ascii dq) 32) with false. cbv iota.
    change (negb (Ascii.eqb dq dq)) with false. cbv iota.
    rewrite parse_print_string by assumption.
    cbn [skip_ws]. change (N.leb (N_of_ascii ":") 32) with false. cbv iota.
    change (negb (Ascii.eqb ":" ":")) with false. cbv iota.
    rewrite (skip_ws_starts L) by (now apply print_starts).
    rewrite Hx; [reflexivity| assumption | cbn in Hf; lia | cbn in Hd; lia | apply tail_rc].
  - cbn [map]. rewrite join_cons, str_app_assoc. rewrite Hpm. cbn [append].
    cbn [skip_ws fst snd].
    change (N.leb (N_of_ascii dq) 32) with false. cbv iota.
    change (negb (Ascii.eqb dq dq)) with false. cbv iota.
    rewrite parse_print_string by assumption.
    cbn [skip_ws]. change (N.leb (N_of_ascii ":") 32) with false. cbv iota.
    change (negb (Ascii.eqb ":" ":")) with false. cbv iota.
    rewrite (skip_ws_starts L) by (now apply print_starts).
    rewrite Hx; [ | assumption | cbn in Hf; lia | lia | apply tail_comma].
    cbn [skip_ws]. change (N.leb (N_of_ascii ",") 32) with false. cbv iota.
    change (Ascii.eqb "," ",") with true. cbv iota.
    change (pm y :: map pm l) with (map pm (y :: l)).
    rewrite IH; [reflexivity | discriminate | assumption | lia | lia].
Qed.

(** a printed array is not read as a keyword, and is entered as an array *)
Lemma join_starts : forall L l rest,
  fold_right (fun x P => jwf L x /\ P) True l -> l <> [] ->
  starts_value L (join (map print l) ++ rest).
Proof.
  intros L [|x l] rest Hw Hne; [congruence|]. destruct Hw as [Hx _].
  destruct l as [|y l].
  - cbn [map join]. now apply print_starts.
  - cbn [map]. rewrite join_cons, str_app_assoc. now apply print_starts.
Qed.

Lemma parse_value_num : forall L f depth c r,
  (Ascii.eqb c "-" || (N.leb 48 (N_of_ascii c) && N.leb (N_of_ascii c) 57))%bool = true ->
  parse_value L (S f) depth (String c r) =
  match parse_number L (String c r) with
  | Some (z, r') => Some (JNum z, r')
  | None => None
  end.
Proof.
  intros L f depth [b0 b1 b2 b3 b4 b5 b6 b7] r H.
  destruct b0, b1, b2, b3, b4, b5, b6, b7; cbn in H; try discriminate H; reflexivity.
Qed.

Lemma parse_value_arr : forall L f depth r,
  parse_value L (S f) depth (String "[" r) =
  if Nat.leb nesting_limit depth then None
  else
    match skip_ws r with
    | String d r' =>
        if Ascii.eqb d "]" then Some (JArr [], r')
        else
          match parse_elems L f (S depth) (String d r') with
          | Some (l, r'') => Some (JArr l, r'')
          | None => None
          end
    | EmptyString => None
    end.
Proof. reflexivity. Qed.

Lemma parse_value_obj : forall L f depth r,
  parse_value L (S f) depth (String "{" r) =
  if Nat.leb nesting_limit depth then None
  else
    match skip_ws r with
    | String d r' =>
        if Ascii.eqb d "}" then Some (JObj [], r')
        else
          match parse_members L f (S depth) (String d r') with
          | Some (l, r'') => Some (JObj l, r'')
          | None => None
          end
    | EmptyString => None
    end.
Proof. reflexivity. Qed.

Opaque nesting_limit.

Lemma good_all : forall L v, good L v.
Proof.
  intros L v. induction v as [ |b|z|s|l IH|l IH] using json_ind2;
    intros fuel depth rest Hw Hs Hd Ht; (destruct fuel as [|f]; [cbn in Hs; lia|]).
  - cbn. now destruct rest.
  - destruct b; cbn; now destruct rest.
  - pose proof (parse_print_num L z rest Hw Ht) as Hp.
    cbn [print]. destruct Hw as (_ & _ & _ & Hc).
    destruct (print_num z) as [|c r]; [contradiction|].
    cbn [append] in *. rewrite parse_value_num by assumption. rewrite Hp. reflexivity.
  - cbn [print]. unfold print_string. cbn [append].
    rewrite str_app_assoc. cbn [append].
    cbn -[parse_string print_body]. rewrite parse_print_string by assumption.
    reflexivity.
  - cbn [print append]. rewrite str_app_assoc. cbn [append].
    rewrite parse_value_arr. cbn [jdepth] in Hd. cbn [jsize] in Hs. cbn [jwf] in Hw.
    destruct (Nat.leb_spec nesting_limit depth); [lia|].
    destruct l as [|x l]; [reflexivity|].
    pose proof (join_starts L (x :: l) (String "]" rest) Hw) as Hst.
    assert (Hne : x :: l <> []) by discriminate. specialize (Hst Hne).
    rewrite (skip_ws_starts _ _ Hst).
    pose proof (elems_round L (x :: l) IH Hne f (S depth) rest Hw) as Hr.
    destruct (join (map print (x :: l)) ++ String "]" rest) as [|c r]; [contradiction|].
    destruct Hst as (_ & Hc & _). apply Ascii.eqb_neq in Hc. rewrite Hc.
    rewrite Hr; [reflexivity | lia | lia].
  - cbn [print append]. rewrite str_app_assoc. cbn [append].
    rewrite parse_value_obj. cbn [jdepth] in Hd. cbn [jsize] in Hs. cbn [jwf] in Hw.
    destruct (Nat.leb_spec nesting_limit depth); [lia|].
    destruct l as [|x l]; [reflexivity|].
    assert (Hne : x :: l <> []) by discriminate.
    pose proof (members_round L (x :: l) IH Hne f (S depth) rest Hw) as Hr.
    assert (Hst : exists r, join (map (fun kv : string * json =>
        print_string (fst kv) ++ String ":" (print (snd kv))) (x :: l))
        ++ String "}" rest = String dq r).
    { destruct l as [|y l]; cbn [map].
      - cbn [join]. unfold print_string. cbn [append]. eexists. reflexivity.
      - rewrite join_cons. unfold print_string. cbn [append]. eexists. reflexivity. }
    destruct Hst as [r Hst]. rewrite Hst in Hr |- *.
    cbn [skip_ws]. change (N.leb (N_of_ascii dq) 32) with false. cbv iota.
    change (Ascii.eqb dq "}") with false. cbv iota.
    rewrite Hr; [reflexivity | lia | lia].
Qed.

Lemma skip_bom_starts : forall L v, jwf L v -> skip_bom (print v) = print v.
Proof.
  intros L [ |b|z|s|l|l] H; try reflexivity.
  - now destruct b.
  - cbn [print]. destruct H as (_ & _ & _ & H).
    destruct (print_num z) as [|c r]; [reflexivity|].
    cbn. destruct r as [|? [|? [|? ?]]]; try reflexivity.
    destruct c as [b0 b1 b2 b3 b4 b5 b6 b7].
    destruct b0, b1, b2, b3, b4, b5, b6, b7; cbn in H |- *; try discriminate H; reflexivity.
  - cbn [print]. unfold print_string.
    destruct (print_body s ++ String dq "") as [|? [|? [|? ?]]]; reflexivity.
  - cbn [print]. destruct (join _ ++ "]") as [|? [|? [|? ?]]]; reflexivity.
  - cbn [print]. destruct (join _ ++ "}") as [|? [|? [|? ?]]]; reflexivity.
Qed.

(** Every printed value is read back, whatever its strings contain. *)
Lemma parse_print : forall L v, jwf L v -> jdepth v <= nesting_limit ->
  parse L (print v) = Some v.
Proof.
  intros L v Hw Hd. unfold parse.
  rewrite (skip_bom_starts L) by assumption.
  pose proof (print_starts L v "" Hw) as Hs. rewrite str_app_nil_r in Hs.
  rewrite (skip_ws_starts L) by assumption.
  pose proof (good_all L v (S (String.length (print v))) 0 "" Hw) as H.
  rewrite str_app_nil_r in H. rewrite H; [reflexivity | | lia | exact I].
  pose proof (jsize_print L v Hw). lia.
Qed.
