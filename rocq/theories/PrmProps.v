(** * C103: the setup program keeps what was typed *)
From Coq Require Import List Bool NArith Arith Lia.
From Verif Require Import PrmModel PrmSpec PrmProofs.
Import ListNotations.
Open Scope N_scope.

(** Whatever the buffer held: a typed line of printable characters is the string in the
    buffer, and the result is true; of a longer line it is the beginning which fits, and
    the result is false. *)
Theorem C103_prompt : forall w rest buf n, plain w -> length buf = S n ->
  exists buf', prompt (w ++ 10 :: rest) buf 0 n = Some (Nat.leb (length w) n, buf', rest) /\ cstr buf' = Some (firstn n w).
Proof.
  intros w rest buf n Hp Hb. destruct (prompt_line w rest buf n Hp Hb) as (t & E & _). exists (firstn n w ++ 0 :: t). split; [exact E|].
  apply cstr_ok. now apply plain_firstn.
Qed.
Print Assumptions C103_prompt.

(** Whatever is typed: nothing is written outside of a buffer. *)
Theorem C103_inside : forall inp,
  (forall buf n i, length buf = S n -> exists v buf' r, prompt inp buf i n = Some (v, buf', r) /\ length buf' = S n) /\
  (forall def mem f, (forall k, length (mem k) = 4%nat) -> yes_no def mem f inp <> Outside) /\
  (forall def max f, uint16 def max f inp <> Outside) /\
  (forall buf n f, length buf = S n -> repeating f inp buf n <> Outside).
Proof.
  assert (P : forall inp buf n i, length buf = S n -> exists v buf' r, prompt inp buf i n = Some (v, buf', r) /\ length buf' = S n).
  { intros inp buf n i H. destruct (prompt_inside inp buf i n H) as (v & b & r & E & L & _). exists v, b, r. auto. }
  intros inp. split; [intros; now apply P|]. split; [|split].
  - intros def mem f Hm. revert inp. induction f as [|f IH]; intros inp; [discriminate|]. cbn [yes_no]. destruct (P inp (mem f) 3%nat 0%nat (Hm f)) as (v & b & r & -> & _).
    destruct v; cbn [negb]; [|apply IH].
    destruct def as [d|]; [destruct (hd 0 b =? 0); [discriminate|]|destruct (hd 0 b =? 0)];
      (destruct (_ || _); [discriminate|]; destruct (_ || _); [discriminate|apply IH]).
  - intros def max f. revert inp. induction f as [|f IH]; intros inp; [discriminate|]. cbn [uint16]. destruct (P inp (repeat 0 16) 15%nat 0%nat eq_refl) as (v & b & r & -> & _).
    destruct v; cbn [negb]; [|apply IH]. destruct (hd 0 b =? 0); [destruct def; [discriminate|apply IH]|].
    destruct (str_is_numerical b); cbn [negb]; [|apply IH]. cbv zeta. destruct (_ <=? max); [discriminate|apply IH].
  - intros buf n f. revert inp buf. induction f as [|f IH]; intros inp buf H; [discriminate|]. cbn [repeating]. destruct (P inp buf n 0%nat H) as (v & b & r & -> & L).
    destruct (negb (hd 0 b =? 0)); [discriminate|now apply IH].
Qed.
Print Assumptions C103_inside.

(** Yes or no, with or without a default: the answer is that of the first line which
    says one, and the lines behind it are left for the next question. *)
Theorem C103_yes_no : forall def mem pre w rest b f, (forall k, length (mem k) = 4%nat) -> Forall plain (pre ++ [w]) ->
  (forall x c, In x pre -> ~ says def x c) -> says def w b -> (length pre < f)%nat ->
  yes_no def mem f (typed (pre ++ [w]) rest) = Answer b rest.
Proof. exact yes_no_lines. Qed.
Print Assumptions C103_yes_no.

(** A number: the first line of at most fifteen digits which stands for a number up to
    the maximum, or the first empty line when there is a default. *)
Theorem C103_number : forall def max pre w rest v f, Forall plain (pre ++ [w]) ->
  (forall x c, In x pre -> ~ counts def max x c) -> counts def max w v -> (length pre < f)%nat ->
  uint16 def max f (typed (pre ++ [w]) rest) = Answer v rest.
Proof. exact uint16_lines. Qed.
Print Assumptions C103_number.

(** Whatever is typed, a number is at most the maximum, or the default. *)
Theorem C103_range : forall def max inp f v rest, uint16 def max f inp = Answer v rest -> v <= max \/ def = Some v.
Proof.
  intros def max inp f. revert inp. induction f as [|f IH]; intros inp v rest H; [discriminate|]. cbn [uint16] in H.
  destruct (prompt inp (repeat 0 16) 0 15) as [[[va b] r]|]; [|discriminate]. destruct va; cbn [negb] in H; [|eapply IH; eauto].
  destruct (hd 0 b =? 0).
  - destruct def as [d|]; [injection H as <- _; now right|eapply IH; eauto].
  - destruct (str_is_numerical b); cbn [negb] in H; [|eapply IH; eauto]. cbv zeta in H. destruct (N.leb_spec (strtol 0 b) max) as [L|L]; [injection H as <- _; now left|eapply IH; eauto].
Qed.
Print Assumptions C103_range.

(** The lines of a service: empty lines before the texts are asked again. *)
Definition pairs_lines (y : list N) (meta : list (list N * list N)) : list (list N) := concat (map (fun p => [y; fst p; snd p]) meta).

Lemma typed_app : forall a b rest, typed (a ++ b) rest = typed a (typed b rest).
Proof. intros. unfold typed. rewrite map_app, concat_app, app_assoc. reflexivity. Qed.

Definition good (w : list N) : Prop := plain w /\ w <> [] /\ (length w <= 19)%nat.

Lemma text20_one : forall w rest f, good w -> (0 < f)%nat -> text20 f (w ++ 10 :: rest) = Answer w rest.
Proof.
  intros w rest f (Hp & Hn & Hl) Hf. pose proof (text20_lines 0 w rest f Hp Hn Hf) as E. cbn [repeat app] in E. rewrite typed_cons in E. unfold typed in E. cbn [map concat app] in E.
  rewrite E. now rewrite firstn_all2.
Qed.

(** A service is made of the lines typed: its id, its host, its port, and its metadata
    in their order, when no text is longer than nineteen characters. *)
Theorem C103_service_partial : forall mem id host port y meta n rest f k, (forall j, length (mem j) = 4%nat) ->
  good id -> good host -> plain port -> counts None 65535 port (decimal port) -> plain y -> yes y -> plain n -> no n ->
  Forall (fun p => good (fst p) /\ good (snd p)) meta -> (0 < f)%nat -> (length meta <= k)%nat ->
  create_service mem f k (typed ([id; host; port] ++ pairs_lines y meta ++ [n]) rest) =
  Answer {| s_id := id; s_type := id; s_host := host; s_port := decimal port; s_meta := meta |} rest.
Proof.
  intros mem id host port y meta n rest f k Hm Hid Hh Hpp Hp Hyp Hy Hnp Hn Hmeta Hf Hk.
  unfold create_service. cbn [app]. rewrite !typed_cons, (text20_one id) by auto. cbn [bind]. rewrite (text20_one host) by auto. cbn [bind].
  pose proof (uint16_lines None 65535 [] port (typed (pairs_lines y meta ++ [n]) rest) (decimal port) f) as U. cbn [app] in U. rewrite typed_cons in U. unfold typed at 1 in U. cbn [map concat app] in U.
  rewrite U; try (intros x c []); auto. cbn [bind]. clear U.
  assert (M : forall k meta, Forall (fun p => good (fst p) /\ good (snd p)) meta -> (length meta <= k)%nat -> metadata mem f k (typed (pairs_lines y meta ++ [n]) rest) = Answer meta rest).
  { clear Hk Hmeta k meta. intros k. induction k as [|k IH]; intros meta Hg Hl.
    - destruct meta as [|p meta]; [|cbn in Hl; lia]. cbn [pairs_lines map concat app metadata].
      pose proof (yes_no_lines None mem [] n rest false f Hm) as U. cbn [app] in U. rewrite U; try (intros x c []); auto; try (right; left; auto; fail).
    - destruct meta as [|p meta].
      + cbn [pairs_lines map concat app metadata]. pose proof (yes_no_lines None mem [] n rest false f Hm) as U. cbn [app] in U. rewrite U; try (intros x c []); auto; try (right; left; auto; fail).
      + inversion Hg as [|? ? [G1 G2] Hg']; subst. unfold pairs_lines. cbn [map concat]. fold (pairs_lines y meta). rewrite <- app_assoc.
        rewrite typed_app. cbn [metadata].
        pose proof (yes_no_lines None mem [] y (typed [fst p; snd p] (typed (pairs_lines y meta ++ [n]) rest)) true f Hm) as U. cbn [app] in U.
        replace (typed [y; fst p; snd p] (typed (pairs_lines y meta ++ [n]) rest)) with (typed [y] (typed [fst p; snd p] (typed (pairs_lines y meta ++ [n]) rest))) by (rewrite <- typed_app; reflexivity).
        rewrite U; try (intros x c []); auto; try (left; auto; fail). cbn [bind]. rewrite !typed_cons. rewrite (text20_one (fst p)) by auto. cbn [bind].
        rewrite (text20_one (snd p)) by auto. cbn [bind]. change (typed [] (typed (pairs_lines y meta ++ [n]) rest)) with (typed (pairs_lines y meta ++ [n]) rest).
        rewrite IH by (auto; cbn in Hl; lia). cbn [bind]. destruct p; reflexivity. }
  rewrite M by auto. reflexivity.
Qed.
Print Assumptions C103_service_partial.

(** Not so: an id of twenty characters, as many as the question allows, is kept.  Its last
    character is dropped without a word. *)
Theorem C103_cut_refuted : forall id rest f, plain id -> length id = 20%nat -> (0 < f)%nat ->
  text20 f (id ++ 10 :: rest) = Answer (firstn 19 id) rest /\ firstn 19 id <> id.
Proof.
  intros id rest f Hp Hl Hf. split.
  - pose proof (text20_lines 0 id rest f Hp) as E. cbn [repeat app] in E. rewrite typed_cons in E. unfold typed in E. cbn [map concat app] in E. apply E; [intros ->; discriminate|exact Hf].
  - intros X. apply (f_equal (@length N)) in X. rewrite firstn_length, Hl in X. discriminate.
Qed.
Print Assumptions C103_cut_refuted.

(** Not so: only digits are taken for a number.  "2<tab>2" is read as 2. *)
Theorem C103_tab_refuted : uint16 None 3 1 ([50; 9; 50; 10]) = Answer 2 [] /\ ~ digits [50; 9; 50].
Proof. split; [vm_compute; reflexivity|]. intros [_ X]. inversion X as [|? ? _ X1]. inversion X1 as [|? ? X2 _]. lia. Qed.
Print Assumptions C103_tab_refuted.

(** Not so: the answer depends on the line typed.  Characters which are not ASCII leave
    what the memory held: the same line is a yes, a no or asked again. *)
Theorem C103_memory_refuted : exists w m1 m2, (forall k, length (m1 k) = 4%nat) /\ (forall k, length (m2 k) = 4%nat) /\
  yes_no None m1 1 (w ++ [10]) = Answer true [] /\ yes_no None m2 1 (w ++ [10]) = Answer false [].
Proof. exists [195], (fun _ => [121; 7; 7; 7]), (fun _ => [110; 7; 7; 7]). repeat split; reflexivity. Qed.
Print Assumptions C103_memory_refuted.

(** Not so: every question ends.  At the end of the input a question without a default
    is asked for ever, with one the default is the answer. *)
Theorem C103_end_refuted :
  (forall mem f, (forall k, length (mem k) = 4%nat) -> yes_no None mem f [] = Asking) /\ (forall max f, uint16 None max f [] = Asking) /\
  (forall n f buf, length buf = S n -> repeating f [] buf n = Asking) /\
  (forall mem f b, (forall k, length (mem k) = 4%nat) -> yes_no (Some b) mem (S f) [] = Answer b []) /\ (forall max f d, uint16 (Some d) max (S f) [] = Answer d []).
Proof.
  split; [|split; [|split; [|split]]].
  - intros mem f Hm. induction f as [|f IH]; [reflexivity|]. cbn [yes_no prompt Nat.ltb Nat.leb]. specialize (Hm f). destruct (mem f) as [|a r]; [discriminate|].
    cbn [put negb hd Nat.leb]. change (0 =? 0) with true. cbn [to_lowercase]. change (0 =? 0) with true. cbn [strncmp_eq]. exact IH.
  - intros max f. induction f as [|f IH]; [reflexivity|]. exact IH.
  - intros n f. induction f as [|f IH]; intros buf H; [reflexivity|]. cbn [repeating prompt]. destruct buf as [|a r]; [discriminate|].
    replace (if Nat.ltb 0 n then 0%nat else n) with 0%nat by (destruct n; reflexivity). cbn [put hd]. change (negb (0 =? 0)) with false. cbn match. now apply IH.
  - intros mem f b Hm. cbn [yes_no prompt Nat.ltb Nat.leb]. specialize (Hm f). destruct (mem f) as [|a r]; [discriminate|]. reflexivity.
  - intros max f d. reflexivity.
Qed.
Print Assumptions C103_end_refuted.

(** Not so: a string is always ended.  A zero byte ends the answer and leaves the
    buffer as it was. *)
Theorem C103_zero_refuted : forall w buf n rest, plain w -> length buf = S n -> (length w <= n)%nat ->
  exists buf', prompt (w ++ 0 :: rest) buf 0 n = Some (false, buf', rest) /\ buf' = w ++ skipn (length w) buf.
Proof.
  intros w buf n rest Hp Hb Hl.
  assert (G : forall w d t, plain w -> length (d ++ t) = S n -> (length d + length w <= n)%nat -> prompt (w ++ 0 :: rest) (d ++ t) (length d) n = Some (false, d ++ w ++ skipn (length w) t, rest)).
  { clear. induction w as [|c w IH]; intros d t Hp Hb Hl; [reflexivity|]. inversion Hp as [|? ? Hc Hw]; subst. destruct (plain_char c Hc) as (E0 & E1 & E2 & E3).
    cbn [app prompt]. rewrite E0, E1, E2, E3. cbn [orb]. cbn [length] in Hl. replace (Nat.ltb (length d) n) with true by (symmetry; apply Nat.ltb_lt; lia). cbn [andb].
    destruct t as [|x t]; [rewrite app_nil_r in Hb; lia|]. rewrite put_app.
    specialize (IH (d ++ [c]) t Hw). rewrite !app_length in IH. cbn [length] in IH. rewrite app_length in Hb. cbn [length] in Hb.
    assert (Ea : forall u : list N, (d ++ [c]) ++ u = d ++ c :: u) by (intros u; now rewrite <- app_assoc). rewrite (Ea t), (Ea (w ++ _)) in IH.
    replace (length d + 1)%nat with (S (length d)) in IH by lia. rewrite IH by lia. reflexivity. }
  eexists. split; [|reflexivity]. apply (G w [] buf Hp Hb). cbn. exact Hl.
Qed.
Print Assumptions C103_zero_refuted.

(** ** Examples *)
(** "maybe", then "YeS"; "n" is left *)
Example C103_ex_yes : yes_no None (fun _ => [9; 9; 9; 9]) 5 (typed [[109; 97; 121; 98; 101]; []; [89; 101; 83]] [110; 10]) = Answer true [110; 10] /\ says None [89; 101; 83] true /\
  (forall c, ~ says None [109; 97; 121; 98; 101] c) /\ yes_no (Some false) (fun _ => [9; 9; 9; 9]) 5 (typed [[120]; []] []) = Answer false [].
Proof.
  split; [vm_compute; reflexivity|]. split; [left; split; [reflexivity|right; repeat constructor; lia]|]. split; [|vm_compute; reflexivity].
  intros c [[_ X]|[[_ X]|[X _]]]; [apply yes_length in X; cbn in X; lia|apply no_length in X; cbn in X; lia|discriminate].
Qed.
(** "70000", "-1", then "0022" *)
Example C103_ex_number : uint16 None 65535 5 (typed [[55; 48; 48; 48; 48]; [45; 49]; [48; 48; 50; 50]] [7]) = Answer 22 [7] /\ counts None 65535 [48; 48; 50; 50] 22.
Proof. split; [vm_compute; reflexivity|]. left. split; [split; [discriminate|repeat constructor; lia]|]. split; [cbn; lia|]. split; [vm_compute; reflexivity|lia]. Qed.
(** "ssh", "10.0.0.1", "22", "y", "a", "b", "n" *)
Example C103_ex_service : create_service (fun _ => [1; 2; 3; 4]) 1 1 (typed ([[115; 115; 104]; [49; 48; 46; 48; 46; 48; 46; 49]; [50; 50]] ++ pairs_lines [121] [([97], [98])] ++ [[110]]) []) =
  Answer {| s_id := [115; 115; 104]; s_type := [115; 115; 104]; s_host := [49; 48; 46; 48; 46; 48; 46; 49]; s_port := 22; s_meta := [([97], [98])] |} [].
Proof.
  apply C103_service_partial; try reflexivity; try (cbn; lia); try (repeat constructor; cbn; try discriminate; lia).
Qed.
