(** * C106: the log of a device *)
From Coq Require Import String List Bool NArith Arith Lia.
From Verif Require Import LggModel LggSpec.
Import ListNotations.

Lemma run_snoc : forall h o, run (h ++ [o]) = step (run h) o.
Proof. intros h o. unfold run. now rewrite fold_left_app. Qed.

Definition mask (s : severity) : N := match s with Error => level_error | Warn => level_warn | Info => level_info | Trace => level_trace end.

Lemma mask_bit : forall l s, N.eqb (N.land (mask l) (bit s)) 0 = negb (Nat.leb (rank s) (rank l)).
Proof. intros [] []; reflexivity. Qed.

Lemma set_level_ok : forall g n, (exists s, named n s /\ set_level g n = ({| g_on := g_on g; g_cb := g_cb g; g_data := g_data g; g_level := mask s |}, true)) \/
  ((forall s, ~ named n s) /\ set_level g n = (g, false)).
Proof.
  intros g n. unfold set_level.
  destruct (String.eqb_spec n "error") as [->|E1]; [left; exists Error; split; [constructor|reflexivity]|].
  destruct (String.eqb_spec n "warn") as [->|E2]; [left; exists Warn; split; [constructor|reflexivity]|].
  destruct (String.eqb_spec n "info") as [->|E3]; [left; exists Info; split; [constructor|reflexivity]|].
  destruct (String.eqb_spec n "trace") as [->|E4]; [left; exists Trace; split; [constructor|reflexivity]|].
  right. split; [|reflexivity]. intros s H. destruct H; congruence.
Qed.

Lemma step_level : forall g o, (forall d n, o <> SetLevel d n) -> g_level (step g o) = g_level g.
Proof. intros g [[]|d n|d c x|d] H; try reflexivity. now destruct (H d n). Qed.

Lemma level_run : forall h, exists s, level_of h s /\ g_level (run h) = mask s.
Proof.
  induction h as [|o h (s & L & E)] using rev_ind; [exists Info; split; [right; split; [reflexivity|intros ? ? ? []]|reflexivity]|].
  rewrite run_snoc.
  assert (K : (forall d n s', o = SetLevel d n -> ~ named n s') -> level_of (h ++ [o]) s).
  { intros H. destruct L as [(a & d & n & b & -> & N & F)|[-> F]].
    - left. exists a, d, n, (b ++ [o]). split; [now rewrite <- app_assoc|]. split; [exact N|]. intros d' n' s' X. apply in_app_or in X. destruct X as [X|[X|[]]]; [now apply (F d')|now apply (H d')].
    - right. split; [reflexivity|]. intros d' n' s' X. apply in_app_or in X. destruct X as [X|[X|[]]]; [now apply (F d')|now apply (H d')]. }
  destruct o as [c|d n|d c x|d]; try (exists s; split; [apply K; intros; discriminate|rewrite step_level; [exact E|intros; discriminate]]).
  cbn [step]. destruct (set_level_ok (run h) n) as [(s' & N & ->)|[N ->]].
  - exists s'. split; [left; exists h, d, n, []; split; [reflexivity|split; [exact N|intros ? ? ? []]]|reflexivity].
  - exists s. split; [apply K; intros d' n' s' X; injection X as _ <-; apply N|exact E].
Qed.

Lemma callback_run : forall h, callback_of h (g_cb (run h)) (g_data (run h)).
Proof.
  induction h as [|o h IH] using rev_ind; [right; repeat split; intros ? []|].
  rewrite run_snoc.
  assert (K : sets o = None -> callback_of (h ++ [o]) (g_cb (run h)) (g_data (run h))).
  { intros H. destruct IH as [(a & o1 & b & E & S & F)|(E1 & E2 & F)].
    - left. exists a, o1, (b ++ [o]). split; [rewrite E at 1; now rewrite <- app_assoc|]. split; [exact S|]. intros o' X. apply in_app_or in X. destruct X as [X|[<-|[]]]; [now apply F|exact H].
    - right. repeat split; auto. intros o' X. apply in_app_or in X. destruct X as [X|[<-|[]]]; [now apply F|exact H]. }
  destruct o as [c|d n|d c x|d].
  - destruct c; exact (K eq_refl).
  - cbn [step]. destruct (set_level_ok (run h) n) as [(s' & N & ->)|[N ->]]; exact (K eq_refl).
  - left. exists h, (SetCallback d c x), []. split; [reflexivity|]. split; [now destruct c|intros ? []].
  - left. exists h, (SetStdOut d), []. split; [reflexivity|]. split; [reflexivity|intros ? []].
Qed.

Lemma on_run : forall h, g_on (run h) = true <-> In (New Created) h.
Proof.
  induction h as [|o h IH] using rev_ind; [split; [discriminate|intros []]|].
  rewrite run_snoc, in_app_iff, <- IH. destruct o as [[]|d n|d c x|d]; cbn [step device_new fst g_on set_callback].
  1,2: split; [now left|intros [X|[X|[]]]; [exact X|discriminate]].
  - split; [right; now left|reflexivity].
  - destruct (set_level_ok (run h) n) as [(s' & N & ->)|[N ->]]; cbn [fst g_on]; (split; [now left|intros [X|[X|[]]]; [exact X|discriminate]]).
  - split; [now left|intros [X|[X|[]]]; [exact X|discriminate]].
  - split; [now left|intros [X|[X|[]]]; [exact X|discriminate]].
Qed.

Lemma cstr_app : forall t r, ~ In 0%N t -> cstr (t ++ 0%N :: r) = Some t.
Proof.
  induction t as [|b t IH]; intros r H; [reflexivity|]. cbn [app cstr].
  destruct (N.eqb_spec b 0) as [->|E]; [destruct H; now left|]. rewrite IH; [reflexivity|]. intros X. apply H. now right.
Qed.

Lemma in_firstn : forall (n : nat) (l : list N) x, In x (firstn n l) -> In x l.
Proof. intros n l x H. rewrite <- (firstn_skipn n l). apply in_or_app. now left. Qed.

(** The text of a message: its first 254 bytes, without a byte of the memory before. *)
Lemma text_ok : forall mem text, length mem = 256 -> ~ In 0%N text -> exists b1 b2,
  vsnprintf mem (256 - 1) text = Some b1 /\ put b1 (256 - 1) 0%N = Some b2 /\ cstr b2 = Some (firstn 254 text).
Proof.
  intros mem text M Z. unfold vsnprintf. change (256 - 1 - 1) with 254. change (256 - 1) with 255.
  assert (K : Nat.min (length text) 254 <= 254) by lia.
  assert (E : firstn (Nat.min (length text) 254) text = firstn 254 text).
  { destruct (Nat.le_ge_cases (length text) 254) as [H|H]; [rewrite Nat.min_l, firstn_all, firstn_all2; auto|rewrite Nat.min_r; auto]. }
  assert (LE : length (firstn 254 text) = Nat.min (length text) 254) by (rewrite firstn_length; lia).
  rewrite E. set (k := Nat.min (length text) 254) in *. clearbody k.
  replace (Nat.ltb k (length mem)) with true by (symmetry; apply Nat.ltb_lt; lia).
  assert (LB : length (firstn 254 text ++ 0%N :: skipn (S k) mem) = 256) by (rewrite app_length; cbn [length]; rewrite skipn_length; lia).
  eexists. eexists. split; [reflexivity|]. unfold put. rewrite LB. split; [reflexivity|].
  rewrite firstn_app, (firstn_all2 (n := 255)) by lia. rewrite LE.
  replace (255 - k) with (S (254 - k)) by lia. rewrite firstn_cons, <- app_assoc, <- app_comm_cons. apply cstr_app. intros X. apply Z. now apply in_firstn in X.
Qed.

(** After every history of the log functions, by whatever devices: a message reaches a
    callback exactly if a device was made, the message is at least as severe as the last
    valid level and a callback is set; it is then the last one set, with its data, and the
    message has the severity, the file, the line and the first 254 bytes of the text.
    Memory is used rightly whatever it held. *)
Theorem C106_delivery : forall h mem s file line text, length mem = 256 -> ~ In 0%N text ->
  exists lvl c data, level_of h lvl /\ callback_of h c data /\
  ((In (New Created) h /\ rank s <= rank lvl /\ c <> Default /\
    log (run h) mem s file line text = Called c data {| m_severity := s; m_file := file; m_line := line; m_text := firstn 254 text |}) \/
   (~ (In (New Created) h /\ rank s <= rank lvl /\ c <> Default) /\ log (run h) mem s file line text = Nothing)).
Proof.
  intros h mem s file line text M Z. destruct (level_run h) as (lvl & L & E). exists lvl, (g_cb (run h)), (g_data (run h)).
  split; [exact L|]. split; [apply callback_run|]. pose proof (on_run h) as O. unfold log, logging_log. rewrite E, mask_bit.
  destruct (g_on (run h)); [|right; split; [intros (X & _); apply O in X; discriminate|reflexivity]].
  destruct (Nat.leb_spec (rank s) (rank lvl)) as [R|R]; cbn [negb]; [|right; split; [intros (_ & X & _); lia|reflexivity]].
  destruct (text_ok mem text M Z) as (b1 & b2 & -> & -> & ->). destruct (g_cb (run h)).
  - right. split; [intros (_ & _ & X); now apply X|reflexivity].
  - left. repeat split; [now apply O|exact R|discriminate].
  - left. repeat split; [now apply O|exact R|discriminate].
Qed.

(** The level and the callback of a history are unique, so the theorem above says it all. *)
Lemma named_fun : forall n s s', named n s -> named n s' -> s = s'.
Proof. intros n s s' H H'. destruct H; inversion H'; reflexivity. Qed.

Theorem C106_level_unique : forall h s s', level_of h s -> level_of h s' -> s = s'.
Proof.
  induction h as [|o h IH] using rev_ind; intros s s' H H'.
  - destruct H as [(a & d & n & b & E & _)|[-> _]]; [now destruct a|]. destruct H' as [(a & d & n & b & E & _)|[-> _]]; [now destruct a|reflexivity].
  - assert (K : forall s, level_of (h ++ [o]) s -> (exists d n, o = SetLevel d n /\ named n s) \/ (level_of h s /\ forall d n s', o = SetLevel d n -> ~ named n s')).
    { clear. intros s [(a & d & n & b & E & N & F)|[-> F]].
      - destruct b as [|x b _] using rev_ind.
        + apply app_inj_tail in E. destruct E as [_ ->]. left. eauto.
        + replace (a ++ SetLevel d n :: b ++ [x]) with ((a ++ SetLevel d n :: b) ++ [x]) in E by now rewrite <- app_assoc.
          apply app_inj_tail in E. destruct E as [-> ->]. right. split.
          * left. exists a, d, n, b. split; [reflexivity|]. split; [exact N|]. intros d' n' s' X. apply (F d' n' s'). apply in_or_app. now left.
          * intros d' n' s' ->. apply (F d' n' s'). apply in_or_app. right. now left.
      - right. split; [right; split; [reflexivity|]|]; intros d' n' s' X; apply (F d' n' s'); apply in_or_app; [now left|right; now left]. }
    destruct (K s H) as [(d & n & E & N)|[L F]], (K s' H') as [(d' & n' & E' & N')|[L' F']].
    + rewrite E in E'. injection E' as <- <-. now apply (named_fun n).
    + now destruct (F' d n s E).
    + now destruct (F d' n' s' E').
    + now apply IH.
Qed.

Theorem C106_callback_unique : forall h c x c' x', callback_of h c x -> callback_of h c' x' -> c = c' /\ x = x'.
Proof.
  induction h as [|o h IH] using rev_ind; intros c x c' x' H H'.
  - destruct H as [(a & o & b & E & _)|(-> & -> & _)]; [now destruct a|]. destruct H' as [(a & o & b & E & _)|(-> & -> & _)]; [now destruct a|now split].
  - assert (K : forall c x, callback_of (h ++ [o]) c x -> sets o = Some (c, x) \/ (sets o = None /\ callback_of h c x)).
    { clear. intros c x [(a & o1 & b & E & S & F)|(-> & -> & F)].
      - destruct b as [|y b _] using rev_ind.
        + apply app_inj_tail in E. destruct E as [_ ->]. now left.
        + replace (a ++ o1 :: b ++ [y]) with ((a ++ o1 :: b) ++ [y]) in E by now rewrite <- app_assoc.
          apply app_inj_tail in E. destruct E as [-> ->]. right. split; [apply F, in_or_app; right; now left|].
          left. exists a, o1, b. split; [reflexivity|]. split; [exact S|]. intros o' X. apply F, in_or_app. now left.
      - right. split; [apply F, in_or_app; right; now left|]. right. repeat split. intros o' X. apply F, in_or_app. now left. }
    destruct (K c x H) as [E|[E L]], (K c' x' H') as [E'|[E' L']]; rewrite E in E'; try discriminate.
    + injection E' as -> ->. now split.
    + now apply IH.
Qed.

(** A level which is none of the four names is refused and changes nothing; the others
    are accepted. *)
Theorem C106_level : forall g n, (snd (set_level g n) = true <-> exists s, named n s) /\ (snd (set_level g n) = false -> fst (set_level g n) = g).
Proof.
  intros g n. destruct (set_level_ok g n) as [(s & N & ->)|[N ->]]; cbn [fst snd].
  - split; [split; [eauto|reflexivity]|discriminate].
  - split; [split; [discriminate|intros (s & X); now destruct (N s)]|reflexivity].
Qed.

(** The documentation: set before nabto_device_new, the callback gets the messages of the
    initialization.  Wrong of the first device: what fails before nabto_device_logging_init
    is logged to nobody, whatever was set. *)
Theorem C106_first_device_refuted : forall h mem c file line text, ~ In (New Created) h -> snd (device_new (run h) mem c file line text) = Nothing.
Proof.
  intros h mem c file line text H. assert (O : g_on (run h) = false) by (destruct (g_on (run h)) eqn:E; [now apply on_run in E|reflexivity]).
  destruct c; cbn [device_new snd]; unfold log; now rewrite ?O.
Qed.

(** The documentation: a message is UTF-8.  Wrong of a text whose 254th byte begins a
    character: its cut is not, though the text is. *)
Theorem C106_utf8_refuted : exists text, utf8 text /\ ~ In 0%N text /\
  (forall h mem s file line c data m, length mem = 256 -> log (run h) mem s file line text = Called c data m -> ~ utf8 (m_text m)) /\
  exists h mem s file line c data m, length mem = 256 /\ log (run h) mem s file line text = Called c data m.
Proof.
  exists (repeat 97%N 253 ++ [195; 165]%N).
  assert (Z : ~ In 0%N (repeat 97%N 253 ++ [195; 165]%N)).
  { intros X. apply in_app_or in X. destruct X as [X|[X|[X|[]]]]; try discriminate. apply repeat_spec in X. discriminate. }
  assert (B : forall n, ~ utf8 (repeat 97%N n ++ [195%N])).
  { induction n as [|n IH]; cbn [repeat app]; intros X; inversion X; subst; try lia. contradiction. }
  split; [|split; [exact Z|split]].
  - assert (G : forall n, utf8 (repeat 97%N n ++ [195; 165]%N)); [|exact (G 253)].
    induction n as [|n IH]; cbn [repeat app]; [apply u_2; [lia|unfold tail; lia|constructor]|apply u_1; [lia|exact IH]].
  - intros h mem s file line c data m M E X. destruct (C106_delivery h mem s file line _ M Z) as (lvl & c' & d' & _ & _ & [(_ & _ & _ & E')|(_ & E')]); rewrite E in E'; [|discriminate].
    assert (T : m_text m = repeat 97%N 253 ++ [195%N]) by exact (f_equal (fun e => match e with Called _ _ x => m_text x | _ => [] end) E').
    rewrite T in X. exact (B 253 X).
  - exists [New Created; SetCallback 0 (Some 7) 3], (repeat 0%N 256), Error, [], 1%N, (App 7), 3.
    eexists. split; reflexivity.
Qed.

(** A log of warnings for the callback 7, removed later by another device. *)
Definition ex_h : list op := [SetCallback 0 (Some 7) 3; New Created; SetLevel 1 "warn"; SetLevel 1 "debug"; New NoMemory].
Example C106_ex : log (run ex_h) (repeat 9%N 256) Error [102]%N 12 [104; 105]%N = Called (App 7) 3 {| m_severity := Error; m_file := [102]%N; m_line := 12; m_text := [104; 105]%N |} /\
  log (run ex_h) (repeat 9%N 256) Info [102]%N 12 [104; 105]%N = Nothing /\
  log (run (ex_h ++ [SetCallback 2 None 0])) (repeat 9%N 256) Error [102]%N 12 [104; 105]%N = Nothing /\
  log (run (ex_h ++ [SetStdOut 2; SetLevel 5 "trace"])) (repeat 9%N 256) Trace [102]%N 12 (repeat 97%N 300) = Called StdOut 0 {| m_severity := Trace; m_file := [102]%N; m_line := 12; m_text := repeat 97%N 254 |}.
Proof. repeat split; reflexivity. Qed.

Print Assumptions C106_delivery.
Print Assumptions C106_level_unique.
Print Assumptions C106_callback_unique.
Print Assumptions C106_level.
Print Assumptions C106_first_device_refuted.
Print Assumptions C106_utf8_refuted.
