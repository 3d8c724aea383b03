(** Proofs for the properties C37 to C41. *)
From Coq Require Import List Bool Arith Lia.
From Verif Require Import AttachModel AttachSpec.
Import ListNotations.

Definition dns_events (q : list event) : nat := length (filter (is_event (QDns true)) q).
Arguments dns_events : simpl never.
Lemma dns_post : forall q b, dns_events q = 0 -> existsb (is_event (QDns b)) q = false.
Proof.
  unfold dns_events. induction q as [|x q IH]; intros b H; [reflexivity|]. cbn in *. destruct x; cbn in *; auto. discriminate.
Qed.
Lemma dns_app : forall a b, dns_events (a ++ b) = dns_events a + dns_events b.
Proof. intros. unfold dns_events. rewrite filter_app, app_length. reflexivity. Qed.

Lemma dns_1 : dns_events [QClose] = 0. Proof. reflexivity. Qed.
Lemma dns_2 : dns_events [QDeferred] = 0. Proof. reflexivity. Qed.
Lemma dns_3 : forall b, dns_events [QDns b] = 1. Proof. reflexivity. Qed.
Lemma dns_4 : forall q, dns_events (QClose :: q) = dns_events q. Proof. reflexivity. Qed.
Lemma dns_5 : forall q, dns_events (QDeferred :: q) = dns_events q. Proof. reflexivity. Qed.
Lemma dns_6 : forall b q, dns_events (QDns b :: q) = S (dns_events q). Proof. reflexivity. Qed.

(** What the attacher may be doing. *)
Definition phase_ok (s : st) (w : world) : Prop :=
  match p_mod s with
  | Setup => p_state s = Dns /\ p_dtls s = None /\ p_timer s = false /\ p_ka s = false /\ p_dns s + dns_events (p_queue s) = 0
  | m => match p_state s with
         | Dns => p_dtls s = None /\ p_host s <> None /\ p_timer s = false /\ p_ka s = false /\ p_dns s + dns_events (p_queue s) = 1
         | Request => p_dtls s <> None /\ p_timer s = false /\ p_ka s = false /\ p_dns s + dns_events (p_queue s) = 0
         | RetryWait | DeniedWait => p_dtls s = None /\ p_ka s = false /\ m = Running /\ p_dns s + dns_events (p_queue s) = 0
         | Redirect => p_dtls s <> None /\ p_host s <> None /\ w_closing w = true /\ p_timer s = false /\ p_ka s = false /\ p_dns s + dns_events (p_queue s) = 0
         | Attached => p_dtls s <> None /\ p_timer s = false /\ (p_ka s = true \/ w_closing w = true) /\ p_dns s + dns_events (p_queue s) = 0
         | Closed => p_dtls s = None /\ p_timer s = false /\ p_ka s = false /\ m = Stopped /\ p_dns s + dns_events (p_queue s) = 0
         end
  end.


(** What holds of connections and requests, whatever the state. *)
Record base (d : option nat) (n : nat) (stt en : option (option nat)) (sc : option (option nat * bool)) (w : world) : Prop := {
  v_live : w_live w = d;
  v_start : stt = option_map Some (w_start w);
  v_end : en = option_map Some (w_end w);
  v_sct : option_map fst sc = option_map fst (w_up w);
  v_sct' : forall x, sc = Some x -> fst x <> None;
  v_old : forall c, d = Some c \/ w_start w = Some c \/ w_end w = Some c \/ option_map fst sc = Some (Some c) -> c < n }.
Definition stage (ph : phase) (d : option nat) (sc : option (option nat * bool)) (w : world) : Prop :=
  forall c, d = Some c ->
    (w_start w = Some c -> ph = Request /\ w_hand w = true /\ w_end w <> Some c /\ sc <> Some (Some c, true)) /\
    (w_end w = Some c -> ph = Request /\ w_hand w = true /\ sc <> Some (Some c, true)) /\
    (sc = Some (Some c, true) -> ph = Request /\ w_hand w = true) /\
    (sc = Some (Some c, false) -> ph = Attached) /\
    (w_hand w = false -> ph = Request) /\
    (ph = Request -> w_hand w = false \/ w_closing w = true \/ w_start w = Some c \/ w_end w = Some c \/ sc = Some (Some c, true)).
Definition inv (s : st) (w : world) : Prop :=
  base (p_dtls s) (p_next s) (p_start s) (p_end s) (p_sct s) w /\ phase_ok s w /\ stage (p_state s) (p_dtls s) (p_sct s) w.

Lemma inv_init : inv init outside.
Proof.
  split; [|split].
  - constructor; cbn; auto; try discriminate. intros c [H|[H|[H|H]]]; discriminate.
  - cbn. auto.
  - intros c H. discriminate.
Qed.

(** ** Steps made of parts *)
Definition triple (P : st -> world -> Prop) (a : act) (Q : st -> world -> Prop) : Prop :=
  forall s w, P s w -> Q (fst (a s)) (fold_left look (snd (a s)) w).
Lemma seq : forall P Q R a b, triple P a Q -> triple Q b R -> triple P (andthen a b) R.
Proof.
  intros P Q R a b A B s w H. unfold andthen. specialize (A s w H). destruct (a s) as [s1 o1]. cbn [fst snd] in A.
  specialize (B _ _ A). destruct (b s1) as [s2 o2]. cbn [fst snd] in *. rewrite fold_left_app. exact B.
Qed.
Lemma pre : forall (P P' Q : st -> world -> Prop) a, triple P a Q -> (forall s w, P' s w -> P s w) -> triple P' a Q.
Proof. intros P P' Q a A H s w X. apply A. auto. Qed.

(** No connection and no resolving. *)
Definition idle (s : st) (w : world) : Prop :=
  base (p_dtls s) (p_next s) (p_start s) (p_end s) (p_sct s) w /\ p_dtls s = None /\ p_ka s = false /\ p_dns s + dns_events (p_queue s) = 0.

Lemma post_dns : forall x s, is_event (QDns true) x = false -> dns_events (p_queue (fst (post x s))) = dns_events (p_queue s).
Proof.
  intros x s N. unfold post. destruct (existsb (is_event x) (p_queue s)); [auto|].
  cbn [set_queue fst p_queue]. rewrite dns_app. destruct x; cbn in N; try discriminate; rewrite ?dns_1, ?dns_2; lia.
Qed.
Lemma post_rest : forall x s, fst (post x s) = fst (set_queue (p_queue (fst (post x s))) s) /\ snd (post x s) = [].
Proof. intros x s. unfold post. destruct (existsb (is_event x) (p_queue s)); destruct s; auto. Qed.

Lemma base_fresh : forall n stt en sc w, base None n stt en sc w -> base (Some n) (S n) stt en sc (look w (Connect n)).
Proof.
  intros n stt en sc w [A B C D E F]. constructor; auto. cbn [w_start w_end look].
  intros c H. assert (c = n \/ c < n) as [->|L]; [|lia|lia].
  destruct H as [H|H]; [left; congruence|right]. apply F. auto.
Qed.
Lemma stage_fresh : forall n stt en sc w, base None n stt en sc w -> stage Request (Some n) sc (look w (Connect n)).
Proof.
  intros n stt en sc w [A B C D E F] c H. injection H as <-. cbn [w_start w_end look w_hand w_closing].
  assert (N1 : w_start w <> Some n) by (intros X; specialize (F n (or_intror (or_introl X))); lia).
  assert (N2 : w_end w <> Some n) by (intros X; specialize (F n (or_intror (or_intror (or_introl X)))); lia).
  assert (N3 : forall b, sc <> Some (Some n, b)).
  { intros b X. subst sc. specialize (F n (or_intror (or_intror (or_intror eq_refl)))). lia. }
  repeat split; try tauto; try congruence; try (exfalso; eapply N3; eassumption).
Qed.
Lemma stage_none : forall ph sc w, stage ph None sc w.
Proof. intros ph sc w c H. discriminate. Qed.
Lemma base_none : forall d n stt en sc w c, base d n stt en sc w -> base None n stt en sc (look w (Destroy c)).
Proof.
  intros d n stt en sc w c0 [A B C D E F]. constructor; auto. cbn [w_start w_end look].
  intros c [H|H]; [discriminate|]. apply F. auto.
Qed.

Definition may_go (x : phase) (s : st) : Prop :=
  match x with
  | Dns => p_host s <> None /\ p_timer s = false
  | Request => p_timer s = false /\ p_mod s = Running
  | RetryWait | DeniedWait => p_mod s = Running
  | Closed => p_mod s = Stopped /\ p_timer s = false
  | Redirect | Attached => False
  end.
Lemma go_inv : forall e x, triple (fun s w => idle s w /\ p_mod s <> Setup /\ may_go x s) (go e x) inv.
Proof.
  intros e x s w ((B & D & K & Q) & M & X). unfold may_go in X.
  assert (NS : forall ph sc w, stage ph None sc w) by (intros ? ? ? c H; discriminate).
  unfold go, andthen. cbn [set_state fst snd app].
  destruct x; unfold handle_state_change; cbn [p_state]; try contradiction.
  - destruct X as [X1 X2]. cbn [p_host]. destruct (p_host s) as [t|] eqn:H; [|congruence].
    split; [exact B|split].
    + unfold phase_ok. cbn. destruct (p_mod s); try congruence; repeat split; auto; try congruence; lia.
    + cbn. rewrite D. apply NS.
  - destruct X as [X1 X2]. destruct (e_create e).
    + rewrite D in B. split; [exact (base_fresh _ _ _ _ _ B)|split].
      * unfold phase_ok. cbn. rewrite X2. repeat split; auto; congruence.
      * exact (stage_fresh _ _ _ _ _ B).
    + unfold andthen. cbn [set_dtls set_state fst snd app p_next p_state].
      match goal with |- context [post QDeferred ?s0] => destruct (post_rest QDeferred s0) as [P1 P2];
         pose proof (post_dns QDeferred s0 eq_refl) as P3 end.
      destruct (post _ _) as [s1 o1]. cbn [fst snd] in *. subst o1. cbn [app fold_left fst].
      rewrite P1. cbn [p_queue] in P3. rewrite D in B. split; [exact B|split].
      * unfold phase_ok. cbn. rewrite X2, P3. auto.
      * cbn. apply NS.
  - rewrite D in B. split; [cbn; rewrite D; exact B|split].
    + unfold phase_ok. cbn. rewrite X. auto.
    + cbn. rewrite D. apply NS.
  - rewrite D in B. split; [cbn; rewrite D; exact B|split].
    + unfold phase_ok. cbn. rewrite X. auto.
    + cbn. rewrite D. apply NS.
  - destruct X as [X1 X2].
    match goal with |- context [post QClose ?s0] => destruct (post_rest QClose s0) as [P1 P2];
         pose proof (post_dns QClose s0 eq_refl) as P3 end.
    destruct (post _ _) as [s1 o1]. cbn [fst snd] in *. subst o1. cbn [app fold_left fst].
    rewrite P1. cbn [p_queue] in P3. rewrite D in B. split; [cbn; rewrite D; exact B|split].
    + unfold phase_ok. cbn. rewrite X1, P3. auto.
    + cbn. rewrite D. apply NS.
Qed.
Lemma set_triple : forall (f : act) (Q : st -> world -> Prop), (forall s, snd (f s) = []) -> triple (fun s w => Q (fst (f s)) w) f Q.
Proof. intros f Q N s w H. rewrite N. exact H. Qed.
Lemma nop_inv : forall P, triple P nop P.
Proof. intros P s w H. exact H. Qed.

Ltac ands := repeat match goal with H : _ /\ _ |- _ => destruct H end.

(** The connection is told to close. *)
Lemma base_close : forall d n stt en sc w c, base d n stt en sc w -> base d n stt en sc (look w (AsyncClose c)).
Proof. intros d n stt en sc w c [A B C D E F]. constructor; auto. Qed.
Lemma stage_close : forall ph d sc w c, stage ph d sc w -> stage ph d sc (look w (AsyncClose c)).
Proof.
  intros ph d sc w c S x H. destruct (S x H) as (A1 & A2 & A3 & A4 & A5 & A6). cbn. repeat split; auto; try (apply A1; assumption); try (apply A2; assumption); try (apply A3; assumption).
Qed.
Lemma phase_close : forall s w c, phase_ok s w -> phase_ok s (look w (AsyncClose c)).
Proof. intros s w c H. unfold phase_ok in *. cbn. destruct (p_mod s), (p_state s); tauto. Qed.

(** The invariant, but for that a connection has something to wait for. *)
Definition stage' (ph : phase) (d : option nat) (sc : option (option nat * bool)) (w : world) : Prop :=
  forall c, d = Some c ->
    (w_start w = Some c -> ph = Request /\ w_hand w = true /\ w_end w <> Some c /\ sc <> Some (Some c, true)) /\
    (w_end w = Some c -> ph = Request /\ w_hand w = true /\ sc <> Some (Some c, true)) /\
    (sc = Some (Some c, true) -> ph = Request /\ w_hand w = true) /\
    (sc = Some (Some c, false) -> ph = Attached) /\
    (w_hand w = false -> ph = Request).
Definition phase_ok' (s : st) : Prop :=
  p_dtls s <> None /\ p_mod s <> Setup /\ p_timer s = false /\ p_dns s + dns_events (p_queue s) = 0 /\
  (p_state s = Request /\ p_ka s = false \/ p_state s = Redirect /\ p_host s <> None /\ p_ka s = false \/ p_state s = Attached).
Definition due (s : st) (w : world) : Prop :=
  base (p_dtls s) (p_next s) (p_start s) (p_end s) (p_sct s) w /\ phase_ok' s /\ stage' (p_state s) (p_dtls s) (p_sct s) w.
Lemma close_due : triple due close_dtls inv.
Proof.
  intros s w (B & (P1 & P2 & P3 & P4 & P5) & S). unfold close_dtls. destruct (p_dtls s) as [c|] eqn:D; [|congruence].
  cbn [fst snd fold_left]. split; [rewrite D; apply base_close; auto|split].
  - unfold phase_ok. rewrite D. destruct (p_mod s); [congruence| |];
      (destruct P5 as [[-> ->]|[(-> & P5 & ->)| ->]]; cbn; repeat split; auto; congruence).
  - rewrite D. intros x X. destruct (S x X) as (A1 & A2 & A3 & A4 & A5). cbn. repeat split; auto; try (apply A1; assumption); try (apply A2; assumption); try (apply A3; assumption).
Qed.
Lemma inv_due : forall s w c, inv s w -> p_dtls s = Some c -> due s w.
Proof.
  intros s w c (B & P & S) D. split; auto. split.
  - unfold phase_ok in P. unfold phase_ok'. destruct (p_mod s), (p_state s); repeat split; try tauto; try congruence; ands; congruence.
  - intros x X. destruct (S x X) as (A1 & A2 & A3 & A4 & A5 & A6). repeat split; auto; try (apply A1; assumption); try (apply A2; assumption); try (apply A3; assumption).
Qed.
Lemma close_inv : triple inv close_dtls inv.
Proof.
  intros s w H. destruct (p_dtls s) as [c|] eqn:D; [apply close_due; eapply inv_due; eauto|].
  unfold close_dtls. rewrite D. exact H.
Qed.

(** The connection ends. *)
Lemma reset_inv : triple (fun s w => inv s w /\ p_dtls s <> None) reset_dtls
  (fun s w => idle s w /\ p_mod s <> Setup /\ p_timer s = false).
Proof.
  intros s w ((B & P & S) & D). destruct (p_dtls s) as [c|] eqn:E; [|congruence].
  assert (X : p_mod s <> Setup /\ p_timer s = false /\ p_dns s + dns_events (p_queue s) = 0).
  { unfold phase_ok in P. rewrite E in P. destruct (p_mod s), (p_state s); repeat split; try tauto; try congruence; ands; congruence. }
  destruct X as (X1 & X2 & X3). unfold reset_dtls, andthen. cbn [set_ka fst snd p_dtls]. rewrite E.
  cbn [set_dtls say fst snd p_state p_next app]. apply base_none with (c := c) in B.
  destruct (p_state s); cbn [app fst snd fold_left look]; (split; [split; [exact B|cbn; auto]|cbn; auto]).
Qed.


Definition half (s : st) (w : world) : Prop := due s w \/ p_dtls s = None /\ inv s w.
Lemma close_half : triple half close_dtls inv.
Proof. intros s w [H|[D H]]; [apply close_due; auto|]. unfold close_dtls. rewrite D. exact H. Qed.
Lemma inv_half : forall s w, inv s w -> half s w.
Proof. intros s w H. destruct (p_dtls s) as [c|] eqn:D; [left; eapply inv_due; eauto|right; auto]. Qed.

(** A connection on which the next request may be sent. *)
Definition ready (s : st) (w : world) : Prop :=
  due s w /\ p_state s = Request /\ w_hand w = true /\ w_start w <> p_dtls s /\ w_end w <> p_dtls s /\
  option_map fst (p_sct s) <> Some (p_dtls s).
Lemma send_start_inv : forall e, triple ready (send_start e) inv.
Proof.
  intros e s w (D & R & H & N1 & N2 & N3). unfold send_start.
  destruct (p_start s) eqn:PS; [apply close_due; auto|]. destruct (e_start e); [|apply close_due; auto].
  unfold andthen. cbn [set_start say fst snd app fold_left].
  destruct D as (B & (P1 & P2 & P3 & P4 & P5) & S). destruct (p_dtls s) as [c|] eqn:E; [|congruence].
  destruct B as [B1 B2 B3 B4 B5 B6]. split; [|split].
  - cbn. rewrite ?E. constructor; auto. cbn. intros x [X|[X|X]]; apply B6; auto.
  - unfold phase_ok. cbn. rewrite ?R, ?E. destruct (p_mod s); [congruence| |]; (rewrite R in P5; repeat split; auto; intuition congruence).
  - cbn. rewrite ?E. intros x X. injection X as <-. rewrite ?R, ?H. destruct (S c eq_refl) as (A1 & A2 & A3 & A4 & A5). repeat split; auto; try congruence.
    + intros Y. rewrite Y in N3. apply N3. reflexivity.
    + intros Y. rewrite Y in N3. exfalso. apply N3. reflexivity.
Qed.
Lemma send_end_inv : forall e, triple ready (send_end e) inv.
Proof.
  intros e s w (D & R & H & N1 & N2 & N3). unfold send_end.
  destruct (p_end s) eqn:PS; [apply close_due; auto|]. destruct (e_end e); [|apply close_due; auto].
  unfold andthen. cbn [set_end say fst snd app fold_left].
  destruct D as (B & (P1 & P2 & P3 & P4 & P5) & S). destruct (p_dtls s) as [c|] eqn:E; [|congruence].
  destruct B as [B1 B2 B3 B4 B5 B6]. split; [|split].
  - cbn. rewrite ?E. constructor; auto. cbn. intros x [X|[X|[X|X]]]; apply B6; auto.
  - unfold phase_ok. cbn. rewrite ?R, ?E. destruct (p_mod s); [congruence| |]; (rewrite R in P5; repeat split; auto; intuition congruence).
  - cbn. rewrite ?E. intros x X. injection X as <-. rewrite ?R, ?H. destruct (S c eq_refl) as (A1 & A2 & A3 & A4 & A5). repeat split; auto; try congruence; intros Y; rewrite Y in N3; exfalso; apply N3; reflexivity.
Qed.
Lemma sct_upload_inv : forall e s w, (p_state s = Attached -> inv s w) -> (p_state s = Request -> ready s w) ->
  (p_state s = Attached \/ p_state s = Request) ->
  let b := match p_state s with Request => true | _ => false end in
  fst (sct_upload e b s) = Begun -> inv (fst (snd (sct_upload e b s))) (fold_left look (snd (snd (sct_upload e b s))) w).
Proof.
  intros e s w I R ST b. unfold sct_upload. destruct (Nat.eqb (p_version s) (p_synced s)); [discriminate|].
  destruct (p_sct s) eqn:PS; [discriminate|]. destruct (e_sct e); [|discriminate]. intros _.
  unfold andthen. cbn [set_sct say fst snd app fold_left].
  destruct ST as [ST|ST]; unfold b; rewrite ST.
  - destruct (I ST) as (B & P & S). unfold phase_ok in P. rewrite ST in P.
    destruct (p_dtls s) as [c|] eqn:E; [|destruct (p_mod s); ands; congruence].
    destruct B as [B1 B2 B3 B4 B5 B6]. split; [|split].
    + cbn. rewrite ?E. constructor; auto.
      * cbn. intros x X. injection X as <-. discriminate.
      * cbn. intros x [X|[X|[X|X]]]; apply B6; auto. left. congruence.
    + unfold phase_ok. cbn. rewrite ?ST, ?E. exact P.
    + cbn. rewrite ?E. intros x X. injection X as <-. rewrite ?ST. destruct (S c eq_refl) as (A1 & A2 & A3 & A4 & A5 & A6).
      rewrite ST in *. split; [|split; [|split; [|split; [|split]]]].
      * intros Y. destruct (A1 Y). discriminate.
      * intros Y. destruct (A2 Y). discriminate.
      * discriminate.
      * reflexivity.
      * intros Y. discriminate (A5 Y).
      * discriminate.
  - destruct (R ST) as (D & _ & H & N1 & N2 & N3).
    destruct D as (B & (P1 & P2 & P3 & P4 & P5) & S). destruct (p_dtls s) as [c|] eqn:E; [|congruence].
    destruct B as [B1 B2 B3 B4 B5 B6]. split; [|split].
    + cbn. rewrite ?E. constructor; auto.
      * cbn. intros x X. injection X as <-. discriminate.
      * cbn. intros x [X|[X|[X|X]]]; apply B6; auto. left. congruence.
    + unfold phase_ok. cbn. rewrite ?ST, ?E. destruct (p_mod s); [congruence| |]; (rewrite ST in P5; repeat split; auto; intuition congruence).
    + cbn. rewrite ?E. intros x X. injection X as <-. rewrite ?ST, ?H. repeat split; auto; try congruence.
Qed.
Lemma send_attach_sct_inv : forall e, triple ready (send_attach_sct e) inv.
Proof.
  intros e s w R. unfold send_attach_sct. set (s1 := fst (set_sct (p_sct s) 0 (p_uploading s) s)).
  assert (R1 : ready s1 w) by exact R.
  pose proof (sct_upload_inv e s1 w) as U. assert (ST : p_state s1 = Request) by apply R1. rewrite ST in U.
  specialize (U ltac:(discriminate) (fun _ => R1) (or_intror eq_refl)). cbn iota zeta in U.
  destruct (sct_upload e true s1) as [u r]. destruct u.
  - apply send_end_inv. auto.
  - apply close_due. apply R1.
  - apply U. reflexivity.
Qed.
Lemma send_sct_inv : forall e, triple (fun s w => inv s w /\ p_state s = Attached) (send_sct e) inv.
Proof.
  intros e s w [I ST]. unfold send_sct. pose proof (sct_upload_inv e s w) as U. rewrite ST in U.
  specialize (U (fun _ => I) ltac:(discriminate) (or_introl eq_refl)). cbn iota zeta in U.
  unfold sct_upload in *. destruct (Nat.eqb (p_version s) (p_synced s)); [exact I|].
  destruct (p_sct s); [exact I|]. destruct (e_sct e); [|exact I]. apply U. reflexivity.
Qed.
Lemma set_then : forall (P Q : st -> world -> Prop) (a b : act) s w, triple P b Q -> snd (a s) = [] -> P (fst (a s)) w ->
  Q (fst (andthen a b s)) (fold_left look (snd (andthen a b s)) w).
Proof.
  intros P Q a b s w B N H. unfold andthen. destruct (a s) as [s1 o1]. cbn [fst snd] in *. subst o1.
  specialize (B _ _ H). destruct (b s1). exact B.
Qed.
Lemma then_say : forall (P Q : st -> world -> Prop) a x, triple P a Q -> (forall w, look w x = w) -> triple P (andthen a (say x)) Q.
Proof.
  intros P Q a x A N s w H. unfold andthen. specialize (A s w H). destruct (a s) as [s1 o1]. cbn [fst snd say] in *.
  rewrite fold_left_app. cbn. rewrite N. exact A.
Qed.
Lemma say_then : forall (P Q : st -> world -> Prop) a x, triple P a Q -> (forall w, look w x = w) -> triple P (andthen (say x) a) Q.
Proof.
  intros P Q a x A N s w H. unfold andthen. cbn [say]. specialize (A s w H). destruct (a s) as [s1 o1]. cbn [fst snd app fold_left] in *.
  rewrite N. exact A.
Qed.
Lemma reattach_inv : forall e, triple (fun s w => idle s w /\ p_mod s <> Setup /\ p_timer s = false) (reattach e) inv.
Proof.
  intros e s w (I & M & T). unfold reattach. destruct (p_mod s) eqn:PM; [congruence| |].
  - destruct (e_dns e).
    + eapply set_then; [|reflexivity|].
      * intros s0 w0 H. eapply set_then; [apply go_inv|reflexivity|exact H].
      * cbn. rewrite PM. repeat split; try apply I; auto; discriminate.
    + eapply set_then; [apply go_inv|reflexivity|].
      cbn. rewrite PM. repeat split; try apply I; auto; discriminate.
  - apply go_inv. cbn. rewrite PM. repeat split; try apply I; auto.
Qed.

Ltac idl := unfold idle; cbn; ands; repeat match goal with |- _ /\ _ => split end; try assumption; try discriminate; auto; try congruence.
Definition stepped (e : env) (o : op) (s : st) (w : world) : Prop :=
  inv (fst (step e o s)) (see w ((o, e), snd (step e o s))).
Lemma step_start : forall e s w, inv s w -> stepped e Start s w.
Proof.
  intros e s w I. unfold stepped, see. cbn [fst snd hear step]. unfold start. destruct (p_mod s) eqn:PM; [|exact I|exact I].
  destruct I as (B & P & S). unfold phase_ok in P. rewrite PM in P. ands. destruct (e_dns e).
  - eapply set_then; [|reflexivity|].
    + intros s0 w0 H4. eapply set_then; [apply then_say; [apply go_inv|reflexivity]|reflexivity|exact H4].
    + idl.
  - split; [exact B|split; [|exact S]]. unfold phase_ok. cbn. rewrite PM. auto.
Qed.
Lemma step_restart : forall e s w, inv s w -> stepped e Restart s w.
Proof.
  intros e s w I. unfold stepped, see. cbn [fst snd hear step]. unfold restart. destruct (p_mod s) eqn:PM; [exact I|exact I|].
  eapply set_then; [apply then_say; [|reflexivity]|reflexivity|].
  - instantiate (1 := fun s0 w0 => p_mod s0 = Running /\ match p_state s with Closed => idle s0 w0 /\ p_mod s0 <> Setup /\ p_timer s0 = false | _ => inv s0 w0 end).
    destruct (p_state s); try (intros s0 w0 [_ H]; exact H).
    intros s0 w0 [_ H]. apply reattach_inv. auto.
  - cbn. split; auto. destruct I as (B & P & S). unfold phase_ok in P. rewrite PM in P.
    destruct (p_state s) eqn:PS; try solve [ands; congruence];
      try solve [split; [exact B|split; [|exact S]]; unfold phase_ok; cbn; exact P].
    idl.
Qed.
Lemma do_close_inv : forall e, triple inv (do_close e) inv.
Proof.
  intros e s w I. unfold do_close. destruct (p_mod s) eqn:PM.
  - destruct I as (B & P & S). destruct (post_rest QClose s) as [P1 P2]. pose proof (post_dns QClose s eq_refl) as P3.
    destruct (post _ _) as [s1 o1]. cbn [fst snd] in *. subst o1. cbn [fold_left fst]. rewrite P1.
    split; [exact B|split; [|exact S]]. unfold phase_ok in *. cbn. rewrite PM in *. rewrite P3. exact P.
  - pose proof I as I0. destruct I as (B & P & S). unfold phase_ok in P. rewrite PM in P.
    assert (K : p_state s = Dns \/ p_state s = Request \/ p_state s = Redirect \/ p_state s = Attached -> inv (fst (set_mod Stopped s)) w).
    { intros H. split; [exact B|split; [|exact S]]. unfold phase_ok. cbn. destruct H as [H|[H|[H|H]]]; rewrite H in *; exact P. }
    destruct (p_state s) eqn:PS.
    + apply (set_then inv); [apply nop_inv|reflexivity|auto].
    + apply (set_then inv); [apply close_inv|reflexivity|auto].
    + eapply set_then; [|reflexivity|].
      * intros s0 w0 H. eapply set_then; [apply go_inv|reflexivity|]. exact H.
      * cbn. idl.
    + eapply set_then; [|reflexivity|].
      * intros s0 w0 H. eapply set_then; [apply go_inv|reflexivity|]. exact H.
      * cbn. idl.
    + apply (set_then inv); [apply nop_inv|reflexivity|auto].
    + apply (set_then inv); [apply close_inv|reflexivity|auto].
    + ands. congruence.
  - pose proof I as I0. destruct I as (B & P & S). unfold phase_ok in P. rewrite PM in P.
    assert (K : inv (fst (set_mod Stopped s)) w).
    { split; [exact B|split; [|exact S]]. unfold phase_ok. cbn. exact P. }
    destruct (p_state s) eqn:PS; try (apply (set_then inv); [first [apply nop_inv|apply close_inv]|reflexivity|exact K]); try (ands; congruence).
    apply (set_then inv); [|reflexivity|exact K]. clear -e. intros s w (B & P & S).
    destruct (post_rest QClose s) as [P1 P2]. pose proof (post_dns QClose s eq_refl) as P3.
    destruct (post _ _) as [s1 o1]. cbn [fst snd] in *. subst o1. cbn [fold_left fst]. rewrite P1.
    split; [exact B|split; [|exact S]]. unfold phase_ok in *. cbn. rewrite P3. exact P.
Qed.
Lemma step_close : forall e k s w, inv s w -> stepped e (Close k) s w.
Proof.
  intros e k s w I. unfold stepped, see. cbn [fst snd hear step]. eapply set_then; [apply do_close_inv|reflexivity|exact I].
Qed.
Lemma inv_of : forall s s' w, p_state s' = p_state s -> p_mod s' = p_mod s -> p_dtls s' = p_dtls s -> p_next s' = p_next s ->
  p_host s' = p_host s -> p_dns s' + dns_events (p_queue s') = p_dns s + dns_events (p_queue s) -> p_timer s' = p_timer s -> p_ka s' = p_ka s ->
  p_start s' = p_start s -> p_end s' = p_end s -> p_sct s' = p_sct s -> inv s w -> inv s' w.
Proof.
  intros s s' w E1 E2 E3 E4 E5 E6 E7 E8 E9 E10 E11 (B & P & S). unfold inv, phase_ok in *.
  rewrite E1, E2, E3, E4, E5, E6, E7, E8, E9, E10, E11. auto.
Qed.
Lemma due_mod : forall s w, due s w -> due (fst (set_mod Stopped s)) w.
Proof. intros s w (B & (P1 & P2 & P3 & P4 & P5) & S). split; [exact B|split; [|exact S]]. unfold phase_ok'. cbn. repeat split; auto. discriminate. Qed.
Lemma step_stop : forall e s w, inv s w -> stepped e Stop s w.
Proof.
  intros e s w I. unfold stepped, see. cbn [fst snd hear step].
  destruct (p_ka s) eqn:KA.
  - assert (X : p_state s = Attached /\ p_mod s <> Setup /\ exists c, p_dtls s = Some c).
    { destruct I as (B & P & S). unfold phase_ok in P. rewrite KA in P.
      destruct (p_mod s), (p_state s); ands; try congruence; (split; [auto|split; [congruence|]]; destruct (p_dtls s); eauto; congruence). }
    destruct X as (PS & PM & c & E). apply (set_then (fun s w => due s w /\ p_state s = Attached)); [|reflexivity|].
    + intros s0 w0 [D ST]. unfold do_close. rewrite ST. assert (N : p_mod s0 <> Setup) by apply D. destruct (p_mod s0); [congruence| |];
        (eapply set_then; [apply close_due|reflexivity|apply due_mod; exact D]).
    + split; [|exact PS]. apply inv_due with (c := c) in I; auto. destruct I as (X1 & X2 & X3).
      split; [exact X1|split; [|exact X3]]. unfold phase_ok' in *. cbn. rewrite PS in *. tauto.
  - eapply set_then; [apply do_close_inv|reflexivity|]. apply (inv_of s); auto. 
Qed.
Lemma step_token : forall e t s w, inv s w -> stepped e (AddToken t) s w.
Proof.
  intros e t s w I. unfold stepped, see. cbn [fst snd hear step]. unfold add_token. destruct (e_insert e); [|exact I].
  apply (set_then (fun s0 w0 => inv s0 w0 /\ p_state s0 = p_state s)); [|reflexivity|split; [exact I|reflexivity]].
  apply then_say; [|reflexivity]. destruct (p_state s); try (intros s0 w0 [H _]; exact H).
  intros s0 w0 H. apply send_sct_inv. exact H.
Qed.
Lemma step_synchronized : forall e s w, inv s w -> stepped e Synchronized s w.
Proof. intros e s w I. unfold stepped, see. cbn [fst snd hear step]. unfold synchronized. destruct (p_state s); exact I. Qed.
Lemma step_resolved : forall e b s w, inv s w -> stepped e (Resolved b) s w.
Proof.
  intros e b s w I. unfold stepped, see. cbn [fst snd hear step]. destruct (p_dns s) as [|n] eqn:D; [exact I|].
  assert (Q : dns_events (p_queue s) = 0).
  { destruct I as (B & P & S). unfold phase_ok in P. rewrite D in P. destruct (p_mod s), (p_state s); ands; lia. }
  unfold andthen, post. cbn [set_dns fst snd p_queue]. rewrite dns_post by auto. cbn [set_queue fst snd app fold_left p_queue].
  apply (inv_of s); auto. cbn. rewrite dns_app, dns_3, D. lia.
Qed.
Lemma step_timer : forall e s w, inv s w -> stepped e Timer s w.
Proof.
  intros e s w I. unfold stepped, see. cbn [fst snd hear step]. destruct (p_timer s) eqn:T; [|exact I].
  eapply set_then; [apply reattach_inv|reflexivity|]. destruct I as (B & P & S). unfold phase_ok in P. rewrite T in P.
  destruct (p_mod s) eqn:PM, (p_state s); ands; try congruence; idl.
Qed.
Lemma resolve_close_inv : triple inv resolve_close inv.
Proof.
  intros s w I. unfold resolve_close.
  assert (J : inv (fst (set_timer false s)) w).
  { destruct I as (B & P & S). split; [exact B|split; [|exact S]]. unfold phase_ok in *. cbn.
    destruct (p_mod s), (p_state s); ands; repeat split; auto. }
  apply (set_then inv); [|reflexivity|exact J]. destruct (p_cb s) as [k|]; [|apply nop_inv].
  intros s0 w0 H. eapply (set_then inv inv); [|reflexivity|exact H].
  intros s1 w1 H1. destruct k; exact H1.
Qed.
Lemma step_run : forall e s w, inv s w -> stepped e Run s w.
Proof.
  intros e s w I. unfold stepped, see. cbn [fst snd hear step]. destruct (p_queue s) as [|x q] eqn:Q; [exact I|].
  destruct x as [|ok|].
  - eapply set_then; [apply resolve_close_inv|reflexivity|]. apply (inv_of s); auto. cbn. rewrite Q, dns_4. reflexivity.
  - assert (X : p_state s = Dns /\ p_mod s <> Setup /\ p_timer s = false /\ p_dns s + dns_events q = 0 /\ p_dtls s = None /\ p_ka s = false).
    { destruct I as (B & P & S). unfold phase_ok in P. rewrite Q, dns_6 in P.
      destruct (p_mod s), (p_state s); ands; try lia; repeat split; auto; try congruence; lia. }
    destruct X as (PS & PM & T & E & D & K). destruct I as (B & P & S).
    apply (set_then (fun s w => idle s w /\ p_mod s <> Setup /\ p_timer s = false)); [|reflexivity|idl].
    intros s0 w0 (I0 & M0 & T0). unfold dns_resolved. destruct (p_mod s0) eqn:PM0; [congruence| |].
    + destruct ok; (apply go_inv; cbn; rewrite PM0; repeat split; try apply I0; auto; discriminate).
    + apply go_inv. cbn. rewrite PM0; repeat split; try apply I0; auto.
  - unfold andthen. cbn [set_queue fst snd].
    match goal with |- context [post QDeferred ?s0] => destruct (post_rest QDeferred s0) as [P1 P2];
       pose proof (post_dns QDeferred s0 eq_refl) as P3 end.
    destruct (post _ _) as [s1 o1]. cbn [fst snd] in *. subst o1. cbn [app fold_left fst].
    rewrite P1. apply (inv_of s); auto. cbn. rewrite P3. cbn. rewrite Q, dns_5. reflexivity.
Qed.
Lemma reset_keeps : forall s, p_mod (fst (reset_dtls s)) = p_mod s /\ p_state (fst (reset_dtls s)) = p_state s /\ p_host (fst (reset_dtls s)) = p_host s /\
  p_redirects (fst (reset_dtls s)) = p_redirects s.
Proof. intros s. unfold reset_dtls, andthen. cbn [set_ka fst snd p_dtls]. destruct (p_dtls s); cbn; destruct (p_state s); auto. Qed.
Lemma reset_then : forall (Q : st -> world -> Prop) b s w,
  (forall s1 w1, idle s1 w1 -> p_mod s1 = p_mod s -> p_mod s <> Setup -> p_timer s1 = false -> p_host s1 = p_host s -> Q (fst (b s1)) (fold_left look (snd (b s1)) w1)) ->
  inv s w -> p_dtls s <> None -> Q (fst (andthen reset_dtls b s)) (fold_left look (snd (andthen reset_dtls b s)) w).
Proof.
  intros Q b s w B I D. destruct (reset_inv s w (conj I D)) as (R1 & R2 & R3). destruct (reset_keeps s) as (K1 & K2 & K3 & _).
  unfold andthen at 1 2. destruct (reset_dtls s) as [s1 o1]. cbn [fst snd] in *.
  specialize (B _ _ R1 K1 ltac:(congruence) R3 K3). destruct (b s1) as [s2 o2]. cbn [fst snd] in *. rewrite fold_left_app. exact B.
Qed.
Lemma step_dtls : forall e c v s w, inv s w -> allowed w (Dtls c v) -> stepped e (Dtls c v) s w.
Proof.
  intros e c v s w I [A1 A2]. unfold stepped, see. cbn [fst snd step].
  assert (D : p_dtls s = Some c) by (rewrite <- A1; symmetry; apply I).
  assert (PM : p_mod s <> Setup).
  { intros PM. destruct I as (B & P & S). unfold phase_ok in P. rewrite PM in P. ands. congruence. }
  destruct v.
  - assert (R : ready s (hear w (Dtls c Handshake))).
    { specialize (A2 eq_refl). pose proof I as I0. destruct I as (B & P & S). destruct (S c D) as (H1 & H2 & H3 & H4 & H5 & H6).
      specialize (H5 A2). split.
      - apply inv_due with (c := c) in I0; auto. destruct I0 as (X1 & X2 & X3). split; [|split; [exact X2|]].
        + destruct B as [B1 B2 B3 B4 B5 B6]. constructor; auto.
        + intros x X. destruct (X3 x X) as (Y1 & Y2 & Y3 & Y4 & Y5). cbn. repeat split; auto; try discriminate; try (apply Y1; assumption); try (apply Y2; assumption); try (apply Y3; assumption).
      - split; auto. split; auto. cbn [hear w_start w_end]. rewrite D. repeat split.
        + intros X. destruct (H1 X) as (_ & X1 & _). congruence.
        + intros X. destruct (H2 X) as (_ & X1 & _). congruence.
        + destruct (p_sct s) as [[x b]|]; [|discriminate]. cbn. intros X. injection X as ->. destruct b.
          * destruct (H3 eq_refl). congruence.
          * specialize (H4 eq_refl). congruence. }
    unfold dtls_event. destruct (p_mod s) eqn:E; [congruence| |].
    + apply send_start_inv. exact R.
    + apply close_due. apply R.
  - cbn [hear]. unfold dtls_event. destruct (p_mod s) eqn:E; [congruence| |].
    + apply (reset_then inv); [|exact I|congruence]. intros s1 w1 J M N T H.
      destruct (p_state s) eqn:PS; try (apply go_inv; cbn; repeat split; try apply J; congruence).
      * exfalso. destruct I as (B & P & S). unfold phase_ok in P. rewrite E, PS in P. ands. congruence.
      * destruct (Nat.leb _ _); apply go_inv; cbn; repeat split; try apply J; try congruence.
        rewrite H. destruct I as (B & P & S). unfold phase_ok in P. rewrite E, PS in P. apply P.
    + apply (reset_then inv); [|exact I|congruence]. intros s1 w1 J M N T H. apply go_inv; cbn; repeat split; try apply J; congruence.
  - cbn [hear]. unfold dtls_event. destruct (p_mod s) eqn:E; [congruence| |];
      (apply (reset_then inv); [|exact I|congruence]; intros s1 w1 J M N T H; apply go_inv; cbn; repeat split; try apply J; congruence).
  - cbn [hear]. unfold dtls_event. destruct (p_mod s) eqn:E; [congruence| |];
      (apply (reset_then inv); [|exact I|congruence]; intros s1 w1 J M N T H).
    + eapply say_then; [apply go_inv|reflexivity|]. cbn; repeat split; try apply J; congruence.
    + apply go_inv. cbn; repeat split; try apply J; congruence.
Qed.

Lemma answer_start : forall s w a, inv s w -> half (fst (set_start None s)) (hear w (StartAnswer a)).
Proof.
  intros s w a I. destruct (p_dtls s) as [c|] eqn:D.
  - left. apply inv_due with (c := c) in I; auto. destruct I as (X1 & X2 & X3). split; [|split; [exact X2|]].
    + destruct X1 as [B1 B2 B3 B4 B5 B6]. constructor; auto. cbn. intros x [X|[X|X]]; [auto|discriminate|]. apply B6. auto.
    + intros x X. destruct (X3 x X) as (Y1 & Y2 & Y3 & Y4 & Y5). cbn. repeat split; auto; try discriminate; try (apply Y2; assumption); try (apply Y3; assumption).
  - right. split; [exact D|]. destruct I as (X1 & X2 & X3). split; [|split].
    + destruct X1 as [B1 B2 B3 B4 B5 B6]. constructor; auto. cbn. intros x [X|[X|X]]; [auto|discriminate|]. apply B6. auto.
    + exact X2.
    + cbn. rewrite D. apply stage_none.
Qed.
Lemma due_host : forall h s w, due s w -> p_state s = Request -> due (fst (set_host h s)) w.
Proof.
  intros h s w (B & (P1 & P2 & P3 & P4 & P5) & S) PS. split; [exact B|split; [|exact S]]. unfold phase_ok'. cbn.
  rewrite PS in P5. intuition congruence.
Qed.
Lemma step_start_answer : forall e a s w, inv s w -> allowed w (StartAnswer a) -> stepped e (StartAnswer a) s w.
Proof.
  intros e a s w I A. unfold stepped, see. cbn [fst snd step].
  assert (NS : p_start s = None -> inv s (hear w (StartAnswer a))).
  { intros N. destruct I as (X1 & X2 & X3). split; [|split; [exact X2|]].
    - destruct X1 as [B1 B2 B3 B4 B5 B6]. constructor; auto. cbn. intros x [X|[X|X]]; [auto|discriminate|]. apply B6. auto.
    - assert (w_start w = None) as Z. { destruct X1 as [B1 B2 B3 B4 B5 B6]. rewrite N in B2. destruct (w_start w); [discriminate|auto]. }
      intros x X. destruct (X3 x X) as (Y1 & Y2 & Y3 & Y4 & Y5 & Y6). cbn. rewrite Z in *. repeat split; auto; try discriminate; try (apply Y2; assumption); try (apply Y3; assumption). }
  destruct (p_start s) as [q|] eqn:Q; [clear NS|apply NS; auto].
  pose proof (answer_start s w a I) as HF.
  cbn in A. destruct (match a with Nothing => true | _ => false end) eqn:AN.
  - destruct a; try discriminate. unfold start_answer.
    apply (set_then half); [|reflexivity|exact HF]. intros s0 w0 H0. apply (set_then half); [|reflexivity|exact H0].
    destruct (p_mod s); apply close_half.
  - destruct A as [A|[A1 A2]]; [subst a; discriminate|].
    assert (exists c, p_dtls s = Some c) as [c D].
    { destruct I as ([B1 B2 B3 B4 B5 B6] & _). rewrite B1 in A1. destruct (p_dtls s); eauto. congruence. }
    assert (L : w_live w = Some c) by (rewrite <- D; apply I). rewrite L in A2.
    assert (R : ready (fst (set_start None s)) (hear w (StartAnswer a))).
    { destruct I as (X1 & X2 & X3). destruct (X3 c D) as (H1 & H2 & H3 & H4 & H5 & H6). destruct (H1 A2) as (K1 & K2 & K3 & K4).
      destruct HF as [HF|[HF _]]; [|cbn in HF; congruence]. split; [exact HF|]. cbn. rewrite D. repeat split; auto; try discriminate.
      destruct (p_sct s) as [[x b]|]; [|discriminate]. cbn. intros X. injection X as ->. destruct b; [congruence|]. specialize (H4 eq_refl). congruence. }
    assert (RS : p_state s = Request) by apply R.
    assert (PM : p_mod s <> Setup) by apply R.
    unfold start_answer. apply (set_then ready); [|reflexivity|exact R].
    intros s0 w0 R0. apply (set_then (fun s w => ready s w /\ forall n, a = Goto n -> p_host s <> None)).
    + destruct (p_mod s); [congruence| |].
      * destruct a; try discriminate.
        -- intros s1 w1 [R1 _]. apply send_attach_sct_inv. exact R1.
        -- intros s1 w1 (((B & (P1 & P2 & P3 & P4 & P5) & S) & R2 & R3 & R4 & R5 & R6) & H).
           apply (set_then due); [|reflexivity|].
           ++ intros s2 w2 D2. apply (set_then due); [apply close_due|reflexivity|exact D2].
           ++ split; [exact B|split].
              ** unfold phase_ok'. cbn. rewrite R2 in P5. specialize (H n eq_refl). intuition congruence.
              ** cbn. intros x X. destruct (S x X) as (Y1 & Y2 & Y3 & Y4 & Y5). rewrite X in *.
                 split; [|split; [|split; [|split]]]; intros Z; exfalso; try congruence.
                 all: apply R6; rewrite Z; reflexivity.
        -- intros s1 w1 [R1 _]. apply close_due. apply R1.
        -- apply say_then; [|reflexivity]. intros s1 w1 [R1 _]. apply close_due. apply R1.
      * intros s1 w1 [R1 _]. apply close_due. apply R1.
    + destruct a; reflexivity.
    + destruct R0 as (R1 & R2 & R3). split.
      * destruct a; try exact (conj R1 (conj R2 R3)); (split; [apply due_host; auto|exact (conj R2 R3)]).
      * intros n ->. cbn. discriminate.
Qed.

Lemma answer_end : forall s w a, inv s w -> half (fst (set_end None s)) (hear w (EndAnswer a)).
Proof.
  intros s w a I. destruct (p_dtls s) as [c|] eqn:D.
  - left. apply inv_due with (c := c) in I; auto. destruct I as (X1 & X2 & X3). split; [|split; [exact X2|]].
    + destruct X1 as [B1 B2 B3 B4 B5 B6]. constructor; auto. cbn. intros x [X|[X|[X|X]]]; [auto|auto|discriminate|]. apply B6. auto.
    + intros x X. destruct (X3 x X) as (Y1 & Y2 & Y3 & Y4 & Y5). cbn. repeat split; auto; try discriminate; try (apply Y1; assumption); try (apply Y3; assumption).
  - right. split; [exact D|]. destruct I as (X1 & X2 & X3). split; [|split].
    + destruct X1 as [B1 B2 B3 B4 B5 B6]. constructor; auto. cbn. intros x [X|[X|[X|X]]]; [auto|auto|discriminate|]. apply B6. auto.
    + exact X2.
    + cbn. rewrite D. apply stage_none.
Qed.
Lemma step_end_answer : forall e a s w, inv s w -> allowed w (EndAnswer a) -> stepped e (EndAnswer a) s w.
Proof.
  intros e a s w I A. unfold stepped, see. cbn [fst snd step].
  assert (NS : p_end s = None -> inv s (hear w (EndAnswer a))).
  { intros N. destruct I as (X1 & X2 & X3). split; [|split; [exact X2|]].
    - destruct X1 as [B1 B2 B3 B4 B5 B6]. constructor; auto. cbn. intros x [X|[X|[X|X]]]; [auto|auto|discriminate|]. apply B6. auto.
    - assert (w_end w = None) as Z. { destruct X1 as [B1 B2 B3 B4 B5 B6]. rewrite N in B3. destruct (w_end w); [discriminate|auto]. }
      intros x X. destruct (X3 x X) as (Y1 & Y2 & Y3 & Y4 & Y5 & Y6). cbn. rewrite Z in *. repeat split; auto; try discriminate; try (apply Y1; assumption); try (apply Y3; assumption). }
  destruct (p_end s) as [q|] eqn:Q; [clear NS|apply NS; auto].
  pose proof (answer_end s w a I) as HF. unfold end_answer.
  destruct a.
  - destruct A as [A|[A1 A2]]; [discriminate|].
    assert (exists c, p_dtls s = Some c) as [c D].
    { destruct I as ([B1 B2 B3 B4 B5 B6] & _). rewrite B1 in A1. destruct (p_dtls s); eauto. congruence. }
    assert (L : w_live w = Some c) by (rewrite <- D; apply I). rewrite L in A2.
    destruct (p_mod s) eqn:PM.
    + exfalso. destruct I as (X1 & X2 & X3). unfold phase_ok in X2. rewrite PM in X2. ands. congruence.
    + eapply set_then; [|reflexivity|].
      * intros s0 w0 H0. eapply set_then; [|reflexivity|].
        -- apply (seq (fun s w => inv (fst (set_state Attached s)) w) (fun s w => inv s w /\ p_state s = Attached) inv).
           ++ intros s1 w1 H1. split; [exact H1|reflexivity].
           ++ apply say_then; [apply send_sct_inv|reflexivity].
        -- exact H0.
      * destruct I as (X1 & X2 & X3). destruct (X3 c D) as (H1 & H2 & H3 & H4 & H5 & H6). destruct (H2 A2) as (K1 & K2 & K3).
        unfold phase_ok in X2. rewrite PM, K1 in X2. ands. split; [|split].
        -- destruct X1 as [B1 B2 B3 B4 B5 B6]. constructor; auto. cbn. intros x [X|[X|[X|X]]]; [auto|auto|discriminate|]. apply B6. auto.
        -- unfold phase_ok. cbn. rewrite PM. auto.
        -- cbn. rewrite D. intros x X. injection X as <-. cbn. split; [|split; [|split; [|split; [|split]]]]; try discriminate; try congruence.
           intros Z. destruct (H1 Z) as (_ & _ & Z1 & _). congruence.
    + apply (set_then half); [apply close_half|reflexivity|exact HF].
  - apply (set_then half); [apply close_half|reflexivity|exact HF].
Qed.

Lemma base_up : forall d n stt en sc w ok, base d n stt en sc w -> base d n stt en None (hear w (UploadAnswer ok)).
Proof. intros d n stt en sc w ok [B1 B2 B3 B4 B5 B6]. constructor; auto; cbn; try discriminate. intros x [X|[X|[X|X]]]; try discriminate; auto. Qed.
Lemma answer_up : forall s w a u v, inv s w -> half (fst (set_sct None u v s)) (hear w (UploadAnswer a)).
Proof.
  intros s w a u v I. destruct (p_dtls s) as [c|] eqn:D.
  - left. apply inv_due with (c := c) in I; auto. destruct I as (X1 & X2 & X3). split; [|split; [exact X2|]].
    + eapply base_up. exact X1.
    + intros x X. destruct (X3 x X) as (Y1 & Y2 & Y3 & Y4 & Y5). cbn. repeat split; auto; try discriminate; try (apply Y1; assumption); try (apply Y2; assumption).
  - right. split; [exact D|]. destruct I as (X1 & X2 & X3). split; [|split].
    + eapply base_up. exact X1.
    + exact X2.
    + cbn. rewrite D. apply stage_none.
Qed.
Lemma step_up_answer : forall e a s w, inv s w -> allowed w (UploadAnswer a) -> stepped e (UploadAnswer a) s w.
Proof.
  intros e a s w I A. unfold stepped, see. cbn [fst snd step].
  destruct (p_sct s) as [[q b]|] eqn:Q.
  - pose proof (fun u v => answer_up s w a u v I) as HF. unfold upload_answer. destruct b.
    + (* attaching *)
      assert (R : a = true -> forall u v, ready (fst (set_sct None u v s)) (hear w (UploadAnswer a))).
      { intros -> u v. destruct A as [A|[A1 [l A2]]]; [discriminate|]. destruct I as (X1 & X2 & X3).
        destruct (p_dtls s) as [c|] eqn:D; [|exfalso; apply A1; apply X1].
        assert (q = Some c). { destruct X1 as [B1 B2 B3 B4 B5 B6]. rewrite B1 in A2. rewrite Q, A2 in B4. cbn in B4. congruence. } subst q.
        destruct (X3 c eq_refl) as (H1 & H2 & H3 & H4 & H5 & H6). destruct (H3 Q) as (K1 & K2).
        destruct (HF u v) as [HF1|[HF1 _]]; [|cbn in HF1; congruence].
        split; [exact HF1|]. cbn. rewrite D. repeat split; auto; try discriminate.
        - intros Z. destruct (H1 Z) as (_ & _ & _ & Z1). congruence.
        - intros Z. destruct (H2 Z) as (_ & _ & Z1). congruence. }
      destruct a.
      * destruct (p_mod s); (eapply set_then; [first [apply send_end_inv|apply close_half]|reflexivity|first [apply R; reflexivity|apply HF]]).
      * destruct (p_mod s); (eapply set_then; [apply close_half|reflexivity|apply HF]).
    + assert (J : forall u v, inv (fst (set_sct None u v s)) (hear w (UploadAnswer a))).
      { intros u v. destruct I as (X1 & X2 & X3). split; [eapply base_up; exact X1|split; [exact X2|]].
        intros x X. destruct (X3 x X) as (Y1 & Y2 & Y3 & Y4 & Y5 & Y6). cbn. repeat split; auto; try discriminate; try (apply Y1; assumption); try (apply Y2; assumption).
        intros Z. specialize (Y6 Z). rewrite Q in Y6. intuition discriminate. }
      destruct a; [|eapply set_then; [apply nop_inv|reflexivity|apply J]].
      eapply set_then; [apply send_sct_inv|reflexivity|]. split; [apply J|]. cbn.
      destruct A as [A|[A1 [l A2]]]; [discriminate|]. destruct I as (X1 & X2 & X3).
      destruct (p_dtls s) as [c|] eqn:D; [|exfalso; apply A1; apply X1].
      assert (q = Some c). { destruct X1 as [B1 B2 B3 B4 B5 B6]. rewrite B1 in A2. rewrite Q, A2 in B4. cbn in B4. congruence. } subst q.
      destruct (X3 c eq_refl) as (H1 & H2 & H3 & H4 & H5 & H6). auto.
  - cbn [fst snd fold_left]. destruct I as (X1 & X2 & X3). split; [rewrite Q; eapply base_up; exact X1|split; [exact X2|]]. exact X3.
Qed.
Lemma step_lost : forall e s w, inv s w -> stepped e KeepAliveLost s w.
Proof.
  intros e s w I. unfold stepped, see. cbn [fst snd hear step]. destruct (p_ka s) eqn:KA; [|exact I].
  assert (X : p_state s = Attached /\ exists c, p_dtls s = Some c).
  { destruct I as (B & P & S). unfold phase_ok in P. rewrite KA in P.
    destruct (p_mod s), (p_state s); ands; try congruence; (split; [auto|]; destruct (p_dtls s); eauto; congruence). }
  destruct X as (PS & c & E). apply (set_then due); [|reflexivity|].
  - intros s0 w0 D. pose proof (close_due s0 w0 D) as X. unfold close_dtls in X. destruct (p_dtls s0) eqn:E0; auto.
  - apply inv_due with (c := c) in I; auto. destruct I as (X1 & X2 & X3).
    split; [exact X1|split; [|exact X3]]. unfold phase_ok' in *. cbn. rewrite PS in *. tauto.
Qed.
Lemma step_inv : forall e o s w, inv s w -> allowed w o -> inv (fst (step e o s)) (see w ((o, e), snd (step e o s))).
Proof.
  intros e o s w I A. destruct o.
  - apply step_start; auto.
  - apply step_restart; auto.
  - apply step_close; auto.
  - apply step_stop; auto.
  - apply step_token; auto.
  - apply step_synchronized; auto.
  - apply step_resolved; auto.
  - apply step_run; auto.
  - apply step_timer; auto.
  - apply step_dtls; auto.
  - apply step_start_answer; auto.
  - apply step_up_answer; auto.
  - apply step_end_answer; auto.
  - apply step_lost; auto.
Qed.

(** ** What is known at each step *)
Definition known (s : st) (w : world) (o : op) : Prop :=
  match o with
  | Dtls c v => p_dtls s = Some c /\ p_mod s <> Setup /\ (p_state s = Request \/ p_state s = Redirect \/ p_state s = Attached) /\
                (p_state s = Redirect -> p_host s <> None) /\
                (v = Handshake -> p_state s = Request /\ w_hand w = false)
  | StartAnswer a => a <> Nothing -> exists c, p_dtls s = Some c /\ p_mod s <> Setup /\ p_state s = Request /\ w_start w = Some c
  | EndAnswer ok => ok = true -> exists c, p_dtls s = Some c /\ p_mod s <> Setup /\ p_state s = Request /\ w_end w = Some c
  | UploadAnswer ok => ok = true -> exists c b l, p_dtls s = Some c /\ p_mod s <> Setup /\ p_sct s = Some (Some c, b) /\ w_up w = Some (Some c, l) /\
                p_state s = (if b then Request else Attached)
  | Run => match p_queue s with QDns _ :: q => p_state s = Dns /\ p_mod s <> Setup /\ p_dtls s = None /\ p_dns s = 0 /\ dns_events q = 0 /\ p_timer s = false | _ => True end
  | Timer => p_timer s = true -> (p_state s = RetryWait \/ p_state s = DeniedWait) /\ p_mod s = Running /\ p_dtls s = None /\ p_dns s = 0
  | KeepAliveLost => p_ka s = true -> p_state s = Attached /\ p_mod s <> Setup /\ p_dtls s <> None
  | Resolved _ => p_dns s <> 0 -> p_state s = Dns /\ p_mod s <> Setup /\ p_dns s = 1 /\ p_dtls s = None /\ dns_events (p_queue s) = 0
  | Restart => p_state s = Closed -> p_dtls s = None /\ p_dns s = 0
  | Start => p_mod s = Setup -> p_state s = Dns /\ p_dtls s = None /\ p_dns s = 0
  | _ => True
  end.
Lemma inv_live : forall s w c, inv s w -> p_dtls s = Some c -> p_mod s <> Setup /\ (p_state s = Request \/ p_state s = Redirect \/ p_state s = Attached) /\
                (p_state s = Redirect -> p_host s <> None).
Proof.
  intros s w c I D. destruct (inv_due s w c I D) as (_ & (P1 & P2 & P3 & P4 & P5) & _). repeat split; auto; intuition congruence.
Qed.
Lemma what_is_known : forall s w o, inv s w -> allowed w o -> known s w o.
Proof.
  intros s w o I A. pose proof (inv_live s w) as IL. destruct o; cbn in *; auto.
  - intros C. destruct I as (B & P & S). unfold phase_ok in P. rewrite C in P. ands. repeat split; auto; lia.
  - intros C. destruct I as (B & P & S). unfold phase_ok in P. rewrite C in P. destruct (p_mod s); ands; try congruence; split; auto; lia.
  - intros N. destruct I as (B & P & S). unfold phase_ok in P. destruct (p_mod s), (p_state s); ands; try lia; repeat split; auto; try congruence; lia.
  - destruct (p_queue s) as [|[|x|] q] eqn:Q; auto. destruct I as (B & P & S). unfold phase_ok in P. rewrite Q, dns_6 in P.
    destruct (p_mod s), (p_state s); ands; try lia; repeat split; auto; try congruence; lia.
  - intros T. destruct I as (B & P & S). unfold phase_ok in P. rewrite T in P. destruct (p_mod s), (p_state s); ands; try congruence; repeat split; auto; lia.
  - destruct A as [A1 A2]. assert (D : p_dtls s = Some c) by (rewrite <- A1; symmetry; apply I). destruct (IL c I D) as (X1 & X2 & X3).
    repeat split; auto; try (apply X3; auto). destruct I as (B & P & S). destruct (S c D) as (_ & _ & _ & _ & X & _). apply X. auto.
  - intros N. destruct A as [A|[A1 A2]]; [congruence|]. destruct (w_live w) as [c|] eqn:L; [|congruence].
    assert (D : p_dtls s = Some c) by (rewrite <- L; symmetry; apply I). destruct (IL c I D) as (X1 & X2 & X3). exists c.
    repeat split; auto. destruct I as (B & P & S). destruct (S c D) as (X & _). apply X. auto.
  - intros N. destruct A as [A|[A1 [l A2]]]; [congruence|]. destruct (w_live w) as [c|] eqn:L; [|congruence].
    assert (D : p_dtls s = Some c) by (rewrite <- L; symmetry; apply I). destruct (IL c I D) as (X1 & X2 & X3).
    destruct I as (B & P & S). pose proof (v_sct _ _ _ _ _ _ B) as V. rewrite A2 in V. destruct (p_sct s) as [[x b]|] eqn:Q; [|discriminate].
    injection V as ->. exists c, b, l. repeat split; auto. destruct (S c D) as (_ & _ & H3 & H4 & _). destruct b; [apply H3|apply H4]; auto.
  - intros N. destruct A as [A|[A1 A2]]; [congruence|]. destruct (w_live w) as [c|] eqn:L; [|congruence].
    assert (D : p_dtls s = Some c) by (rewrite <- L; symmetry; apply I). destruct (IL c I D) as (X1 & X2 & X3). exists c.
    repeat split; auto. destruct I as (B & P & S). destruct (S c D) as (_ & X & _). apply X. auto.
  - intros KA. destruct I as (B & P & S). unfold phase_ok in P. rewrite KA in P.
    destruct (p_mod s), (p_state s); ands; try congruence; repeat split; auto; congruence.
Qed.

Lemma run_keeps : forall (G : Type) (upd : G -> move * list out -> G) (K : st -> world -> G -> Prop) (ok : move -> bool),
  (forall e o s w g, ok (o, e) = true -> inv s w -> allowed w o -> known s w o -> K s w g ->
    K (fst (step e o s)) (see w ((o, e), snd (step e o s))) (upd g ((o, e), snd (step e o s)))) ->
  forall h s w g, forallb ok h = true -> inv s w -> obeys s w h -> K s w g ->
    inv (fst (run s h)) (fold_left see (snd (run s h)) w) /\
    K (fst (run s h)) (fold_left see (snd (run s h)) w) (fold_left upd (snd (run s h)) g).
Proof.
  intros G upd K ok ST. induction h as [|[o e] h IH]; intros s w g O I A H; [auto|].
  cbn in O. apply andb_prop in O. destruct O as [O1 O2]. destruct A as [A1 A2].
  pose proof (step_inv e o s w I A1) as I1. pose proof (ST e o s w g O1 I A1 (what_is_known _ _ _ I A1) H) as K1.
  cbn [run]. destruct (step e o s) as [s1 l]. cbn [fst snd] in *. specialize (IH s1 _ _ O2 I1 A2 K1). destruct (run s1 h) as [s2 t]. cbn in *. exact IH.
Qed.
Lemma run_inv : forall h s w, inv s w -> obeys s w h -> inv (fst (run s h)) (fold_left see (snd (run s h)) w).
Proof.
  intros h s w I A. apply (run_keeps unit (fun g _ => g) (fun _ _ _ => True) (fun _ => true)); auto.
  - exact tt.
  - apply forallb_forall. auto.
Qed.

