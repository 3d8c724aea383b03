(** * C96: announcing the device and answering discovery queries *)
From Coq Require Import List Arith NArith Bool Lia.
From Verif Require Import MdnsModel MdnsSpec MdnsProofs MdnsProofs2 MdnsProofs3.
Import ListNotations.

Notation at_ l := (fst (run l)).
Notation trace l := (snd (run l)).
Notation outs l o := (snd (step (fst (run l)) o)).

Lemma serve_state : forall l p n, wish_of l = Serve p n ->
  state (at_ l) = Running /\ port (at_ l) = p /\ info (at_ l) = n /\ closing (at_ l) = None.
Proof. intros l p n H. assert (I := I_wish _ _ _ (inv_run l)). rewrite H in I. exact I. Qed.

Ltac ins :=
  repeat match goal with
    | H : _ \/ _ |- _ => destruct H
    | H : False |- _ => destruct H
    | H : Sent _ _ _ = Sent _ _ _ |- _ => inversion H; subst; clear H
    | H : Binding _ = Sent _ _ _ |- _ => discriminate
    | H : Listen _ = Sent _ _ _ |- _ => discriminate
    | H : Resolved _ _ = Sent _ _ _ |- _ => discriminate
    end.

(** Every packet which leaves the device carries the local addresses of that
    moment and the port and description last published: announcements and
    answers only while the service is published, goodbyes only once it is
    withdrawn. *)
Theorem C96_content : forall l o f d p,
  In (Sent f d p) (outs l o) -> Faithful (wish_of (l ++ [o])) p /\ p_ips p = ips_of o.
Proof.
  intros l o f d p H. rewrite wish_snoc. assert (Hw := I_wish _ _ _ (inv_run l)).
  assert (Hc := I_clo _ _ _ (inv_run l)).
  destruct (run l) as [s x]. cbn [fst snd] in *. clear x.
  revert H. unfold Faithful. destruct (wish_of l) as [|pw nw|pw nw|[[pw nw]|]]; cbn [Follows] in Hw.
  - subst s. destruct o; try destruct f0; cbn; intuition (try discriminate).
  - destruct s as [y pp nn i j c ph q]. cbn in Hw. destruct Hw as (-> & -> & -> & ->).
    unfold Closing in Hc. cbn in Hc. destruct Hc as (-> & _).
    destruct o; try destruct f0; open_step; cases; cbn; intros H;
      ins; cbn in *; try discriminate; auto.
  - destruct s as [y pp nn i j c ph q]. cbn in Hw. destruct Hw as (-> & -> & ->).
    destruct o; try destruct f0; open_step; cases; cbn; intros H;
      ins; cbn in *; try discriminate; auto.
  - destruct s as [y pp nn i j c ph q]. cbn in Hw. destruct Hw as (-> & -> & ->).
    destruct o; try destruct f0; open_step; cases; cbn; intros H;
      ins; cbn in *; try discriminate; auto.
  - destruct s as [y pp nn i j c ph q]. cbn in Hw. destruct Hw as (-> & ->).
    unfold Closing in Hc. cbn in Hc. destruct Hc as (-> & _).
    destruct o; try destruct f0; open_step; cases; cbn; intros H;
      repeat match goal with
      | H : _ \/ _ |- _ => destruct H
      | H : False |- _ => destruct H
      | H : Listen _ = Sent _ _ _ |- _ => discriminate
      | H : Resolved _ _ = Sent _ _ _ |- _ => discriminate
      end.
Qed.
Print Assumptions C96_content.

(** The server asks for packets only while the service is published. *)
Theorem C96_listen_published : forall l o f,
  In (Listen f) (outs l o) -> exists p n, wish_of (l ++ [o]) = Serve p n.
Proof.
  intros l o f H. rewrite wish_snoc. assert (Hw := I_wish _ _ _ (inv_run l)).
  assert (Hc := I_clo _ _ _ (inv_run l)).
  destruct (run l) as [s x]. cbn [fst snd] in *. clear x.
  revert H. destruct (wish_of l) as [|pw nw|pw nw|[[pw nw]|]]; cbn [Follows] in Hw.
  - subst s. destruct o; try destruct f0; cbn; intuition (try discriminate).
  - destruct s as [y pp nn i j c ph q]. cbn in Hw. destruct Hw as (-> & -> & -> & ->).
    unfold Closing in Hc. cbn in Hc. destruct Hc as (-> & _).
    destruct o; try destruct f0; open_step; cases; cbn; intros H;
      try (eexists; eexists; reflexivity);
      repeat (destruct H as [H|H]; try discriminate); destruct H.
  - destruct s as [y pp nn i j c ph q]. cbn in Hw. destruct Hw as (-> & -> & ->).
    destruct o; try destruct f0; open_step; cases; cbn; intros H;
      repeat (destruct H as [H|H]; try discriminate); destruct H.
  - destruct s as [y pp nn i j c ph q]. cbn in Hw. destruct Hw as (-> & -> & ->).
    destruct o; try destruct f0; open_step; cases; cbn; intros H;
      repeat (destruct H as [H|H]; try discriminate); destruct H.
  - destruct s as [y pp nn i j c ph q]. cbn in Hw. destruct Hw as (-> & ->).
    unfold Closing in Hc. cbn in Hc. destruct Hc as (-> & _).
    destruct o; try destruct f0; open_step; cases; cbn; intros H;
      repeat (destruct H as [H|H]; try discriminate); destruct H.
Qed.
Print Assumptions C96_listen_published.

(** Packets other than goodbyes have a reason: the announcement, to the
    multicast group when the socket has been opened, or the answer to a query
    for the service, with its id, to the group or to the asker. *)
Theorem C96_reason : forall l o f d p,
  In (Sent f d p) (outs l o) -> p_goodbye p = false ->
  (exists v, o = OpenDone f EOk v /\ d = Group /\ p_id p = 0 /\ p_unicast p = false) \/
  (exists ep sport v, o = RecvDone f EOk true (RPacket (Some (p_id p)) ep sport) v /\
     d = reply_dest ep sport /\ p_unicast p = negb (sport =? 5353)%N).
Proof.
  intros l o f d p. destruct (run l) as [s x]. cbn [fst snd]. clear x.
  destruct s as [y pp nn i j c ph q].
  destruct o as [p' n'| |g e v|g e mem r v|g e|c' v|v|]; try destruct g; open_step; cases; cbn; intros H Hg;
    ins; cbn in *; try discriminate.
  all: try (left; eexists; repeat split; reflexivity).
  all: right; eexists; eexists; eexists; split; [reflexivity|]; unfold reply_dest.
  all: repeat match goal with |- context [(?a =? ?b)%N] => destruct (a =? b)%N; cbn in * end;
    try discriminate; auto.
Qed.
Print Assumptions C96_reason.

(** A query for the published service which arrives is answered at once,
    as long as there is memory and the packet fits.  No other packet is. *)
Theorem C96_answer : forall l f p n id ep sport v,
  wish_of l = Serve p n -> 0 < p -> good v -> waiting (get (at_ l) f) = true ->
  outs l (RecvDone f EOk true (RPacket (Some id) ep sport) v) =
    [Sent f (reply_dest ep sport) (PK n p (e_ips v) id (negb (sport =? 5353)%N) false)].
Proof.
  intros l f p n id ep sport v Hw Hp (Hm & Hf) Hwt.
  destruct (serve_state l p n Hw) as (Hs & Hpo & Hi & _).
  assert (I := inv_run l). assert (L4 := I_l4 _ _ _ I). assert (L6 := I_l6 _ _ _ I). assert (B := I_busy _ _ _ I Hs f).
  destruct (run l) as [s x]. cbn [fst snd] in *. destruct s as [y pp nn i j c ph q].
  cbn in Hs, Hpo, Hi. subst y pp nn.
  apply Nat.ltb_lt in Hp. unfold outstanding in B.
  destruct f; cbn in *; rewrite Hwt in *; cbn;
  unfold recv_done, send_packet, is_running, idle; cbn;
  [destruct (sending i) | destruct (sending j)];
    try (destruct B as [B|[B _]]; lia);
    rewrite Hp, Hm, Hf; cbn; unfold reply_dest; destruct (sport =? 5353)%N; reflexivity.
Qed.
Print Assumptions C96_answer.

(** The service is announced as soon as a socket is open. *)
Theorem C96_announce : forall l f p n v,
  wish_of l = Serve p n -> 0 < p -> good v -> opening (get (at_ l) f) = true ->
  outs l (OpenDone f EOk v) = [Sent f Group (PK n p (e_ips v) 0 false false)].
Proof.
  intros l f p n v Hw Hp (Hm & Hf) Hwt.
  destruct (serve_state l p n Hw) as (Hs & Hpo & Hi & _).
  assert (I := inv_run l). assert (B := I_busy _ _ _ I Hs f).
  destruct (run l) as [s x]. cbn [fst snd] in *. destruct s as [y pp nn i j c ph q].
  cbn in Hs, Hpo, Hi. subst y pp nn.
  apply Nat.ltb_lt in Hp. unfold outstanding in B.
  destruct f; cbn in *; rewrite Hwt in *; cbn;
  unfold opened, send_packet, is_running, idle; cbn;
  [destruct (sending i) | destruct (sending j)];
    try (destruct B as [B|[B _]]; lia);
    rewrite Hp, Hm, Hf; cbn; reflexivity.
Qed.
Print Assumptions C96_announce.

(** While the service is published, each family has exactly one operation
    outstanding at the platform (opening, sending or waiting for a packet), in
    particular the server keeps listening - unless its socket could not be
    opened or receiving reported an error.  Allocation failures, packets
    which do not fit and failed sends do not end the service. *)
Theorem C96_listening_partial : forall l f p n,
  wish_of l = Serve p n ->
  outstanding (at_ l) f <= 1 /\ (broken f l = false -> outstanding (at_ l) f = 1).
Proof.
  intros l f p n Hw. destruct (serve_state l p n Hw) as (Hs & _).
  destruct (I_busy _ _ _ (inv_run l) Hs f) as [E|[E Hb]]; rewrite E; split; auto; congruence.
Qed.
Print Assumptions C96_listening_partial.

Definition Deaf (f : fam) (s : st) : Prop :=
  state s <> New /\ opening (get s f) = false /\ waiting (get s f) = false /\ sending (get s f) <> Some false.

Lemma deaf_step : forall f s o, Deaf f s ->
  Deaf f (fst (step s o)) /\
  (forall d p, In (Sent f d p) (snd (step s o)) -> p_goodbye p = true) /\ ~ In (Listen f) (snd (step s o)).
Proof.
  intros f [y pp nn [a1 a2 a3 a4] [b1 b2 b3 b4] c ph q] o (H0 & H1 & H2 & H3).
  unfold Deaf in *.
  destruct f; cbn in *; [destruct a2 as [[]|] | destruct b2 as [[]|]]; try congruence; subst; clear H3;
  destruct y; try congruence; clear H0;
  destruct o as [p' n'| |g e v|g e mem r v|g e|c' v|v|]; try destruct g; open_step; cases; cbn in *;
  repeat split; intros; auto; try discriminate; try congruence; ins; subst; auto; intuition (try discriminate).
Qed.

(** ... but one such error silences the family for good: there is a
    published service, with a port, which never again announces or answers
    on IPv4 whatever happens later. *)
Theorem C96_listening_refuted : exists l p n,
  wish_of l = Serve p n /\ 0 < p /\
  forall l' d k, In (Sent V4 d k) (snd (runs (at_ l) l')) -> p_goodbye k = true.
Proof.
  exists [Publish 55 1; OpenDone V4 EOk (EV true true [1]); SendDone V4 EOk;
          RecvDone V4 EOk true RErr (EV true true [1])], 55, 1.
  split; [reflexivity|]. split; [lia|].
  assert (G : forall l' s, Deaf V4 s -> forall d k, In (Sent V4 d k) (snd (runs s l')) -> p_goodbye k = true).
  { induction l' as [|o l' IH]; intros s H d k; cbn [runs]; [intros []|].
    destruct (deaf_step V4 s o H) as (H1 & H2 & _).
    destruct (step s o) as [s1 x]. cbn [fst snd] in *. specialize (IH s1 H1 d k).
    destruct (runs s1 l') as [s2 z]. cbn [snd] in *. intros Hin. apply in_app_or in Hin.
    destruct Hin; eauto. }
  intros l'. apply G. unfold Deaf. vm_compute. repeat split; discriminate.
Qed.
Print Assumptions C96_listening_refuted.

(** While an announcement or answer is being sent nothing overwrites the
    address of the asker it is sent to, and nothing else is outstanding. *)
Theorem C96_reply_target : forall l f o,
  sending (get (at_ l) f) = Some false ->
  outstanding (at_ l) f = 1 /\
  recv_ep (get (fst (step (at_ l) o)) f) = recv_ep (get (at_ l) f).
Proof.
  intros l f o H.
  assert (I := inv_run l). assert (L4 := I_l4 _ _ _ I). assert (L6 := I_l6 _ _ _ I).
  destruct (run l) as [s x]. cbn [fst snd] in *. clear I x.
  destruct s as [y pp nn [a1 a2 a3 a4] [b1 b2 b3 b4] c ph q]. unfold outstanding.
  unfold Lone in *. destruct f; cbn in *; subst.
  - destruct L4 as (L4 & _). destruct (L4 eq_refl). subst. split; [reflexivity|].
    destruct o as [p' n'| |g e v|g e mem r v|g e|c' v|v|]; try destruct g; open_step; cases; reflexivity.
  - destruct L6 as (L6 & _). destruct (L6 eq_refl). subst. split; [reflexivity|].
    destruct o as [p' n'| |g e v|g e mem r v|g e|c' v|v|]; try destruct g; open_step; cases; reflexivity.
Qed.
Print Assumptions C96_reply_target.

(** Each close is answered at most once, and exactly once as soon as the
    platform has completed the sends and dispatched the events. *)
Theorem C96_close_once : forall l c,
  answered c (trace l) <= asked c l /\ (Settled (at_ l) -> answered c (trace l) = asked c l).
Proof.
  intros l c. assert (I := inv_run l). assert (A := I_ans _ _ _ I c). split; [lia|].
  intros (H4 & H6 & Hq). assert (Hc := I_clo _ _ _ I). unfold Closing, byeing in Hc. rewrite H4, H6, Hq in Hc.
  destruct (closing (at_ l)); [|lia]. destruct (phase (at_ l)), Hc; discriminate.
Qed.
Print Assumptions C96_close_once.

(** At most one goodbye per family ever, and none unless the server was
    closed. *)
Theorem C96_goodbye_once : forall l f,
  count (is_bye f) (trace l) <= 1 /\
  (forall p n, wish_of l = Serve p n -> count (is_bye f) (trace l) = 0).
Proof.
  intros l f. assert (I := inv_run l). assert (B := I_bye _ _ _ I). unfold Byes in B. split.
  - destruct (state (at_ l)); destruct f; lia.
  - intros p n H. destruct (serve_state l p n H) as (Hs & _). rewrite Hs in B. destruct f; tauto.
Qed.
Print Assumptions C96_goodbye_once.

(** Closing a published service says goodbye on IPv4 at once, provided
    nothing is being sent there. *)
Theorem C96_goodbye_v4_partial : forall l c p n v,
  wish_of l = Serve p n -> 0 < p -> good v -> sending (i4 (at_ l)) = None ->
  outs l (Close c v) = [Sent V4 Group (PK n p (e_ips v) 0 false true)].
Proof.
  intros l c p n v Hw Hp (Hm & Hf) Hi4. destruct (serve_state l p n Hw) as (Hs & Hpo & Hi & Hc).
  destruct (run l) as [s x]. cbn [fst snd] in *. destruct s as [y pp nn i j cc ph q].
  cbn in *. subst. unfold close, close_instance, is_running, idle. cbn. rewrite Hi4, Hm, Hf.
  destruct p; [lia|reflexivity].
Qed.
Print Assumptions C96_goodbye_v4_partial.

Definition Byed (s : st) (x : list out) : Prop :=
  closing s <> None -> phase s = V6 ->
  byeing (i6 s) = true \/ inst_closed s = Some EOk -> count (is_bye V6) x = 1.

Lemma byed_step : forall l s x o, Inv l s x -> Byed s x ->
  Byed (fst (step s o)) (x ++ snd (step s o)).
Proof.
  intros l s x o I H. assert (I2 := inv_step l s x o I).
  assert (B := I_bye _ _ _ I). assert (C := I_clo _ _ _ I). assert (B2 := I_bye _ _ _ I2).
  assert (HN : state s = New -> s = init).
  { intros HN. assert (Hw := I_wish _ _ _ I). destruct (wish_of l) as [|p n|p n|[[p n]|]]; cbn in Hw; try tauto; destruct Hw as (Hw & _); congruence. }
  assert (HR : state s = Running -> closing s = None).
  { intros HR. assert (Hw := I_wish _ _ _ I). destruct (wish_of l) as [|p n|p n|[[p n]|]]; cbn in Hw; try (destruct Hw as (Hw & _); congruence); try tauto.
    subst s. reflexivity. }
  clear I I2. destruct s as [y pp nn [a1 a2 a3 a4] [b1 b2 b3 b4] c ph q].
  destruct c as [d|].
  - unfold Byed, Closing, byeing, Byes in *. cbn in *.
    destruct y; [discriminate (HN eq_refl)|discriminate (HR eq_refl)| |]; clear HN HR;
    destruct q as [z|], ph; cbn in *;
    destruct a2 as [[]|]; try (destruct C; discriminate); destruct b2 as [[]|]; try (destruct C; discriminate);
    revert B2; destruct o as [p' n'| |g e v|g e mem r v|g e|c' v|v|]; try destruct g; open_step; cases; cbn in *;
    rewrite ?app_nil_r, ?count_app; cbn; intros B2 K1 K2 K3; try congruence; try discriminate;
    try (destruct K3; discriminate);
    try (rewrite (H K1 K2 K3)); try lia;
    try (destruct B as (_ & _ & B); rewrite (B K1 eq_refl); reflexivity); auto.
  - unfold Byed, Closing, byeing, Byes in *. cbn in *. destruct C as (-> & C4 & C6).
    clear H B B2 HR.
    clear HN; destruct y;
    destruct a2 as [[]|]; try discriminate; destruct b2 as [[]|]; try discriminate;
    destruct o as [p' n'| |g e v|g e mem r v|g e|c' v|v|]; try destruct g; open_step; cases; cbn in *;
    intros K1 K2 K3; try congruence; try discriminate.
Qed.

Lemma byed_run : forall l, Byed (at_ l) (trace l).
Proof.
  induction l as [|o l IH] using rev_ind; [intros H; exfalso; apply H; reflexivity|].
  rewrite run_snoc. assert (I := inv_run l). destruct (run l) as [s x]. cbn [fst snd] in *.
  assert (H := byed_step l s x o I IH). destruct (step s o) as [s1 y]. exact H.
Qed.

(** When the close of a published service is answered OK - that is, later
    than the call itself - the goodbye has gone out on IPv6. *)
Theorem C96_goodbye_v6_partial : forall l o c,
  In (Resolved c EOk) (outs l o) -> (forall v, o <> Close c v) ->
  count (is_bye V6) (trace l) = 1.
Proof.
  intros l o c H Ho. assert (B := byed_run l). unfold Byed in B.
  destruct (run l) as [s x]. cbn [fst snd] in *.
  destruct s as [y pp nn i j cc ph q]. cbn in B. revert H.
  destruct o as [p' n'| |g e v|g e mem r v|g e|c' v|v|]; try destruct g; open_step; cases; cbn; intros H;
    repeat match goal with
    | H : _ \/ _ |- _ => destruct H
    | H : False |- _ => destruct H
    end; try discriminate; ins; try discriminate.
  all: match goal with H : Resolved _ _ = Resolved _ _ |- _ => injection H; intros; subst end.
  all: try (exfalso; eapply Ho; reflexivity).
  all: apply B; auto; discriminate.
Qed.
Print Assumptions C96_goodbye_v6_partial.

Definition ev := EV true true [1; 2].

(** On IPv4 the goodbye can be missing although close answers OK, memory is
    available and the published port is not 0: an announcement or answer was
    still being sent when the server was closed. *)
Theorem C96_goodbye_refuted : exists l c,
  wish_of l = Withdrawn 55 1 /\ In (Resolved c EOk) (trace l) /\ Settled (at_ l) /\
  count (is_bye V4) (trace l) = 0 /\ count (is_sent V4) (trace l) = 1.
Proof.
  exists [Publish 55 1; OpenDone V4 EOk ev; Close 7 ev; SendDone V4 EOk; InstClosed ev; SendDone V6 EOk; InstClosed ev], 7.
  vm_compute. repeat split; auto 10.
Qed.
Print Assumptions C96_goodbye_refuted.

(** Closing reports an error although nothing went wrong at the platform:
    an answer was being sent on IPv6, or the service has no port. *)
Theorem C96_close_code_refuted :
  (exists l c, In (Resolved c EInProgress) (trace l) /\ asked c l = 1 /\ length (filter (fun o => match o with Close _ _ => true | _ => false end) l) = 1) /\
  (exists l c, In (Resolved c EUnknown) (trace l) /\ wish_of l = Withdrawn 0 1).
Proof.
  split.
  - exists [Publish 55 1; OpenDone V6 EOk ev; Close 7 ev; SendDone V4 EOk; InstClosed ev; InstClosed ev], 7.
    vm_compute. auto 10.
  - exists [Publish 0 1; OpenDone V4 EOk ev; Close 7 ev; InstClosed ev; InstClosed ev], 7.
    vm_compute. auto 10.
Qed.
Print Assumptions C96_close_code_refuted.

(** A changed description is not announced: it was published while both
    families listen, and no packet carrying it was or is about to be sent. *)
Theorem C96_update_refuted : exists l,
  wish_of l = Serve 55 2 /\
  (forall f, waiting (get (at_ l) f) = true /\ sending (get (at_ l) f) = None /\ opening (get (at_ l) f) = false) /\
  (forall f d p, In (Sent f d p) (trace l) -> p_info p = 1).
Proof.
  exists [Publish 55 1; OpenDone V4 EOk ev; OpenDone V6 EOk ev; SendDone V4 EOk; SendDone V6 EOk; Publish 55 2].
  split; [reflexivity|]. split.
  - intros []; vm_compute; auto.
  - intros f d p. vm_compute. intuition (try discriminate); ins; reflexivity.
Qed.
Print Assumptions C96_update_refuted.

(** Concrete cases. *)
Definition life : list op :=
  [Publish 55 1; OpenDone V4 EOk ev; OpenDone V6 EOk ev; SendDone V4 EOk; SendDone V6 ESendFailed;
   RecvDone V4 EOk true (RPacket (Some 9) 44 5353%N) ev; SendDone V4 EOk; Publish 55 2;
   RecvDone V6 EOk false (RPacket (Some 3) 45 4000%N) ev].

Example C96_ex_answer :
  wish_of life = Serve 55 2 /\ waiting (get (at_ life) V6) = true /\ good ev /\
  outs life (RecvDone V6 EOk true (RPacket (Some 4) 45 4000%N) ev) =
    [Sent V6 (Peer 45) (PK 2 55 [1; 2] 4 true false)].
Proof. split; [reflexivity|]. split; [vm_compute; reflexivity|]. split; [split; reflexivity|]. vm_compute. reflexivity. Qed.

Example C96_ex_close :
  let l := life ++ [Close 7 ev; SendDone V4 EOk; InstClosed ev; SendDone V6 EOk] in
  Settled (at_ (l ++ [InstClosed ev])) /\ In (Resolved 7 EOk) (outs l (InstClosed ev)) /\
  count (is_bye V4) (trace l) = 1 /\ asked 7 l = 1.
Proof. vm_compute. repeat split; auto. Qed.

Example C96_ex_announce :
  opening (get (at_ [Publish 55 1]) V6) = true /\ broken V4 life = false /\ outstanding (at_ life) V4 = 1.
Proof. vm_compute. auto. Qed.

Example C96_ex_target :
  sending (get (at_ (life ++ [RecvDone V4 EOk true (RPacket (Some 9) 44 4000%N) ev])) V4) = Some false.
Proof. vm_compute. reflexivity. Qed.
