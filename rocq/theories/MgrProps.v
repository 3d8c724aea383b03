(** Stream identifiers, ports and limits (C50), the lifetime of streams (C82) and recovery of sending (C83). *)
From Coq Require Import List Bool Arith NArith Lia.
From Verif Require Import MgrModel MgrSpec MgrProofs MgrMore MgrRun MgrLast MgrEnd.
Import ListNotations.

(** * C50 *)
(** No two streams which clients have opened and which have not ended have the same connection and id, and all ids are even. *)
Theorem C50_ids : forall n h, lawful n h -> NoDup (map snd (live (trace n h))) /\ forall k c id, In (Opened k c id) (outs (trace n h)) -> N.odd id = false.
Proof. exact ids. Qed.
Print Assumptions C50_ids.
(** No two listeners have the same port. *)
Theorem C50_ports : forall n h, NoDup (map snd (ports (trace n h))).
Proof. exact ports_nodup. Qed.
Print Assumptions C50_ports.
(** A listener for a port gets it exactly when nobody has it; a listener which asks for any port gets a free one from 0x80000000 to 0xffffffff, or ten random ports were all taken. *)
Theorem C50_listen : forall n h l type rands, ~ crashed n h ->
  (type <> 0%N -> new_outs n h [Listen l type rands] = if existsb (fun x => (snd x =? type)%N) (ports (trace n h)) then [Refused l] else [Listening l type]) /\
  (type = 0%N -> (exists p, new_outs n h [Listen l type rands] = [Listening l p] /\ (2147483648 <= p < 4294967296)%N /\ ~ In p (map snd (ports (trace n h)))) \/
                 (new_outs n h [Listen l type rands] = [Refused l] /\ forall r, In r (firstn 10 rands) -> In (2147483648 + r mod 2147483648)%N (map snd (ports (trace n h))))).
Proof. exact listen_spec. Qed.
Print Assumptions C50_listen.
(** A stream is made only when fewer exist than the limit in force. *)
Theorem C50_limit : forall n h o, lawful n h -> existsb is_new (new_outs n h [o]) = true -> allocated (trace n h) < limit_of n (trace n h).
Proof. exact limits. Qed.
Print Assumptions C50_limit.
(** A SYN with an even id which the connection has not in use opens a stream when fewer exist than the limit and there is memory. *)
Theorem C50_opens : forall n h c id isrst r evs, lawful n h -> ~ crashed n h -> N.odd id = false -> ~ In (c, id) (map snd (live (trace n h))) -> allocated (trace n h) < limit_of n (trace n h) ->
  exists k, In (Opened k c id) (new_outs n h [Packet c id true isrst true r evs]).
Proof. exact opens. Qed.
Print Assumptions C50_opens.
(** A stream is offered only to the listener on its port. *)
Theorem C50_offered : forall n h o l k, In (Offered l k) (new_outs n h [o]) -> exists p, In (l, p) (ports (trace n h)) /\ offered_ports o p = true.
Proof. exact offered. Qed.
Print Assumptions C50_offered.

(** * C82 *)
(** The full statement is: no lawful history crashes. It fails when a virtual stream is opened to a port without a listener... *)
Theorem C82_no_listener_refuted : exists n h, lawful n h /\ (forall o, In o h -> exists c p, o = VOpen c p true true) /\ crashed n h.
Proof.
  exists 10, [VOpen 1 5%N true true]. split; [|split; [|reflexivity]].
  - intros h1 o h2 E. destruct h1 as [|o1 h1]; inversion E; subst; [exact I|destruct h1; discriminate].
  - intros o [<-|[]]. eauto.
Qed.
Print Assumptions C82_no_listener_refuted.
(** ... and when the listener does not take it (its callback destroys the stream), although somebody listens. *)
Theorem C82_refused_refuted : exists n h, lawful n h /\ (forall h1 c p a t h2, h = h1 ++ VOpen c p a t :: h2 -> In p (map snd (ports (trace n h1)))) /\ crashed n h.
Proof.
  exists 10, [Listen 1 5%N []; VOpen 1 5%N true false]. split; [|split; [|reflexivity]].
  - intros h1 o h2 E. destruct h1 as [|o1 [|o2 h1]]; inversion E; subst; try exact I. destruct h1; discriminate.
  - intros h1 c p a t h2 E. destruct h1 as [|o1 [|o2 h1]]; inversion E; subst; [left; reflexivity|destruct h1; discriminate].
Qed.
Print Assumptions C82_refused_refuted.
(** Otherwise no freed stream is used and none is freed twice. *)
Theorem C82_no_crash_partial : forall n h, lawful n h -> served n h -> ~ crashed n h.
Proof. exact run_served. Qed.
Print Assumptions C82_no_crash_partial.
(** A stream which the application owns or a user of a virtual stream holds is not freed. *)
Theorem C82_in_use : forall n h k, lawful n h -> ~ crashed n h -> owned k (trace n h) \/ held k (trace n h) -> ~ In (Freed k) (outs (trace n h)).
Proof.
  intros n h k L C O F. unfold crashed in C. fold (after n h) in C. destruct (after n h) as [m|] eqn:A; [clear C|destruct C; reflexivity]. pose proof (run_inv False _ _ m L (fun f => match f with end) A) as I.
  apply (rekey _ _ k) in I. assert (G : exists s, get k m = Some s).
  { destruct O as [[O1 O2]|[O1 O2]]; rewrite ops_trace in O2.
    - apply tk_in in O1. destruct (owned_get False k _ _ _ _ I) as (s & G & _); [unfold Ds; rewrite O1, O2; reflexivity|eauto].
    - apply vo_in in O1. destruct (held_get2 False k _ _ _ _ I) as (s & G & _); [unfold Vs; rewrite O1, O2; reflexivity|eauto]. }
  destruct G as (s & G). destruct (good_of _ _ _ _ _ _ _ _ _ I G) as (_ & X & _). apply fr_in in F. congruence.
Qed.
Print Assumptions C82_in_use.
(** A stream of a client which has ended and which the application has not or has given back is freed, at the latest when its packet and its event are done. *)
Theorem C82_no_leak : forall n h k c id, lawful n h -> ~ crashed n h -> In (Opened k c id) (outs (trace n h)) -> In (Ended k) (outs (trace n h)) -> (In (Taken k) (outs (trace n h)) -> existsb (is_destroy k) h = true) ->
  In (Freed k) (outs (trace n (h ++ [SendDone k []; Posted k []]))).
Proof. exact no_leak. Qed.
Print Assumptions C82_no_leak.
(** A virtual stream is freed when both sides have given it back. *)
Theorem C82_no_leak_virtual : forall n h k, lawful n h -> ~ crashed n h -> In (VOpened k) (outs (trace n h)) -> existsb (is_destroy k) h = true -> existsb (is_vfree k) h = true -> In (Freed k) (outs (trace n h)).
Proof. exact no_leak_virtual. Qed.
Print Assumptions C82_no_leak_virtual.

(** * C83 *)
(** The full statement is: after the packets which are queued are sent, an RST or a packet of a stream which is to be sent is sent. It fails for ever for RSTs after DTLS has refused one... *)
Theorem C83_rst_refuted : exists n h, lawful n h /\ ~ crashed n h /\ forall h' c id, ~ In (RstSent c id) (new_outs n h h').
Proof.
  exists 10, [Packet 1 2%N false false true Failed []]. split; [|split; [discriminate|]].
  - intros h1 o h2 E. destruct h1 as [|o1 h1]; inversion E; subst; [exact I|destruct h1; discriminate].
  - intros h'. unfold new_outs. eapply (run_stuck 0 10 [Packet 1 2%N false false true Failed []] h'); [reflexivity|]. vm_compute. auto.
Qed.
Print Assumptions C83_rst_refuted.
Lemma stuck_check : forall k n h, match after n h with Some m => (k <? next m) && match get k m with Some s => k_sending s && negb (k_flying s) | None => true end | None => false end = true -> forall h', ~ In (PacketSent k) (new_outs n h h').
Proof.
  intros k n h H h'. destruct (after n h) as [m|] eqn:A; [|discriminate]. apply andb_prop in H. destruct H as [H1 H2]. apply (run_stuck k n h h' m A). split; [apply Nat.ltb_lt; exact H1|].
  intros s G. rewrite G in H2. apply andb_prop in H2. destruct H2 as [H2 H3]. apply negb_true_iff in H3. auto.
Qed.
(** ... and for the packets of a stream after DTLS has refused one of them, although the stream has not ended and the application owns it. *)
Theorem C83_stream_refuted : exists n h k, lawful n h /\ ~ crashed n h /\ owned k (trace n h) /\ In (Opened k 1 2%N) (outs (trace n h)) /\ ~ In (Ended k) (outs (trace n h)) /\ forall h', ~ In (PacketSent k) (new_outs n h h').
Proof.
  exists 10, [Listen 1 5%N []; Packet 1 2%N true false true Sent [EAccept 5%N true None; ESend false false]], 0. split; [|split; [discriminate|]]; [|split; [|split; [|split]]].
  - intros h1 o h2 E. destruct h1 as [|o1 [|o2 h1]]; inversion E; subst; try exact I. destruct h1; discriminate.
  - split; [vm_compute; auto|reflexivity].
  - vm_compute. auto.
  - vm_compute. intuition discriminate.
  - apply stuck_check. vm_compute. reflexivity.
Qed.
Print Assumptions C83_stream_refuted.
(** While DTLS refuses nothing, an RST is sent for each packet of an unknown stream which opens none, once the RST before it is sent. *)
Theorem C83_rst_partial : forall n h c id syn r evs, lawful n h -> ~ crashed n h -> calm h -> r = Sent -> ~ In (c, id) (map snd (live (trace n h))) ->
  syn = false \/ N.odd id = true \/ limit_of n (trace n h) <= allocated (trace n h) -> In (RstSent c id) (new_outs n (h ++ [RstDone]) [Packet c id syn false true r evs]).
Proof. exact rst_recovers. Qed.
Print Assumptions C83_rst_partial.
(** While DTLS refuses nothing, the packet which an operation on a stream gives rise to is sent, once the one before it is sent. *)
Theorem C83_stream_partial : forall n h k c id, lawful n h -> ~ crashed n h -> calm h -> In (Opened k c id) (outs (trace n h)) -> owned k (trace n h) -> ~ In (Ended k) (outs (trace n h)) ->
  In (PacketSent k) (new_outs n (h ++ [SendDone k []; Use k]) [Posted k [ESend false true]]).
Proof. exact packet_recovers. Qed.
Print Assumptions C83_stream_partial.

(** * Examples *)
(** A decision of lawfulness. *)
Definition has (f : out -> bool) (t : list (op * list out)) : bool := existsb f (outs t).
Definition fair_b (o : op) (t : list (op * list out)) : bool :=
  match o with
  | Use k | Abort k _ | Destroy k _ => has (fun x => match x with Taken k' => k' =? k | _ => false end) t && negb (existsb (is_destroy k) (ops t))
  | VUse k | VFree k => has (fun x => match x with VOpened k' => k' =? k | _ => false end) t && negb (existsb (is_vfree k) (ops t))
  | Timer _ evs => negb (existsb offers evs)
  | _ => true
  end.
Lemma fair_b_ok : forall o t, fair_b o t = true -> fair o t.
Proof.
  intros o t H. assert (T : forall k, has (fun x => match x with Taken k' => k' =? k | _ => false end) t && negb (existsb (is_destroy k) (ops t)) = true -> owned k t).
  { intros k X. apply andb_prop in X. destruct X as [X Y]. split; [|apply negb_true_iff; exact Y]. apply existsb_exists in X. destruct X as (x & X1 & X2). destruct x; try discriminate. apply Nat.eqb_eq in X2. subst. exact X1. }
  assert (V : forall k, has (fun x => match x with VOpened k' => k' =? k | _ => false end) t && negb (existsb (is_vfree k) (ops t)) = true -> held k t).
  { intros k X. apply andb_prop in X. destruct X as [X Y]. split; [|apply negb_true_iff; exact Y]. apply existsb_exists in X. destruct X as (x & X1 & X2). destruct x; try discriminate. apply Nat.eqb_eq in X2. subst. exact X1. }
  destruct o; cbn [fair fair_b] in *; auto. apply negb_true_iff. exact H.
Qed.
Definition lawful_b (n : nat) (h : list op) : bool := forallb (fun i => match nth_error h i with Some o => fair_b o (trace n (firstn i h)) | None => true end) (seq 0 (length h)).
Lemma lawful_b_ok : forall n h, lawful_b n h = true -> lawful n h.
Proof.
  intros n h H h1 o h2 E. unfold lawful_b in H. rewrite forallb_forall in H. specialize (H (length h1)). rewrite E in H. rewrite nth_error_app2, Nat.sub_diag in H by auto. cbn [nth_error] in H.
  rewrite firstn_app, Nat.sub_diag, firstn_all, app_nil_r in H. apply fair_b_ok, H. apply in_seq. rewrite app_length. cbn [length]. lia.
Qed.
Definition served_b (n : nat) (h : list op) : bool := forallb (fun i => match nth_error h i with Some (VOpen _ p _ t) => t && existsb (N.eqb p) (map snd (ports (trace n (firstn i h)))) | _ => true end) (seq 0 (length h)).
Lemma served_b_ok : forall n h, served_b n h = true -> served n h.
Proof.
  intros n h H h1 c p a t h2 E. unfold served_b in H. rewrite forallb_forall in H. specialize (H (length h1)). rewrite E in H. rewrite nth_error_app2, Nat.sub_diag in H by auto. cbn [nth_error] in H.
  rewrite firstn_app, Nat.sub_diag, firstn_all, app_nil_r in H. assert (X : t && existsb (N.eqb p) (map snd (ports (trace n h1))) = true) by (apply H; apply in_seq; rewrite app_length; cbn [length]; lia).
  apply andb_prop in X. destruct X as [X Y]. split; [exact X|]. apply existsb_exists in Y. destruct Y as (q & Y1 & Y2). apply N.eqb_eq in Y2. subst. exact Y1.
Qed.
Definition day : list op :=
  [Listen 1 5%N []; Listen 2 0%N [7%N; 9%N]; Packet 1 2%N true false true Sent [EAccept 5%N true None; ESend false true]; Packet 1 4%N true false true Sent [EAccept 6%N true (Some Sent)];
   Packet 2 2%N true false true Sent [EAccept 2147483655%N true None]; RstDone; SendDone 0 [EWait]; Use 0; Posted 0 [ESend false true]; VOpen 9 5%N true true; VUse 3; Packet 1 2%N false false true Sent [EOther]; Abort 0 (Some Sent)].
Lemma day_lawful : lawful 4 day. Proof. apply lawful_b_ok. vm_compute. reflexivity. Qed.
Example C50_ex : lawful 4 day /\ ~ crashed 4 day /\ map snd (live (trace 4 day)) = [(2, 2%N)] /\ ports (trace 4 day) = [(1, 5%N); (2, 2147483655%N)] /\ allocated (trace 4 day) = 3 /\ limit_of 4 (trace 4 day) = 4.
Proof. split; [exact day_lawful|]. split; [vm_compute; discriminate|]. vm_compute. auto. Qed.
Example C50_ex_listen : new_outs 4 day [Listen 3 5%N []] = [Refused 3] /\ new_outs 4 day [Listen 3 6%N []] = [Listening 3 6%N] /\ new_outs 4 day [Listen 3 0%N [2147483655%N; 7%N; 8%N]] = [Listening 3 2147483656%N] /\ new_outs 4 day [Listen 3 0%N [7%N; 7%N]] = [Refused 3].
Proof. vm_compute. auto. Qed.
Example C50_ex_limit : existsb is_new (new_outs 4 day [Packet 1 6%N true false true Sent []]) = true /\ existsb is_new (new_outs 4 (day ++ [SetMax 3]) [Packet 1 6%N true false true Sent []]) = false.
Proof. vm_compute. auto. Qed.
Example C50_ex_offered : In (Offered 2 4) (new_outs 4 day [Packet 1 6%N true false true Sent [EAccept 2147483655%N true None]]).
Proof. vm_compute. auto. Qed.
Example C82_ex : served 4 day /\ owned 0 (trace 4 day) /\ held 3 (trace 4 day).
Proof.
  split; [apply served_b_ok; vm_compute; reflexivity|]. split; split; vm_compute; auto 30.
Qed.
Example C82_ex_leak : let h := day ++ [Destroy 0 None] in lawful 4 h /\ In (Opened 0 1 2%N) (outs (trace 4 h)) /\ In (Ended 0) (outs (trace 4 h)) /\ existsb (is_destroy 0) h = true /\ ~ In (Freed 0) (outs (trace 4 h)).
Proof. split; [apply lawful_b_ok; vm_compute; reflexivity|]. vm_compute. repeat split; auto 30. intuition discriminate. Qed.
Example C82_ex_virtual : let h := day ++ [VFree 3; Use 3; Destroy 3 None] in lawful 4 h /\ ~ crashed 4 h /\ In (VOpened 3) (outs (trace 4 h)) /\ existsb (is_destroy 3) h = true /\ existsb (is_vfree 3) h = true.
Proof. split; [apply lawful_b_ok; vm_compute; reflexivity|]. vm_compute. repeat split; auto 30. discriminate. Qed.
Example C83_ex : calm day /\ ~ In (1, 8%N) (map snd (live (trace 4 day))) /\ (let h := firstn 12 day in lawful 4 h /\ ~ crashed 4 h /\ calm h /\ In (Opened 0 1 2%N) (outs (trace 4 h)) /\ owned 0 (trace 4 h) /\ ~ In (Ended 0) (outs (trace 4 h))).
Proof.
  split; [intros o H; cbn in H; repeat (destruct H as [<-|H]; [reflexivity|]); destruct H|]. split; [vm_compute; intuition discriminate|]. cbv zeta. split; [apply lawful_b_ok; vm_compute; reflexivity|]. split; [vm_compute; discriminate|].
  split; [intros o H; cbn in H; repeat (destruct H as [<-|H]; [reflexivity|]); destruct H|]. split; [vm_compute; auto 30|]. split; [split; vm_compute; auto 30|]. vm_compute. intuition discriminate.
Qed.
