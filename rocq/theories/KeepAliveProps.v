(** Properties C29, C30 and C72: keep alive and the settings of the server. *)
From Coq Require Import List Bool Arith NArith Lia String.
From Verif Require Import KeepAliveModel KeepAliveSpec KeepAliveProofs.
Import ListNotations.

(** ** C29 *)

(** When nothing is received any more the connection is closed after a number of ticks which only depends
    on the settings. Missing: maxRetries + interval / retryInterval = 2^32 - 1 or more, see the refutation. *)
Theorem C29_dead_peer_found_partial : forall pre i r m h1 h2,
  r <> 0%N -> (m + i / r < 2 ^ 32 - 1)%N ->
  forallb same_conn h1 = true -> ~ In OTimeout (outs (started pre i r m) h1) ->
  forallb quiet h2 = true -> (2 * (m + i / r) + 5 <= N.of_nat (count is_tick h2))%N ->
  In OTimeout (outs (started pre i r m) (h1 ++ h2)).
Proof.
  intros pre i r m h1 h2 R L S NT Q K. rewrite outs_app, in_app_iff. right.
  destruct (started_is pre i r m R) as (s & b & E). rewrite E in *. clear E.
  set (c := {| c_ka := _ |}) in *.
  assert (C : cfg (after c h1) = cfg c) by (apply after_cfg; auto).
  assert (LM : lim (c_ka (after c h1)) = (m + i / r)%N).
  { rewrite (lim_cfg _ _ C). unfold lim, c. cbn [c_ka ka_max ka_n]. apply N.mod_small. lia. }
  apply dead_found; auto.
  - assert (P : c_pending c = true) by reflexivity. clearbody c. clear - S NT P.
    revert c S NT P. induction h1 as [|o h IH]; intros c S NT P; [exact P|].
    cbn in S. apply andb_true_iff in S as [So S]. rewrite after_cons. rewrite outs_cons, in_app_iff in NT.
    apply IH; auto.
    destruct o; try discriminate; try exact P; cbn [step] in *.
    + reflexivity.
    + destruct (recv_is c pkt) as (k & -> & _). exact P.
    + rewrite P in *. revert NT. unfold tick, should_send.
      destruct (_ && _)%bool; [intros; exact P|]. destruct (N.ltb _ _).
      { cbn. intuition. }
      destruct (_ && _)%bool; intros; exact P.
  - rewrite LM. lia.
  - pose proof (fuel_bound (after c h1)). rewrite LM in *. lia.
Qed.
Print Assumptions C29_dead_peer_found_partial.

(** A connection is not closed before maxRetries + interval / retryInterval + 2 ticks. *)
Theorem C29_patience : forall pre i r m h,
  r <> 0%N -> (m + i / r < 2 ^ 32)%N -> forallb same_conn h = true ->
  (N.of_nat (count is_tick h) <= m + i / r + 1)%N ->
  ~ In OTimeout (outs (started pre i r m) h).
Proof.
  intros pre i r m h R L S K. destruct (started_is pre i r m R) as (s & b & ->).
  apply patient; auto. unfold lim. cbn [c_ka ka_lost ka_max ka_n]. unfold u32. rewrite N.mod_small by lia. lia.
Qed.
Print Assumptions C29_patience.

(** A silent peer is asked maxRetries + 1 times, from the tick at which nothing has come for the interval on; after
    that the connection is closed at the next tick. *)
Theorem C29_probes_then_closes : forall i r m k,
  r <> 0%N -> (m + i / r + 1 < 2 ^ 32)%N ->
  (N.of_nat k <= m + i / r + 1)%N ->
  probes (outs (started [] i r m) (probing k)) = N.to_nat (N.of_nat k - i / r) /\
  (forall p, In (OSend p) (outs (started [] i r m) (probing k)) -> p = the_request) /\
  ~ In OTimeout (outs (started [] i r m) (probing k)) /\
  (N.of_nat k = m + i / r + 1 -> outs (after (started [] i r m) (probing k)) [Tick] = [OTimeout])%N.
Proof.
  intros i r m k R L K.
  assert (E : started [] i r m =
    {| c_ka := {| ka_interval := i; ka_retry := r; ka_max := m; ka_recv := 0; ka_sent := 0; ka_lost := 0;
                  ka_n := i / r; ka_sending := false; ka_buf := repeat 0%N 18 |};
       c_recv := 0; c_sent := 0; c_pending := true |}).
  { unfold started, after. apply N.eqb_neq in R. cbn -[repeat N.div]. unfold ka_set. rewrite R. reflexivity. }
  rewrite E. clear E. set (c := {| c_ka := _ |}).
  destruct (probe_run k c) as (A1 & A2 & A3 & A4 & A5 & A6 & A7 & A8); try reflexivity;
    try (unfold c; cbn [c_ka c_recv ka_recv ka_max ka_n ka_lost]; lia).
  cbv zeta in *. repeat split; auto.
  - rewrite A1. unfold c. cbn [c_ka c_recv ka_recv ka_max ka_n ka_lost]. rewrite N.max_l by apply N.le_0_l. reflexivity.
  - intros KE. unfold outs. cbn [run step]. rewrite A4. unfold tick, should_send.
    rewrite A7, A8. change (N.ltb (ka_recv (c_ka c)) (c_recv c)) with false. cbn [andb].
    change (u32 (ka_max (c_ka (after c (probing k))) + ka_n (c_ka (after c (probing k)))))
      with (lim (c_ka (after c (probing k)))).
    rewrite (lim_cfg _ _ A6), A5. unfold lim, c. cbn [c_ka ka_max ka_n ka_lost]. unfold u32.
    rewrite N.mod_small by lia.
    assert (T : N.ltb (m + i / r) (0 + N.of_nat k) = true) by (apply N.ltb_lt; lia).
    rewrite T. reflexivity.
Qed.
Print Assumptions C29_probes_then_closes.

(** As long as something is both received and sent between any two ticks the connection is kept. Missing:
    connections with 2^32 packets or more in one direction, see the refutation. *)
Theorem C29_live_peer_kept_partial : forall pre i r m segs,
  r <> 0%N -> Forall lively segs ->
  (N.of_nat (count is_recv (with_ticks segs)) < 2 ^ 32)%N ->
  (N.of_nat (count is_sent (with_ticks segs)) < 2 ^ 32)%N ->
  ~ In OTimeout (outs (started pre i r m) (with_ticks segs)).
Proof.
  intros pre i r m segs R F CR CS. destruct (started_is pre i r m R) as (s & b & ->).
  apply lively_kept; auto; cbn [c_recv c_sent c_ka ka_recv ka_sent]; lia.
Qed.
Print Assumptions C29_live_peer_kept_partial.

(** It is enough that the peer is heard between any two ticks and that keep alive packets get out, whatever
    maxRetries is. *)
Theorem C29_answering_peer_kept_partial : forall pre i r m segs,
  r <> 0%N -> (m + i / r + 1 < 2 ^ 32)%N -> answered (started pre i r m) segs ->
  (N.of_nat (count is_recv (with_ticks segs)) < 2 ^ 32)%N ->
  (N.of_nat (count is_sent (with_ticks segs)) < 2 ^ 32)%N ->
  ~ In OTimeout (outs (started pre i r m) (with_ticks segs)).
Proof.
  intros pre i r m segs R M A CR CS. destruct (started_is pre i r m R) as (s & b & E). rewrite E in *.
  apply answered_kept; auto; cbn [c_recv c_sent c_ka ka_recv ka_sent ka_max ka_n ka_lost]; try lia; left; apply N.le_0_l.
Qed.
Print Assumptions C29_answering_peer_kept_partial.

(** The packet counters wrap: a connection on which something is received and sent between any two ticks is
    closed when 2^32 packets have gone through, with the default settings. *)
Definition flood (k : nat) : list op := repeat (Recv []) k ++ repeat Sent k.
Lemma lively_flood : forall k, k <> 0 -> lively (flood k).
Proof.
  intros k NZ. unfold lively, flood. rewrite forallb_app, !existsb_app.
  assert (FB : forall f (o : op) k, f o = true -> forallb f (repeat o k) = true).
  { intros f o k0 T. induction k0 as [|k0 IH]; [reflexivity|]. cbn [repeat forallb]. rewrite T, IH. reflexivity. }
  assert (EB : forall f (o : op) k, f o = true -> k <> 0 -> existsb f (repeat o k) = true).
  { intros f o k0 T N. destruct k0; [congruence|]. cbn [repeat existsb]. rewrite T. reflexivity. }
  rewrite !FB by reflexivity. rewrite (EB is_recv) by auto. rewrite (EB is_sent Sent) by auto.
  rewrite orb_true_r. auto.
Qed.
Lemma flooded : forall k s b, (N.of_nat k < 2 ^ 32)%N ->
  after {| c_ka := {| ka_interval := 30000; ka_retry := 2000; ka_max := 15; ka_recv := 0; ka_sent := 0; ka_lost := 0;
                  ka_n := 30000 / 2000; ka_sending := s; ka_buf := b |};
           c_recv := 0; c_sent := 0; c_pending := true |} (flood k) =
  {| c_ka := {| ka_interval := 30000; ka_retry := 2000; ka_max := 15; ka_recv := 0; ka_sent := 0; ka_lost := 0;
                  ka_n := 30000 / 2000; ka_sending := s; ka_buf := b |};
           c_recv := N.of_nat k; c_sent := N.of_nat k; c_pending := true |}.
Proof.
  intros k s b L. unfold flood. rewrite after_app, many_recv, many_sent; cbn [c_ka c_recv c_sent c_pending]; auto; lia.
Qed.
Theorem C29_live_peer_kept_refuted : exists segs,
  Forall lively segs /\ In OTimeout (outs (started [] 30000 2000 15) (with_ticks segs)).
Proof.
  exists (flood (N.to_nat (2 ^ 32 - 1)) :: repeat [Recv []; Sent] 40). split.
  - constructor.
    + apply lively_flood. intros H. apply (f_equal N.of_nat) in H. rewrite N2Nat.id in H. discriminate.
    + apply Forall_forall. intros g H. apply repeat_spec in H. subst. repeat split.
  - cbn [with_ticks]. rewrite outs_app, in_app_iff. right.
    destruct (started_is [] 30000 2000 15) as (s & b & ->); [discriminate|].
    rewrite flooded by (rewrite N2Nat.id; reflexivity). rewrite N2Nat.id. destruct s; vm_compute; tauto.
Qed.
Print Assumptions C29_live_peer_kept_refuted.

(** There are settings with which a dead peer is never found. *)
Theorem C29_dead_peer_found_refuted : exists i r m, (i < 2 ^ 32 /\ 0 < r < 2 ^ 32 /\ m < 2 ^ 32)%N /\
  forall pre h, forallb quiet h = true -> ~ In OTimeout (outs (started pre i r m) h).
Proof.
  exists 2000%N, 2000%N, 4294967294%N. split. { repeat split; reflexivity. }
  intros pre h Q. destruct (started_is pre 2000 2000 4294967294) as (s & b & ->); [discriminate|].
  apply never_found; auto; reflexivity.
Qed.
Print Assumptions C29_dead_peer_found_refuted.

(** A new connection without settings of its own has the default settings 30000, 2000, 15, but the number of
    ticks is still the one of the connection before it. *)
Theorem C29_new_connection_refuted : exists pre h,
  let c := after conn_init (pre ++ [Reconnect; Attached]) in
  (ka_interval (c_ka c), ka_retry (c_ka c), ka_max (c_ka c)) = (30000, 2000, 15)%N /\
  forallb quiet h = true /\ (2 * (15 + 30000 / 2000) + 5 <= N.of_nat (count is_tick h))%N /\
  ~ In OTimeout (outs c h).
Proof.
  exists [Settings 300000 1000 15; Attached], (repeat Tick 65). cbv zeta.
  split; [vm_compute; reflexivity|]. split; [vm_compute; reflexivity|].
  split; [vm_compute; discriminate|].
  apply (patient (repeat Tick 65)); vm_compute; congruence.
Qed.
Print Assumptions C29_new_connection_refuted.

Example C29_ex : let segs := [[Recv []; Sent]; [Sent; Recv []; Done]; [Recv [4; 3]%N; Sent]] in
  Forall lively segs /\ answered (started [] 30000 2000 15) segs /\
  outs (started [] 4000 2000 1) (with_ticks segs ++ repeat Tick 5) =
    [OWait 2000; OWait 2000; OWait 2000; OWait 2000; OWait 2000; OSend the_request; OWait 2000; OWait 2000; OTimeout].
Proof.
  split; [repeat constructor; reflexivity|]. split; [|vm_compute; reflexivity].
  vm_compute. repeat split; auto.
Qed.
Example C29_ex_dead : (15 + 30000 / 2000 < 2 ^ 32 - 1)%N /\ forallb quiet (repeat Tick 65) = true /\
  (2 * (15 + 30000 / 2000) + 5 <= N.of_nat (count is_tick (repeat Tick 65)))%N /\
  In OTimeout (outs (started [Recv []; Settings 1 1 1] 30000 2000 15) ([Recv []; Sent; Tick] ++ repeat Tick 65)).
Proof. vm_compute. repeat split; try congruence. tauto. Qed.

(** ** C30 *)

(** A retry interval of 0 (or a multiple of 2^32) in the attach response is a division by zero. *)
Theorem C30_attach_response_refuted : exists a r, handle_response a r = None.
Proof.
  exists {| a_ka := ka_init; a_stun := None; a_dns := "a"; a_port := 1 |},
    (Response true true (Some (CMap [("Status"%string, CUint 0);
      ("KeepAlive"%string, CMap [("Interval"%string, CUint 30000); ("RetryInterval"%string, CUint 0); ("MaxRetries"%string, CUint 15)])]))).
  reflexivity.
Qed.
Print Assumptions C30_attach_response_refuted.

(** That is the only case; every other response is handled. *)
Theorem C30_attach_response_partial : forall a r, handle_response a r = None <->
  exists c root i ri m, r = Response true c (Some root) /\ find "Status" root = CUint 0 /\
    settings_of root = Some (i, ri, m) /\ (ri mod 2 ^ 32 = 0)%N.
Proof.
  intros a r. split.
  - destruct r as [|[|] c [root|]]; try discriminate. cbn [handle_response].
    destruct (find "Status" root) as [s| | | | ] eqn:ST; try discriminate.
    destruct (N.eqb s 0) eqn:S0.
    2:{ destruct (N.eqb s 1); discriminate. }
    apply N.eqb_eq in S0. subst s. unfold handle_attached.
    destruct (find "KeepAlive" root) as [| | |l| ] eqn:KA; try discriminate.
    destruct (assoc "Interval" l) as [i| | | | ] eqn:AI; try discriminate.
    destruct (assoc "RetryInterval" l) as [ri| | | | ] eqn:AR; try discriminate.
    destruct (assoc "MaxRetries" l) as [m| | | | ] eqn:AM; try discriminate.
    unfold ka_set. destruct (N.eqb (u32 ri) 0) eqn:Z; [|discriminate]. intros _.
    exists c, root, i, ri, m. unfold settings_of. rewrite KA, AI, AR, AM. apply N.eqb_eq in Z. auto.
  - intros (c & root & i & ri & m & -> & ST & SE & Z). cbn [handle_response]. rewrite ST. cbn [N.eqb].
    unfold handle_attached, settings_of in *.
    destruct (find "KeepAlive" root) as [| | |l| ]; try discriminate.
    destruct (assoc "Interval" l); try discriminate.
    destruct (assoc "RetryInterval" l); try discriminate.
    destruct (assoc "MaxRetries" l); try discriminate.
    injection SE as <- <- <-. unfold ka_set, u32. rewrite Z. reflexivity.
Qed.
Print Assumptions C30_attach_response_partial.

(** Settings which fit in 32 bits are taken over as they are and the number of ticks is computed from them; a response
    without complete settings changes nothing. A response only ever redirects to a host name of 1 to 256 bytes,
    and never both redirects and changes settings. *)
Theorem C30_settings_taken : forall a r a' s, handle_response a r = Some (a', s) ->
  (s = Attached_ /\ a_dns a' = a_dns a /\ a_port a' = a_port a /\
     exists c root, r = Response true c (Some root) /\
     match settings_of root with
     | Some (i, ri, m) => ((i < 2 ^ 32)%N -> ka_interval (a_ka a') = i) /\ ((ri < 2 ^ 32)%N -> ka_retry (a_ka a') = ri) /\
                          ((m < 2 ^ 32)%N -> ka_max (a_ka a') = m) /\
                          ka_n (a_ka a') = (ka_interval (a_ka a') / ka_retry (a_ka a'))%N /\
                          (0 < ka_retry (a_ka a'))%N
     | None => a_ka a' = a_ka a
     end) \/
  (s = Redirect /\ a_ka a' = a_ka a /\ a_stun a' = a_stun a /\ 1 <= String.length (a_dns a') <= 256 /\
     (exists c root, r = Response true c (Some root) /\ find "Host" root = CText (a_dns a'))) \/
  (s <> Attached_ /\ s <> Redirect /\ a' = a).
Proof.
  intros a r a' s H. destruct r as [|[|] c [root|]]; cbn [handle_response] in H.
  - injection H as <- <-. right. right. repeat split; discriminate.
  - destruct (find "Status" root) as [st| | | | ] eqn:ST;
      try (injection H as <- <-; right; right; repeat split; discriminate).
    destruct (N.eqb st 0).
    { left. unfold handle_attached in H.
      assert (G : forall o : option ka, match o with None => None | Some k =>
         Some ({| a_ka := k; a_stun := match find "Stun" root with
              | CMap l => match assoc "Host" l, assoc "Port" l with
                          | CText h, CUint p => if Nat.ltb 255 (String.length h) then a_stun a
                                                else Some (h, (p mod 2 ^ 16)%N)
                          | _, _ => a_stun a
                          end
              | _ => a_stun a
              end; a_dns := a_dns a; a_port := a_port a |}, Attached_) end = Some (a', s) ->
         s = Attached_ /\ a_dns a' = a_dns a /\ a_port a' = a_port a /\ o = Some (a_ka a')).
      { intros [k|] E; [|discriminate]. injection E as <- <-. auto. }
      apply G in H. destruct H as (-> & -> & -> & H). repeat split; auto. exists c, root. split; [reflexivity|].
      unfold settings_of.
      destruct (find "KeepAlive" root) as [| | |l| ]; try (injection H as <-; reflexivity).
      destruct (assoc "Interval" l) as [i| | | | ]; try (injection H as <-; reflexivity).
      destruct (assoc "RetryInterval" l) as [ri| | | | ]; try (injection H as <-; reflexivity).
      destruct (assoc "MaxRetries" l) as [m| | | | ]; try (injection H as <-; reflexivity).
      unfold ka_set in H. destruct (N.eqb (u32 ri) 0) eqn:Z; [discriminate|]. injection H as <-.
      cbn [ka_interval ka_retry ka_max ka_n]. apply N.eqb_neq in Z.
      repeat split; try (intros L; apply N.mod_small; exact L). lia. }
    destruct (N.eqb st 1).
    2:{ injection H as <- <-. right. right. repeat split; discriminate. }
    injection H as H. unfold handle_redirect in H.
    destruct (find "Host" root) as [|h| | | ] eqn:HO; try (injection H as <- <-; right; right; repeat split; discriminate).
    destruct (find "Port" root) as [p| | | | ]; try (injection H as <- <-; right; right; repeat split; discriminate).
    destruct (find "Fingerprint" root); try (injection H as <- <-; right; right; repeat split; discriminate).
    destruct (Nat.ltb (String.length h) 1 || Nat.ltb 256 (String.length h))%bool eqn:LE;
      try (injection H as <- <-; right; right; repeat split; discriminate).
    apply orb_false_iff in LE as [L1 L2]. apply Nat.ltb_ge in L1, L2.
    injection H as <- <-. right. left. cbn [a_ka a_stun a_dns]. repeat split; auto. exists c, root. auto.
  - injection H as <- <-. right. right. repeat split; discriminate.
  - injection H as <- <-. right. right.
    destruct (N.eqb _ 5); [repeat split; discriminate|]. destruct (N.eqb _ 7); [repeat split; discriminate|].
    destruct (N.eqb _ 8); repeat split; discriminate.
  - injection H as <- <-. right. right.
    destruct (N.eqb _ 5); [repeat split; discriminate|]. destruct (N.eqb _ 7); [repeat split; discriminate|].
    destruct (N.eqb _ 8); repeat split; discriminate.
Qed.
Print Assumptions C30_settings_taken.

Example C30_ex :
  let a := {| a_ka := ka_init; a_stun := None; a_dns := "a"; a_port := 1 |} in
  let root := CMap [("Status"%string, CUint 0); ("Stun"%string, CMap [("Host"%string, CText "stun"); ("Port"%string, CUint 3478)]);
      ("KeepAlive"%string, CMap [("Interval"%string, CUint 10000); ("RetryInterval"%string, CUint 1000); ("MaxRetries"%string, CUint 3)])] in
  exists a', handle_response a (Response true true (Some root)) = Some (a', Attached_) /\ a_stun a' = Some ("stun"%string, 3478%N) /\ ka_n (a_ka a') = 10%N.
Proof. cbv zeta. eexists. split; [reflexivity|]. split; reflexivity. Qed.
Example C30_ex_redirect :
  let a := {| a_ka := ka_init; a_stun := None; a_dns := "a"; a_port := 1 |} in
  let root := CMap [("Status"%string, CUint 1); ("Host"%string, CText "other"); ("Port"%string, CUint 443); ("Fingerprint"%string, CBytes "x")] in
  exists a', handle_response a (Response true true (Some root)) = Some (a', Redirect) /\ a_dns a' = "other"%string /\ a_port a' = 443%N.
Proof. cbv zeta. eexists. split; [reflexivity|]. split; reflexivity. Qed.

(** ** C72 *)

Lemma sending_init : forall h, on_its_way false (trace conn_init h) = ka_sending (c_ka (after conn_init h)).
Proof. intros h. rewrite sending_is. reflexivity. Qed.

(** Every keep alive packet has 18 bytes and is either the request, or the response to a request which has been
    received and which it echoes. *)
Theorem C72_packets : forall h p, In (OSend p) (outs conn_init h) ->
  List.length p = 18 /\
  (p = the_request \/ exists q, In (Recv q) h /\ firstn 2 q = [4; 3]%N /\ 18 <= List.length q /\ p = the_response q).
Proof.
  intros h p H. rewrite trace_outs in H. apply in_concat in H. destruct H as (l & H & I).
  apply in_map_iff in H. destruct H as ([o l'] & E & H). cbn in E. subst l'.
  apply in_split in H. destruct H as (t1 & t2 & H).
  destruct (trace_split _ _ _ _ _ _ H) as (h1 & h2 & -> & _ & -> & _).
  destruct (step_sends (after conn_init h1) o) as [_ G]. destruct (G p I) as (_ & [(-> & ->) | (q & -> & L & F & ->)]).
  - split; auto.
  - split.
    + unfold the_response. cbn [List.length]. rewrite firstn_length, skipn_length. lia.
    + right. exists q. repeat split; auto. apply in_app_iff. right. left. reflexivity.
Qed.
Print Assumptions C72_packets.

(** A packet is only handed over when no other is on its way; so the buffer is not written while it is in use. *)
Theorem C72_one_at_a_time : forall h t1 o l t2,
  trace conn_init h = t1 ++ (o, l) :: t2 -> sends l = true -> on_its_way false t1 = false.
Proof.
  intros h t1 o l t2 H S. destruct (trace_split _ _ _ _ _ _ H) as (h1 & h2 & -> & -> & -> & _).
  rewrite sending_init. unfold sends in S. apply existsb_exists in S. destruct S as (x & I & X).
  destruct x as [p| | | ]; try discriminate. destruct (step_sends (after conn_init h1) o) as [_ G].
  destruct (G p I) as [E _]. exact E.
Qed.
Print Assumptions C72_one_at_a_time.

(** A request is answered at once with its own 16 bytes, unless a keep alive packet is on its way. *)
Theorem C72_answered : forall h q, 16 <= List.length q ->
  on_its_way false (trace conn_init h) = false ->
  outs (after conn_init h) [Recv (4 :: 3 :: q)%N] = [OSend (4 :: 4 :: firstn 16 q)%N].
Proof.
  intros h q L W. rewrite sending_init in W. unfold outs. cbn [run step recv].
  unfold handle_request. cbn [c_ka]. rewrite W.
  assert (T : Nat.ltb (List.length (4 :: 3 :: q)%N) 18 = false) by (apply Nat.ltb_ge; cbn [List.length]; lia).
  rewrite T. reflexivity.
Qed.
Print Assumptions C72_answered.

(** A packet which is handed over and never completed (the callers do not look at a refusal of the DTLS layer, which comes
    without completion) silences keep alive for good, also on later connections. *)
Theorem C72_silent_without_completion : forall h h2,
  on_its_way false (trace conn_init h) = true -> ~ In Done h2 ->
  forall p, ~ In (OSend p) (outs (after conn_init h) h2).
Proof.
  intros h h2 W ND p. rewrite sending_init in W.
  change (c_ka conn_init) with ka_init in W. revert W. generalize (after conn_init h). revert ND. clear h.
  induction h2 as [|o h2 IH]; intros ND c W; [intros []|].
  rewrite outs_cons, in_app_iff. destruct (step_sends c o) as [S G].
  intros [X|X].
  - destruct (G p X) as [E _]. congruence.
  - revert X. apply IH. { intros X. apply ND. right. exact X. }
    rewrite S. destruct o; try (destruct (sends _); auto). exfalso. apply ND. left. reflexivity.
Qed.
Print Assumptions C72_silent_without_completion.

(** The length is stored through a pointer to another type: on a little endian machine with a size_t of 4 or 8 bytes
    the send context says 18 bytes, and only the channel id next to it is overwritten. *)
Theorem C72_length_partial : forall w mem, w = 4 \/ w = 8 -> 8 <= List.length mem ->
  buffer_size_after false w mem = 18%N /\ skipn 8 (store false w mem 18) = skipn 8 mem.
Proof.
  intros w mem [-> | ->] L; do 8 (destruct mem as [|? mem]; [cbn in L; lia|]); split; reflexivity.
Qed.
Print Assumptions C72_length_partial.
(** On a big endian machine it says 0 bytes. *)
Theorem C72_length_refuted : forall w mem, w = 4 \/ w = 8 -> buffer_size_after true w mem = 0%N.
Proof. intros w mem [-> | ->]; reflexivity. Qed.
Print Assumptions C72_length_refuted.

Example C72_ex : let h := [Attached; Recv (4 :: 3 :: repeat 7 16)%N; Sent; Done] in
  outs conn_init h = [OWait 2000; OSend (4 :: 4 :: repeat 7 16)%N] /\
  on_its_way false (trace conn_init h) = false /\ on_its_way false (trace conn_init (removelast h)) = true.
Proof. vm_compute. auto. Qed.
