(** The properties C42 to C45 and C73 to C76 for the model in NetModel.v, with the specification in NetSpec.v. *)
From Coq Require Import List NArith PeanoNat Bool Lia.
From Verif Require Import NetModel NetSpec NetProofs NetMore NetHist NetRv NetEnd NetClose NetMove.
Import ListNotations.
Local Open Scope N_scope.

(** Concrete histories. *)
Definition good : env := {| a_mem := true; a_init := true; a_buf := true; a_dtls := []; a_sync := [] |}.
Definition plain_udp : handlers := {| h_stun := true; h_attacher := false; h_clients := true; h_rendezvous := true |}.
Definition id1 : list N := [1; 2; 3; 4; 5; 6; 7; 8; 9; 10; 11; 12; 13; 14].
Definition hello (ch : N) : list N := 240 :: id1 ++ [ch; 22; 254; 253].
Definition from (sock ep : nat) (p : list N) : op := Packet plain_udp sock ep p.
Definition data (n : N) : env := {| a_mem := true; a_init := true; a_buf := true; a_dtls := [Data n [6; 0]]; a_sync := [] |}.

(** ** C42 *)
Theorem C42_limit : forall b (h : list move) m r, N.of_nat (length h) < u64_max -> In r (refs (snd (run b init (h ++ [m])))) -> ~ In r (refs (snd (run b init h))) ->
  N.of_nat (length (opened (snd (run b init h)))) < limit (snd (run b init h)).
Proof.
  intros b h m r L I NI. destruct (reach b h ltac:(lia)) as [V R]. rewrite last_run in I. cbn [snd] in I. unfold refs in *. rewrite outs_app, flat_map_app, in_app_iff in I. destruct I as [I|I]; [contradiction|]. unfold outs in I. cbn in I. rewrite app_nil_r in I.
  destruct (NetProofs.good b (snd m) (fst m) _ _ _ V ltac:(lia)) as (_ & _ & G). rewrite <- is_limit. apply G. intros E. rewrite E in I. destruct I.
Qed.
Print Assumptions C42_limit.
Theorem C42_unique_partial : forall b h, N.of_nat (length h) <= u64_max -> NoDup (refs (snd (run b init h))).
Proof. intros b h L. destruct (reach b h L) as [V _]. apply (i_all _ _ _ V). Qed.
Print Assumptions C42_unique_partial.
Theorem C42_resolves_partial : forall b h r, N.of_nat (length h) <= u64_max -> from_ref r (fst (run b init h)) <> None <-> In r (opened (snd (run b init h))).
Proof.
  intros b h r L. rewrite (opened_keys b h L). pose proof (from_ref_none r (fst (run b init h))) as F. destruct (in_dec N.eq_dec r (keys (t_conns (fst (run b init h))))); split; intros; try tauto.
Qed.
Print Assumptions C42_resolves_partial.
Example C42_ex : let h := [(NewVirtual, good); (from 0 7 (hello 0), good); (FreeVirtual 1, good); (Limit 1, good); (NewVirtual, good)] in
  refs (snd (run ServerBuild init h)) = [1; 2] /\ opened (snd (run ServerBuild init h)) = [2] /\ limit (snd (run ServerBuild init h)) = 1.
Proof. vm_compute. auto. Qed.
Lemma nodup_twice : forall (a b : list N) x, NoDup (a ++ b) -> In x a -> In x b -> False.
Proof. intros a b x. induction a as [|y a IH]; intros D I J; [destruct I|]. cbn in D. inversion D; subst. destruct I as [->|I]; [apply H1; apply in_app_iff; auto|auto]. Qed.
(** The counter starts again after 2^64 connections. *)
Fixpoint cycles (n : nat) : list move := match n with O => [] | S n => cycles n ++ [(NewVirtual, good); (FreeVirtual (N.of_nat n + 1), good)] end.
Lemma after_cycles : forall n, N.of_nat n <= u64_max -> fst (run ServerBuild init (cycles n)) = set_ref (N.of_nat n) init.
Proof.
  induction n as [|n IH]; intros L; [reflexivity|]. cbn [cycles]. rewrite run_app. specialize (IH ltac:(lia)). destruct (run ServerBuild init (cycles n)) as [s t]. cbn [fst] in IH. subst s.
  cbn [run fst snd step]. unfold alloc, next_ref. cbv zeta. cbn [t_limit t_count set_ref init a_mem good]. change (N.leb u64_max 0) with false. cbv iota. cbn [t_ref set_ref]. rewrite N.mod_small by (unfold u64_max in *; lia).
  destruct (N.ltb_spec (N.of_nat n + 1) (N.of_nat n)) as [X|X]; [lia|]. unfold from_ref. cbn [t_conns set_conns set_ref init app find n_ref]. rewrite N.eqb_refl. unfold destroy, free_conn. cbn [t_closing set_conns set_ref init t_conns remove n_ref t_count]. rewrite N.eqb_refl.
  cbn [andb fst]. replace (N.of_nat (S n)) with (N.of_nat n + 1) by lia. reflexivity.
Qed.
Theorem C42_reuse_refuted : exists h, ~ NoDup (refs (snd (run ServerBuild init h))).
Proof.
  assert (G : forall n, N.of_nat n = u64_max -> exists h, ~ NoDup (refs (snd (run ServerBuild init h)))).
  { intros n E. exists (cycles n ++ [(NewVirtual, good); (NewVirtual, good)]). rewrite run_app. pose proof (after_cycles n ltac:(lia)) as A. rewrite E in A.
    assert (I : In 1 (refs (snd (run ServerBuild init (cycles n))))).
    { destruct n as [|n]; [discriminate|]. clear A E. induction n as [|n IH]; [vm_compute; auto|]. change (cycles (S (S n))) with (cycles (S n) ++ [(NewVirtual, good); (FreeVirtual (N.of_nat (S n) + 1), good)]).
      rewrite run_app. destruct (run ServerBuild init (cycles (S n))) as [s t]. destruct (run ServerBuild s _) as [s2 t2]. cbn [snd] in *. unfold refs in *. rewrite outs_app, flat_map_app. apply in_app_iff. auto. }
    destruct (run ServerBuild init (cycles n)) as [s t]. cbn [fst snd] in *. subst s.
    destruct (run ServerBuild (set_ref u64_max init) [(NewVirtual, good); (NewVirtual, good)]) as [s2 t2] eqn:R. vm_compute in R. injection R as <- <-. cbn [snd]. unfold refs in *. rewrite outs_app, flat_map_app. intros D.
    apply (nodup_twice _ _ 1 D I). vm_compute. auto. }
  apply (G (N.to_nat u64_max)). apply N2Nat.id.
Qed.
Print Assumptions C42_reuse_refuted.

(** ** C43 *)
(** Any datagram with the connection id and the channel of a connection moves it, even if DTLS throws it away. *)
Theorem C43_moved_refuted : exists (h : list move) p, let s := fst (run ServerBuild init h) in let s' := fst (run ServerBuild init (h ++ [(from 1 66 p, good)])) in
  In (Opened 1) (outs (snd (run ServerBuild init h))) /\ a_dtls good = [] /\
  endpoint 1 s = Some (0%nat, 7%nat) /\ is_local 1 s = false /\ endpoint 1 s' = Some (1%nat, 66%nat) /\ is_local 1 s' = true.
Proof. exists [(from 0 7 (hello 0), good); (DtlsEvent 1 Handshaken, good)], (hello 0). vm_compute. tauto. Qed.
Print Assumptions C43_moved_refuted.
(** Nothing else does, but for data which DTLS has authenticated. *)
Theorem C43_moved_partial : forall b (h : list move) o e r x y, N.of_nat (length h) < u64_max ->
  endpoint r (fst (run b init h)) = Some x -> endpoint r (fst (run b init (h ++ [(o, e)]))) = Some y -> x <> y ->
  (exists hd p, o = Packet hd (fst y) (snd y) p /\ target_of hd p = Some Clients /\ (17 <= length p)%nat /\
     conn_id r (fst (run b init h)) = Some (id_of p) /\ nth_error p 15 = channel r (fst (run b init h))) \/
  b = ClientOnlyBuild /\ ((exists hd p, o = Packet hd (fst y) (snd y) p /\ target_of hd p = Some Clients /\ (17 <= length p)%nat /\
     conn_id r (fst (run b init h)) = Some (id_of p) /\ existsb authentic (a_dtls e) = true) \/
   exists v, o = DtlsEvent r v /\ authentic v = true).
Proof. exact moves. Qed.
Print Assumptions C43_moved_partial.
Example C43_ex : let h := [(from 0 7 (hello 0), good); (DtlsEvent 1 Handshaken, good)] in
  endpoint 1 (fst (run ClientOnlyBuild init h)) = Some (0%nat, 7%nat) /\ endpoint 1 (fst (run ClientOnlyBuild init (h ++ [(from 1 8 (hello 5), data 1)]))) = Some (1%nat, 8%nat) /\
  existsb authentic (a_dtls (data 1)) = true.
Proof. vm_compute. auto. Qed.

(** ** C44 *)
Theorem C44_dispatch : forall b h hd sock ep p e, N.of_nat (length h) < u64_max -> let s := fst (run b init h) in let (s', l) := step b e (Packet hd sock ep p) s in
  match target_of hd p with
  | None => s' = s /\ l = []
  | Some Stun => s' = s /\ l = [ToStun]
  | Some Attacher => s' = s /\ l = [ToAttacher]
  | Some Clients => ~ In ToStun l /\ ~ In ToAttacher l /\ t_queue s' = t_queue s /\ forall k x q, In (Udp k x q) l -> nth_error q 0 = Some 240
  | Some RendezvousPart => t_conns s' = t_conns s /\ forall x, In x l -> exists k ep' q, x = Udp k ep' q /\ nth_error q 0 = Some 241
  end.
Proof.
  intros b h hd sock ep p e L s. pose proof (reach_fresh b h L) as F. pose proof (reach_cinv b h ltac:(lia)) as C. pose proof (reach_rinv b h) as R. fold s in F, C, R. clearbody s.
  destruct (step b e (Packet hd sock ep p) s) as [s' l] eqn:E. pose proof E as E0. rewrite split_packet in E. destruct (target_of hd p) as [[]|] eqn:T; try (injection E as <- <-; auto; fail).
  - assert (X : forall x, In x l -> clients_out b e sock ep p s l x). { intros x X. pose proof (out_clients b e sock ep p s x (proj1 F)) as O. rewrite E in O. exact (O X). }
    split; [intros I; apply X in I; inversion I; subst; try (cbn in *; contradiction); intuition discriminate|].
    split; [intros I; apply X in I; inversion I; subst; try (cbn in *; contradiction); intuition discriminate|].
    split; [pose proof (calm_clients b e sock ep p s) as [Q _]; rewrite E in Q; exact Q|]. intros k x q I. apply (udp240 b e (Packet hd sock ep p) s k x q (proj1 F) C); [cbn [rv_step]; rewrite T; reflexivity|rewrite E0; exact I].
  - split; [pose proof (conns_rv_packet e sock ep p s) as Q; rewrite E in Q; exact Q|]. intros x I. destruct (rv_packet_ok e hd sock ep p s R T) as (_ & sent & _ & O & _). rewrite E in O. cbn [snd] in O. rewrite O in I.
    apply in_flat_map in I. destruct I as (r & _ & I). unfold packet_of in I. destruct (r_sock r); [|destruct I]. destruct I as [<-|[]]. eexists _, _, _. split; reflexivity.
Qed.
Print Assumptions C44_dispatch.
Theorem C44_short : forall b hd sock ep p e s, (length p < 17)%nat -> target_of hd p = Some Clients \/ target_of hd p = Some RendezvousPart -> step b e (Packet hd sock ep p) s = (s, []).
Proof.
  intros b hd sock ep p e s L T. rewrite split_packet. destruct T as [-> | ->]; [unfold clients_packet|unfold rv_packet]; apply Nat.ltb_lt in L; rewrite L; reflexivity.
Qed.
Print Assumptions C44_short.
(** Nothing outside the packet is read. *)
Theorem C44_no_crash : forall b h, N.of_nat (length h) <= u64_max -> Forall data_ok h -> ~ In Crash (outs (snd (run b init h))).
Proof. exact no_crash. Qed.
Print Assumptions C44_no_crash.
Theorem C44_ids_unique : forall b h r1 r2 i, N.of_nat (length h) <= u64_max -> conn_id r1 (fst (run b init h)) = Some i -> conn_id r2 (fst (run b init h)) = Some i -> r1 = r2.
Proof.
  intros b h r1 r2 i L A B. pose proof (reach_cinv b h L) as C. rewrite conn_id_at in A, B. destruct (client_at r1 _) as [k1|] eqn:K1; [|discriminate]. destruct (client_at r2 _) as [k2|] eqn:K2; [|discriminate].
  injection A as A. injection B as B. eapply (c_one _ _ C); eauto. congruence.
Qed.
Print Assumptions C44_ids_unique.
(** What a client packet is given to: the connection with its id, or a new one. *)
Theorem C44_delivered : forall b h o e r ch d, N.of_nat (length h) < u64_max -> let s := fst (run b init h) in let l := snd (step b e o s) in In (ToDtls r ch d) l ->
  exists hd sock ep p, o = Packet hd sock ep p /\ d = skipn 16 p /\ (conn_id r s = Some (id_of p) \/ In (Created r) l).
Proof.
  intros b h o e r ch d L. cbv zeta. intros I. pose proof (reach_fresh b h L) as F. pose proof (proj1 F) as D. destruct o as [hd sock ep p|ref v|ref c bytes tok|ref ok| | |id ep| |ref| |cb| ].
  - exists hd, sock, ep, p. split; [reflexivity|]. rewrite split_packet in *. destruct (target_of hd p) as [[]|] eqn:T; try (cbn in I; intuition discriminate).
    + pose proof (out_clients _ _ _ _ _ _ _ D I) as O. inversion O; subst; try (cbn in *; contradiction); try (intuition discriminate).
    + exfalso. destruct (rv_packet_ok e hd sock ep p _ (reach_rinv b h) T) as (_ & sent & _ & E & _). rewrite E in I. apply in_flat_map in I. destruct I as (x & _ & I). unfold packet_of in I. destruct (r_sock x); cbn in I; intuition discriminate.
  - exfalso. cbn [step] in I. unfold with_client in I. destruct (from_ref ref _) as [[r0 [k|]]|]; try destruct I. apply out_dtls in I. exact I.
  - exfalso. cbn [step] in I. unfold with_client in I. destruct (from_ref ref _) as [[r0 [k|]]|]; try destruct I. unfold send_to_udp in I. destruct (k_sent k); [cbn in I; intuition discriminate|]. cbv zeta in I. destruct (_ || _) in I; [|destruct (N.eqb _ _) in I]; cbn in I; intuition discriminate.
  - exfalso. cbn [step] in I. unfold with_client in I. destruct (from_ref ref _) as [[r0 [k|]]|]; try destruct I. unfold sent_cb in I. destruct (k_sent k); cbn in I; intuition discriminate.
  - destruct I.
  - exfalso. destruct (rv_steps b e RendezvousSent _ (reach_rinv b h) eq_refl) as (_ & sent & _ & E & _). rewrite E in I. apply in_flat_map in I. destruct I as (x & _ & I). unfold packet_of in I. destruct (r_sock x); cbn in I; intuition discriminate.
  - exfalso. destruct (rv_steps b e (Rendezvous id ep) _ (reach_rinv b h) eq_refl) as (_ & sent & _ & E & _). rewrite E in I. apply in_flat_map in I. destruct I as (x & _ & I). unfold packet_of in I. destruct (r_sock x); cbn in I; intuition discriminate.
  - exfalso. cbn [step] in I. destruct (alloc (a_mem e) None _) as [s1 [r1|]]; cbn in I; intuition discriminate.
  - exfalso. cbn [step] in I. destruct (from_ref ref _) as [[r0 [k|]]|]; try destruct I. apply destroy_out in I. intuition discriminate.
  - destruct I.
  - exfalso. cbn [step] in I. apply close_all_out in I. destruct I as [[? I]|[I|[? I]]]; discriminate.
  - destruct I.
Qed.
Print Assumptions C44_delivered.
(** When a connection is made; the packet need not be a client hello. *)
Theorem C44_new_partial : forall b h o e r, N.of_nat (length h) < u64_max -> In (Created r) (snd (step b e o (fst (run b init h)))) ->
  exists hd sock ep p, o = Packet hd sock ep p /\ target_of hd p = Some Clients /\ (17 <= length p)%nat /\ nth_error p 16 = Some 22 /\ forall r', conn_id r' (fst (run b init h)) <> Some (id_of p).
Proof.
  intros b h o e r L I. pose proof (reach_fresh b h L) as F. destruct (created_packet b e o _ r (proj1 F) I) as (hd & sock & ep & p & A1 & A2 & A3 & A4 & A5). exists hd, sock, ep, p. do 4 (split; [assumption|]).
  intros r' E. rewrite conn_id_at in E. destruct (client_at r' _) as [k|] eqn:K; [|discriminate]. injection E as E. exact (from_id_none _ _ _ _ A5 K E).
Qed.
Print Assumptions C44_new_partial.
Theorem C44_hello_refuted : exists p, length p = 17%nat /\ ~ client_hello p /\ In (Created 1) (snd (step ServerBuild good (from 0 7 p) init)).
Proof. exists (240 :: id1 ++ [0; 22]). split; [reflexivity|]. split; [intros [_ H]; discriminate|]. vm_compute. auto. Qed.
Print Assumptions C44_hello_refuted.
Example C44_ex : let h := [(from 0 7 (hello 0), good); (from 0 7 (0 :: hello 0), good); (from 0 7 (hello 0), data 1)] in Forall data_ok h /\
  map snd (snd (run ServerBuild init h)) = [[Created 1; ToDtls 1 0 [22; 254; 253]]; [ToStun]; [ToDtls 1 0 [22; 254; 253]; App 1 [6; 0]]] /\ conn_id 1 (fst (run ServerBuild init h)) = Some id1 /\ target_of plain_udp (hello 0) = Some Clients.
Proof. split; [repeat (constructor; [split; [intros n; vm_compute; intuition discriminate|exact I]|]); constructor|]. vm_compute. auto. Qed.

(** ** C45 *)
Theorem C45_at_most_one : forall b h k ep q, N.of_nat (length h) <= u64_max -> response q -> (count (is_packet k ep q) (outs (snd (run b init h))) <= count (asks k ep q) h)%nat.
Proof. intros b h k ep q L R. pose proof (responses b h k ep q L R). lia. Qed.
Print Assumptions C45_at_most_one.
Theorem C45_not_larger : forall b h k ep q, N.of_nat (length h) <= u64_max -> response q -> In (Udp k ep q) (outs (snd (run b init h))) ->
  exists hd p e, In (Packet hd k ep p, e) h /\ target_of hd p = Some RendezvousPart /\ q = answer p /\ (length q <= length p)%nat.
Proof.
  intros b h k ep q L R I. pose proof (C45_at_most_one b h k ep q L R) as C. assert (X : (0 < count (is_packet k ep q) (outs (snd (run b init h))))%nat).
  { unfold count. destruct (filter _ _) eqn:E; [|cbn; lia]. exfalso. assert (Y : In (Udp k ep q) []) by (rewrite <- E; apply filter_In; split; [exact I|]; cbn; rewrite !Nat.eqb_refl; cbn; apply bytes_eqb_eq; reflexivity). destruct Y. }
  assert (Y : (0 < count (asks k ep q) h)%nat) by lia. unfold count in Y. destruct (filter (asks k ep q) h) as [|m l] eqn:E; [cbn in Y; lia|]. assert (Z : In m (m :: l)) by (left; reflexivity). rewrite <- E in Z. apply filter_In in Z. destruct Z as [Z1 Z2].
  destruct (asks_size k ep q m Z2) as (hd & p & A1 & A2 & A3 & A4 & A5 & _). destruct m as [o e]. cbn in A1. subst o. exists hd, p, e. split; [exact Z1|]. split; [exact A2|]. split; [exact A5|lia].
Qed.
Print Assumptions C45_not_larger.
Theorem C45_queue : forall b h, (length (t_queue (fst (run b init h))) <= 10)%nat /\ (t_busy (fst (run b init h)) = false -> t_queue (fst (run b init h)) = []).
Proof. intros b h. destruct (reach_rinv b h) as [A B C]. auto. Qed.
Print Assumptions C45_queue.
(** A request for a known connection is not answered, and a request for one which does not exist is. *)
Definition request (id : list N) (ch : N) : list N := 241 :: id ++ [ch; 1].
Theorem C45_known_refuted :
  (exists h i r, conn_id r (fst (run ServerBuild init h)) = Some i /\ t_queue (fst (run ServerBuild init h)) = [] /\ snd (step ServerBuild good (from 0 9 (request i 0)) (fst (run ServerBuild init h))) = []) /\
  (exists h i q, (forall r, conn_id r (fst (run ServerBuild init h)) <> Some i) /\ length i = 14%nat /\ In (Udp 0 9 q) (snd (step ServerBuild good (from 0 9 (request i 14)) (fst (run ServerBuild init h))))).
Proof.
  split.
  - exists [(from 0 7 (hello 0), good)], id1, 1. vm_compute. auto.
  - exists [(from 0 7 (hello 0), good)], [0; 1; 2; 3; 4; 5; 6; 7; 8; 9; 10; 11; 12; 13], (answer (request [0; 1; 2; 3; 4; 5; 6; 7; 8; 9; 10; 11; 12; 13] 14)).
    split; [|vm_compute; auto]. intros r. unfold conn_id. cbn [run fst snd]. match goal with |- context [from_ref r ?s] => let s' := eval vm_compute in s in change s with s' end. unfold from_ref. cbn [t_conns find n_ref]. destruct (N.eqb 1 r); vm_compute; discriminate.
Qed.
Print Assumptions C45_known_refuted.
(** What is looked up is the 14 bytes from the third one; without a connection with that id there is no answer. *)
Theorem C45_known_partial : forall b h hd sock ep p e, N.of_nat (length h) < u64_max -> let s := fst (run b init h) in
  target_of hd p = Some RendezvousPart -> nth_error p 16 = Some 1 -> (forall r, conn_id r s <> Some (id_of (skipn 1 p))) -> step b e (Packet hd sock ep p) s = (s, []).
Proof.
  intros b h hd sock ep p e L s T N16 NK. pose proof (reach_fresh b h L) as F. fold s in F. rewrite split_packet, T. unfold rv_packet. destruct (Nat.ltb_spec (length p) 17) as [X|X]; [reflexivity|]. rewrite N16. destruct (packet_nth p 15 ltac:(lia)) as [ch N15]. rewrite N15.
  unfold copy. rewrite !skipn_length. destruct (Nat.leb_spec 14 (length p - 1)); [|lia]. destruct (Nat.leb_spec 14 (length p - 2)); [|lia]. cbn [N.eqb Pos.eqb].
  destruct (from_id (skipn 1 p) s) as [c|] eqn:FI; [|reflexivity]. exfalso. destruct (from_id_some _ _ _ (proj1 F) FI) as (k & _ & K & I). apply (NK (n_ref c)). rewrite conn_id_at, K, I. reflexivity.
Qed.
Print Assumptions C45_known_partial.
Definition ping : list N := 241 :: id1 ++ [0; 4].
Example C45_ex : let h := [(from 0 9 ping, good); (from 0 9 ping, good); (RendezvousSent, good)] in response (answer ping) /\
  count (is_packet 0 9 (answer ping)) (outs (snd (run ServerBuild init h))) = 2%nat /\ count (asks 0 9 (answer ping)) h = 2%nat /\ In (Udp 0 9 (answer ping)) (outs (snd (run ServerBuild init h))).
Proof. vm_compute. intuition. Qed.

(** ** C73 *)
Theorem C73_closed_once_partial : forall b (h1 h2 : list move) e t1 t2 x, N.of_nat (length (h1 ++ (CloseAll true, e) :: h2)) <= u64_max ->
  snd (run b init (h1 ++ (CloseAll true, e) :: h2)) = t1 ++ x :: t2 -> length t1 = length h1 -> In (Return Ok) (snd x) -> forallb negb (a_sync e) = true -> forallb (fun m => negb (is_close m)) h2 = true ->
  (count is_cb (outs t2) <= 1)%nat /\ (opened (t1 ++ x :: t2) = [] -> count is_cb (outs t2) = 1%nat).
Proof. exact closed_once. Qed.
Print Assumptions C73_closed_once_partial.
Example C73_ex : let h := [(from 0 7 (hello 0), good); (CloseAll true, good); (DtlsEvent 1 DtlsClosed, good)] in
  map snd (snd (run ServerBuild init h)) = [[Created 1; ToDtls 1 0 [22; 254; 253]]; [Return Ok]; [Gone 1; CloseCb]] /\ opened (snd (run ServerBuild init h)) = [].
Proof. vm_compute. auto. Qed.
(** When DTLS closes the last connection at once, the callback is never called, although OK was returned: not then and not in any step
    which does not make a connection. *)
Definition sync : env := {| a_mem := true; a_init := true; a_buf := true; a_dtls := []; a_sync := [true] |}.
Definition makes_none (m : move) : bool := match fst m with Packet _ _ _ _ | NewVirtual => false | _ => true end.
Lemma nobody_run : forall b h s, t_conns s = [] -> rinv s -> forallb makes_none h = true -> ~ In CloseCb (outs (snd (run b s h))).
Proof.
  intros b h. induction h as [|m h IH]; intros s C R M; [intros []|]. cbn in M. apply andb_prop in M. destruct M as [M1 M2].
  assert (X : t_conns (fst (step b (snd m) (fst m) s)) = [] /\ ~ In CloseCb (snd (step b (snd m) (fst m) s))).
  { destruct (rv_step (fst m)) eqn:RS.
    - split; [|intros I; destruct (rv_steps b (snd m) (fst m) s R RS) as (_ & sent & _ & E & _); rewrite E in I; apply in_flat_map in I; destruct I as (x & _ & I); unfold packet_of in I; destruct (r_sock x); cbn in I; intuition discriminate].
      destruct m as [o e]. cbn [fst snd] in *. destruct o; try discriminate; cbn [step]; [destruct (t_busy s); [rewrite conns_rv_send|]; exact C|rewrite conns_rv; exact C].
    - destruct m as [o e]. cbn [fst snd] in *. destruct o; try discriminate; cbn [step]; unfold with_client, from_ref; rewrite ?C; cbn [find]; try (cbn; rewrite ?C; intuition discriminate). unfold close_all. rewrite C. cbn. rewrite C. intuition discriminate. }
  destruct X as [X1 X2]. pose proof (rinv_step b (snd m) (fst m) s R) as R1. cbn [run]. destruct (step b (snd m) (fst m) s) as [s1 l]. cbn [fst snd] in *. specialize (IH s1 X1 R1 M2). destruct (run b s1 h) as [s2 t]. cbn [snd] in *.
  unfold outs in *. cbn [flat_map snd]. rewrite in_app_iff. tauto.
Qed.
Theorem C73_never_refuted : exists h, let t := snd (run ServerBuild init h) in opened t = [] /\ last (map snd t) [] = [Gone 1; Return Ok] /\ last (map fst (map fst t)) NewVirtual = CloseAll true /\
  forall h2, forallb makes_none h2 = true -> ~ In CloseCb (outs (snd (run ServerBuild init (h ++ h2)))).
Proof.
  exists [(from 0 7 (hello 0), good); (CloseAll true, sync)]. cbv zeta. do 3 (split; [vm_compute; reflexivity|]). intros h2 M. rewrite run_app.
  pose proof (nobody_run ServerBuild h2) as N0. pose proof (reach_rinv ServerBuild [(from 0 7 (hello 0), good); (CloseAll true, sync)]) as R.
  destruct (run ServerBuild init [(from 0 7 (hello 0), good); (CloseAll true, sync)]) as [s t] eqn:E. cbn [fst] in R. specialize (N0 s). vm_compute in E. injection E as <- <-. specialize (N0 eq_refl R M).
  destruct (run ServerBuild _ h2) as [s2 t2]. cbn [snd] in *. rewrite outs_app, in_app_iff. vm_compute in N0 |- *. intuition discriminate.
Qed.
Print Assumptions C73_never_refuted.
(** While everything is being closed new connections are still accepted. *)
Theorem C73_accepts_refuted : exists h, let s := fst (run ServerBuild init h) in t_closing s = true /\ t_cb s = true /\ In (Created 2) (snd (step ServerBuild good (from 0 8 (240 :: 0 :: id1 ++ [22])) s)).
Proof. exists [(from 0 7 (hello 0), good); (CloseAll true, good)]. vm_compute. auto. Qed.
Print Assumptions C73_accepts_refuted.

(** ** C74 *)
Theorem C74_amplified_refuted : exists p q, length p = 17%nat /\ In (Udp 0 7 q) (snd (step ServerBuild good (from 0 7 p) (set_limit 0 init))) /\ length q = 31%nat.
Proof. exists (240 :: id1 ++ [0; 22]), (240 :: id1 ++ [0] ++ alert). vm_compute. auto. Qed.
Print Assumptions C74_amplified_refuted.
Theorem C74_reply_partial : forall b h hd sock ep p e k x q, N.of_nat (length h) < u64_max -> let s := fst (run b init h) in target_of hd p = Some Clients -> In (Udp k x q) (snd (step b e (Packet hd sock ep p) s)) ->
  k = sock /\ x = ep /\ q = firstn 16 p ++ alert /\ (17 <= length p)%nat /\ nth_error p 16 = Some 22 /\ forall r, conn_id r s <> Some (id_of p).
Proof.
  intros b h hd sock ep p e k x q L s T I. pose proof (reach_fresh b h L) as F. fold s in F. rewrite split_packet, T in I. apply out_clients in I; [|apply F]. inversion I; subst; try (cbn in *; contradiction); try (intuition discriminate).
  do 5 (split; [solve [auto]|]). intros r E. rewrite conn_id_at in E. destruct (client_at r s) as [k0|] eqn:K; [|discriminate]. injection E as E. eapply from_id_none; eauto.
Qed.
Print Assumptions C74_reply_partial.
Theorem C74_one_at_a_time : forall b h, N.of_nat (length h) <= u64_max -> (count error_reply (snd (run b init h)) <= count error_sent (snd (run b init h)) + 1)%nat.
Proof. intros b h L. pose proof (replies b h L). destruct (t_err _); lia. Qed.
Print Assumptions C74_one_at_a_time.
Example C74_ex : let h := [(Limit 0, good); (from 0 7 (hello 0), good); (from 0 8 (hello 0), good); (ErrorSent, good); (from 0 8 (hello 0), good)] in
  count error_reply (snd (run ServerBuild init h)) = 2%nat /\ count error_sent (snd (run ServerBuild init h)) = 1%nat /\ In (Udp 0 8 (240 :: id1 ++ [0] ++ alert)) (outs (snd (run ServerBuild init h))).
Proof. vm_compute. intuition. Qed.

(** ** C75 *)
(** With the DTLS server a connection never goes to another channel. *)
Theorem C75_never_refuted : forall h r, N.of_nat (length h) <= u64_max -> ~ In (Changed r) (outs (snd (run ServerBuild init h))).
Proof. exact server_never. Qed.
Print Assumptions C75_never_refuted.
(** The client sends new data on a new channel from a new endpoint, and the device still sends to the old one. *)
Theorem C75_stays_refuted : exists h q, let s := fst (run ServerBuild init h) in
  In (from 1 8 (hello 1), data 2) h /\ In (App 1 [6; 0]) (last (map snd (snd (run ServerBuild init h))) []) /\ snd (step ServerBuild good (Send 1 255 [23] 0) s) = [Udp 0 7 q; Return Ok].
Proof. exists [(from 0 7 (hello 0), good); (DtlsEvent 1 Handshaken, good); (from 0 7 (hello 0), data 1); (from 1 8 (hello 1), data 2)], (240 :: id1 ++ [0; 23]). vm_compute. intuition. Qed.
Print Assumptions C75_stays_refuted.
Theorem C75_follows_partial : forall h hd sock ep p e r c ch seq ty bytes, N.of_nat (length h) < u64_max -> let s := fst (run ClientOnlyBuild init h) in
  target_of hd p = Some Clients -> (17 <= length p)%nat -> conn_id r s = Some (id_of p) -> channel r s = Some c -> nth_error p 15 = Some ch -> ch <> c ->
  a_dtls e = [Data seq (ty :: bytes)] -> ty <> 4 -> 0 < seq -> (forall x, In x (seqs h) -> x < seq) ->
  let x := step ClientOnlyBuild e (Packet hd sock ep p) s in In (Changed r) (snd x) /\ endpoint r (fst x) = Some (sock, ep) /\ channel r (fst x) = Some ch.
Proof. exact follows_client. Qed.
Print Assumptions C75_follows_partial.
Example C75_ex : let h := [(from 0 7 (hello 0), good); (DtlsEvent 1 Handshaken, good); (from 0 7 (hello 0), data 1)] in let s := fst (run ClientOnlyBuild init h) in
  conn_id 1 s = Some (id_of (hello 1)) /\ channel 1 s = Some 0 /\ seqs h = [1] /\ a_dtls (data 2) = [Data 2 [6; 0]] /\ nth_error (hello 1) 15 = Some 1.
Proof. vm_compute. auto. Qed.

(** ** C76 *)
Theorem C76_one_at_a_time : forall b h r ch bytes tok e, N.of_nat (length h) <= u64_max -> let s := fst (run b init h) in channel r s <> None ->
  let l := snd (step b e (Send r ch bytes tok) s) in
  match pending r (snd (run b init h)) with Some _ => l = [Return InProgress] | None => exists a, l = a ++ [Return Ok] end.
Proof. exact send_result. Qed.
Print Assumptions C76_one_at_a_time.
Theorem C76_completes : forall b h r ok e, N.of_nat (length h) <= u64_max -> let s := fst (run b init h) in channel r s <> None ->
  snd (step b e (Sent r ok) s) = match pending r (snd (run b init h)) with Some tok => [SentCb tok ok] | None => [] end.
Proof. exact sent_result. Qed.
Print Assumptions C76_completes.
(** On the current channel or the default one the packet goes out: the id of the connection, the channel and the data. With the DTLS server
    there is no other channel (C75). *)
Theorem C76_sent_partial : forall b h r ch c i bytes tok e, N.of_nat (length h) <= u64_max -> let s := fst (run b init h) in channel r s = Some c -> conn_id r s = Some i ->
  pending r (snd (run b init h)) = None -> ch = 255 \/ ch = c ->
  exists k ep, endpoint r s = Some (k, ep) /\ snd (step b e (Send r ch bytes tok) s) = [Udp k ep (240 :: i ++ [c] ++ bytes); Return Ok].
Proof. exact send_packet. Qed.
Print Assumptions C76_sent_partial.
(** A send on a channel which a later datagram has replaced is accepted, but nothing is sent, so nothing completes. *)
Theorem C76_lost_refuted : exists h ch, let t := snd (run ClientOnlyBuild init h) in
  In (ToDtls 1 ch [22; 254; 253]) (outs t) /\ snd (step ClientOnlyBuild good (Send 1 ch [23] 5) (fst (run ClientOnlyBuild init h))) = [Return Ok] /\
  snd (step ClientOnlyBuild good (Send 1 255 [23] 6) (fst (step ClientOnlyBuild good (Send 1 ch [23] 5) (fst (run ClientOnlyBuild init h))))) = [Return InProgress].
Proof. exists [(from 0 7 (hello 0), good); (from 0 8 (hello 1), good); (from 0 9 (hello 2), good)], 1. vm_compute. auto 10. Qed.
Print Assumptions C76_lost_refuted.
Example C76_ex : let h := [(from 0 7 (hello 0), good); (Send 1 255 [23] 5, good)] in
  channel 1 (fst (run ServerBuild init h)) = Some 0 /\ pending 1 (snd (run ServerBuild init h)) = Some 5%nat /\ pending 1 (snd (run ServerBuild init (h ++ [(Sent 1 true, good)]))) = None.
Proof. vm_compute. auto. Qed.
