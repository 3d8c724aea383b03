(** Proofs for the properties C44 and C45: the rendezvous queue. *)
From Coq Require Import List NArith PeanoNat Bool Lia.
From Verif Require Import NetModel NetSpec NetProofs NetMore NetHist.
Import ListNotations.
Local Open Scope N_scope.

Record rinv (s : net) : Prop := {
  q_len : (length (t_queue s) <= 10)%nat; q_busy : t_busy s = false -> t_queue s = []; q_sock : forall r, In r (t_queue s) -> r_sock r <> None }.
(** What leaves the queue alone. *)
Definition calm (s s' : net) : Prop := t_queue s' = t_queue s /\ t_busy s' = t_busy s.
Lemma calm_refl : forall s, calm s s.
Proof. split; reflexivity. Qed.
Lemma calm_trans : forall a b c, calm a b -> calm b c -> calm a c.
Proof. unfold calm. intuition congruence. Qed.
Lemma calm_destroy : forall r s, calm s (fst (destroy r s)).
Proof. intros. unfold destroy, free_conn. cbv zeta. destruct (_ && _); split; reflexivity. Qed.
Lemma calm_dtls : forall r ch v s, calm s (fst (handle_dtls r ch v s)).
Proof.
  intros. unfold handle_dtls. destruct (from_ref r s) as [[r0 [k|]]|]; try apply calm_refl. destruct v; [apply calm_refl| |apply calm_destroy].
  unfold handle_data. destruct bytes; [apply calm_refl|]. destruct (_ && _); [destruct (_ && _)|]; split; reflexivity.
Qed.
Lemma calm_all : forall r ch l s, calm s (fst (handle_all r ch l s)).
Proof.
  intros r ch l. induction l as [|v l IH]; intros s; [apply calm_refl|]. cbn [handle_all]. pose proof (calm_dtls r ch v s) as C. destruct (handle_dtls r ch v s) as [s1 a].
  specialize (IH s1). destruct (handle_all r ch l s1). eapply calm_trans; eauto.
Qed.
Lemma calm_error : forall k ep p s, calm s (fst (internal_error k ep p s)).
Proof. intros. unfold internal_error. destruct (t_err s); [split; reflexivity|]. destruct (Nat.ltb _ _); split; reflexivity. Qed.
Lemma calm_alloc : forall m i s, calm s (fst (alloc m i s)).
Proof. intros. unfold alloc, next_ref. cbv zeta. destruct (N.leb _ _); [split; reflexivity|]. destruct m; [|split; reflexivity]. destruct (N.ltb _ _); split; reflexivity. Qed.
Lemma calm_clients : forall b e k ep p s, calm s (fst (clients_packet b e k ep p s)).
Proof.
  intros. unfold clients_packet. destruct (Nat.ltb _ _); [apply calm_refl|]. destruct (from_id p s) as [[r [c|]]|]; [|apply calm_refl|].
  - unfold client_packet. destruct (nth_error p 15); [|apply calm_refl]. cbv zeta.
    match goal with |- context [handle_all r ?c ?l ?s1] => pose proof (calm_all r c l s1) as L; destruct (handle_all r c l s1) end. exact L.
  - destruct (nth_error p 16); [|apply calm_refl]. destruct (nth_error p 15); [|apply calm_refl]. destruct (copy 16 p); [|apply calm_refl]. destruct (N.eqb _ _); [|apply calm_refl]. cbv zeta.
    match goal with |- context [alloc ?m ?i s] => pose proof (calm_alloc m i s) as A; destruct (alloc m i s) as [s1 [r|]] end; cbn [fst] in A; [|eapply calm_trans; [exact A|apply calm_error]].
    destruct (a_init e).
    + match goal with |- context [handle_all r ?c ?l ?s1] => pose proof (calm_all r c l s1) as L; destruct (handle_all r c l s1) end. eapply calm_trans; eauto.
    + pose proof (calm_error k ep p s1) as L. destruct (internal_error k ep p s1) as [s2 l1]. pose proof (calm_destroy r s2) as F. destruct (destroy r s2). eapply calm_trans; [exact A|]. eapply calm_trans; eauto.
Qed.
Lemma calm_close_each : forall l sync s, calm s (fst (fst (close_each l sync s))).
Proof.
  induction l as [|[r [k|]] l IH]; intros sync s; cbn [close_each]; auto; [apply calm_refl|]. destruct sync as [|[|] sync]; cbn [tl].
  - specialize (IH [] s). destruct (close_each l [] s) as [[s2 c] x]. exact IH.
  - pose proof (calm_destroy r s) as L. destruct (destroy r s) as [s1 a]. specialize (IH sync s1). destruct (close_each l sync s1) as [[s2 c] x]. eapply calm_trans; eauto.
  - specialize (IH sync s). destruct (close_each l sync s) as [[s2 c] x]. exact IH.
Qed.

(** The packet which a queued response becomes. *)
Definition packet_of (r : rv) : list out := match r_sock r with Some k => [Udp k (r_ep r) (241 :: r_id r ++ [r_chan r; r_type r])] | None => [] end.
(** A step either leaves the queue alone, or puts at most one request in it and takes some out of it, each of which is sent at most once. *)
Definition asked (o : op) (s : net) : list rv :=
  match o with
  | Packet h sock ep p =>
    match target_of h p, nth_error p 16, nth_error p 15 with
    | Some RendezvousPart, Some t, Some ch =>
      if Nat.leb 17 (length p) then
        if N.eqb t 4 then [{| r_type := 5; r_id := id_of p; r_chan := ch; r_sock := Some sock; r_ep := ep |}]
        else if N.eqb t 1 && match from_id (skipn 1 p) s with Some _ => true | None => false end
             then [{| r_type := 2; r_id := id_of p; r_chan := ch; r_sock := Some sock; r_ep := ep |}] else []
      else []
    | _, _, _ => []
    end
  | Rendezvous id ep => match t_default s with Some k => [{| r_type := 3; r_id := id; r_chan := 0; r_sock := Some k; r_ep := ep |}] | None => [] end
  | _ => []
  end.
Definition rv_ok (new : list rv) (s : net) (x : net * list out) : Prop :=
  rinv (fst x) /\ exists sent lost, snd x = flat_map packet_of sent /\ incl (sent ++ lost ++ t_queue (fst x)) (new ++ t_queue s) /\
    (forall f : rv -> bool, (count f sent + count f (t_queue (fst x)) <= count f new + count f (t_queue s))%nat) /\ (length sent <= 1)%nat.
Lemma count_cons : forall A (f : A -> bool) x l, count f (x :: l) = ((if f x then 1 else 0) + count f l)%nat.
Proof. intros. unfold count. cbn. destruct (f x); reflexivity. Qed.
Lemma count_nil : forall A (f : A -> bool), count f [] = 0%nat.
Proof. reflexivity. Qed.
Lemma count_app : forall A (f : A -> bool) a b, count f (a ++ b) = (count f a + count f b)%nat.
Proof. intros. unfold count. rewrite filter_app, app_length. reflexivity. Qed.
Lemma rv_send_ok : forall m s, (length (t_queue s) <= 10)%nat -> (forall r, In r (t_queue s) -> r_sock r <> None) -> rv_ok [] s (rv_send m s).
Proof.
  intros m s L S. unfold rv_send. destruct (t_busy s) eqn:B.
  - split; [split; cbn; auto; congruence|]. exists [], []. cbn. split; [reflexivity|]. split; [apply incl_refl|]. split; [intros f; cbn; lia|lia].
  - destruct (t_queue s) as [|r q] eqn:Q.
    + split; [split; cbn; rewrite ?Q; cbn; auto; try lia; intros ? []|]. exists [], []. cbn. rewrite Q. split; [reflexivity|]. split; [apply incl_refl|]. split; [intros f; cbn; lia|lia].
    + cbn in L. destruct m.
      * destruct (r_sock r) as [k|] eqn:K; [|exfalso; apply (S r); cbn; auto]. split; [split; cbn; [lia|discriminate|intros x X; apply S; cbn; auto]|].
        exists [r], []. cbn. unfold packet_of. rewrite K. split; [reflexivity|]. split; [rewrite Q; apply incl_refl|]. split; [|lia]. intros f. rewrite Q. unfold count. cbn. destruct (f r); cbn; lia.
      * split; [split; cbn; [lia|auto|intros ? []]|]. exists [], []. cbn. split; [reflexivity|]. split; [intros ? []|]. split; [intros f; rewrite Q; lia|lia].
Qed.
Lemma rv_queue_ok : forall m r k s, rinv s -> (match r_sock r with Some k => Some k | None => t_default s end) = Some k ->
  rv_ok [{| r_type := r_type r; r_id := r_id r; r_chan := r_chan r; r_sock := Some k; r_ep := r_ep r |}] s (rv_queue m r s).
Proof.
  intros m r k s [L B S] K. unfold rv_queue. rewrite K. destruct (Nat.leb_spec rv_max (length (t_queue s))) as [X|X].
  - split; [split; cbn; auto|]. exists [], []. cbn. split; [reflexivity|]. split; [intros y Y; right; exact Y|]. split; [intros f; lia|lia].
  - set (r' := {| r_type := r_type r; r_id := r_id r; r_chan := r_chan r; r_sock := Some k; r_ep := r_ep r |}).
    destruct (rv_send_ok m (set_queue (r' :: t_queue s) (t_busy s) s)) as (I & sent & lost & E1 & E2 & E3 & E4).
    + cbn. unfold rv_max in X. lia.
    + cbn. intros x [<-|Y]; [discriminate|auto].
    + split; [exact I|]. exists sent, lost. split; [exact E1|]. split; [exact E2|]. split; [|exact E4]. intros f. specialize (E3 f). cbn [t_queue set_queue] in E3. rewrite count_cons in E3. rewrite count_cons, ?count_nil in *. lia.
Qed.
Lemma rv_same : forall new s x, rinv s -> calm s (fst x) -> snd x = [] -> rv_ok new s x.
Proof.
  intros new s x [L B S] [C1 C2] E. split; [split; rewrite ?C1, ?C2; auto|]. exists [], []. rewrite E, C1. cbn. split; [reflexivity|]. split; [apply incl_appr, incl_refl|]. split; [intros f; lia|lia].
Qed.
Lemma rv_packet_ok : forall e h sock ep p s, rinv s -> target_of h p = Some RendezvousPart -> rv_ok (asked (Packet h sock ep p) s) s (rv_packet e sock ep p s).
Proof.
  intros e h sock ep p s I T. unfold rv_packet, asked. rewrite T. destruct (Nat.ltb_spec (length p) 17) as [L|L]; [apply rv_same; auto; apply calm_refl|].
  destruct (packet_nth p 16 ltac:(lia)) as [t N16]. destruct (packet_nth p 15 ltac:(lia)) as [ch N15]. rewrite N16, N15. unfold copy at 1.
  rewrite skipn_length. destruct (Nat.leb_spec 14 (length p - 1)) as [L1|L1]; [|lia]. destruct (Nat.leb_spec 17 (length p)) as [L2|L2]; [|lia].
  destruct (N.eqb_spec t 1) as [->|E1]; cbn [N.eqb Pos.eqb andb].
  - unfold copy. rewrite skipn_length. destruct (Nat.leb_spec 14 (length p - 2)) as [L3|L3]; [|lia]. destruct (from_id (skipn 1 p) s); [apply rv_queue_ok with (r := {| r_type := 2; r_id := firstn 14 (skipn 1 p); r_chan := ch; r_sock := Some sock; r_ep := ep |}); auto|apply rv_same; auto; apply calm_refl].
  - destruct (N.eqb_spec t 4) as [->|E4]; [apply rv_queue_ok with (r := {| r_type := 5; r_id := firstn 14 (skipn 1 p); r_chan := ch; r_sock := Some sock; r_ep := ep |}); auto|apply rv_same; auto; apply calm_refl].
Qed.
(** The rendezvous steps, and all others. *)
Definition rv_step (o : op) : bool := match o with Packet h _ _ p => match target_of h p with Some RendezvousPart => true | _ => false end | Rendezvous _ _ | RendezvousSent => true | _ => false end.
Lemma rv_steps : forall b e o s, rinv s -> rv_step o = true -> rv_ok (asked o s) s (step b e o s).
Proof.
  intros b e o s I R. destruct o; try discriminate; cbn [rv_step] in R.
  - rewrite split_packet. destruct (target_of h p) as [[]|] eqn:T; try discriminate. apply rv_packet_ok; auto.
  - cbn [step asked]. destruct I as [L B S]. destruct (t_busy s) eqn:Bu; [|apply rv_same; [split; auto|apply calm_refl|reflexivity]].
    destruct (rv_send_ok (a_buf e) (set_queue (t_queue s) false s)) as (J & sent & lost & E1 & E2 & E3 & E4); auto. split; [exact J|]. exists sent, lost. auto.
  - cbn [step asked]. destruct (t_default s) as [k|] eqn:K.
    + apply (rv_queue_ok (a_buf e) {| r_type := 3; r_id := id; r_chan := 0; r_sock := None; r_ep := ep |} k s I K).
    + apply rv_same; auto; unfold rv_queue; cbn [r_sock]; rewrite K; destruct (Nat.leb _ _); try reflexivity; apply calm_refl.
Qed.
Lemma calm_steps : forall b e o s, rv_step o = false -> calm s (fst (step b e o s)).
Proof.
  intros b e o s R. destruct o; cbn [rv_step] in R; try discriminate.
  - rewrite split_packet. destruct (target_of h p) as [[]|]; try apply calm_refl; [apply calm_clients|discriminate].
  - cbn [step]. unfold with_client. destruct (from_ref ref s) as [[r0 [k|]]|]; try apply calm_refl. apply calm_dtls.
  - cbn [step]. unfold with_client. destruct (from_ref ref s) as [[r0 [k|]]|]; try apply calm_refl. unfold send_to_udp. destruct (k_sent k); [apply calm_refl|]. cbv zeta. destruct (_ || _); [|destruct (N.eqb _ _)]; split; reflexivity.
  - cbn [step]. unfold with_client. destruct (from_ref ref s) as [[r0 [k|]]|]; try apply calm_refl. unfold sent_cb. destruct (k_sent k); split; reflexivity.
  - split; reflexivity.
  - cbn [step]. pose proof (calm_alloc (a_mem e) None s) as C. destruct (alloc (a_mem e) None s) as [s1 [r|]]; exact C.
  - cbn [step]. destruct (from_ref ref s) as [[r0 [k|]]|]; try apply calm_refl. apply calm_destroy.
  - split; reflexivity.
  - cbn [step]. unfold close_all. pose proof (calm_close_each (t_conns s) (a_sync e) (set_closing true (t_cb s) s)) as C. destruct (close_each (t_conns s) (a_sync e) (set_closing true (t_cb s) s)) as [[s1 l] [|]]; exact C.
  - split; reflexivity.
Qed.
Lemma rinv_step : forall b e o s, rinv s -> rinv (fst (step b e o s)).
Proof.
  intros b e o s I. destruct (rv_step o) eqn:R; [apply (rv_steps b e o s I R)|]. destruct (calm_steps b e o s R) as [C1 C2]. destruct I as [L B S]. split; rewrite ?C1, ?C2; auto.
Qed.
Lemma reach_rinv : forall b h, rinv (fst (run b init h)).
Proof. intros b h. induction h as [|m h IH] using rev_ind; [split; cbn; [lia|auto|intros ? []]|]. rewrite last_run. apply rinv_step. exact IH. Qed.
