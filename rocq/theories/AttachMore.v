(** More proofs for the properties C37 to C41: what is kept beside the invariant of AttachProofs.v. *)
From Coq Require Import List Bool Arith Lia.
From Verif Require Import AttachModel AttachSpec AttachProofs.
Import ListNotations.

(** ** No crash *)
Lemma hsc_crash : forall e s, p_state s <> Dns \/ p_host s <> None -> ~ In Crash (snd (handle_state_change e s)).
Proof.
  intros e s H. unfold handle_state_change. destruct (p_state s); cbn; try tauto; try (intuition discriminate).
  - destruct (p_host s); [cbn; intuition discriminate|tauto].
  - destruct (e_create e); cbn; [intuition discriminate|]. unfold andthen. cbn. unfold post. destruct (existsb _ _); cbn; tauto.
  - unfold post. destruct (existsb _ _); cbn; tauto.
Qed.
Ltac inner x := lazymatch x with context [match _ with _ => _ end] => fail | _ => idtac end.
Ltac red_step := cbn [fst snd app p_state p_mod p_dtls p_next p_host p_redirects p_dns p_queue p_timer p_cb p_ka p_start p_end p_sct p_tokens p_version p_synced p_uploading
  set_state set_mod set_dtls set_host set_redirects set_dns set_queue set_timer set_cb set_ka set_start set_end set_sct set_tokens say nop].
Ltac split_step := repeat (match goal with
  | |- context [match ?x with _ => _ end] => inner x; destruct x eqn:?; try discriminate
  end; red_step).
Ltac open_step := cbn [step]; unfold start, restart, do_close, add_token, synchronized, resolve_close, dns_resolved, dtls_event, start_answer, upload_answer, end_answer,
   send_start, send_attach_sct, send_sct, sct_upload, send_end, reset_dtls, reattach, go, handle_state_change, close_dtls, andthen, post; red_step.
Lemma step_crash : forall e o s w, known s w o -> ~ In Crash (snd (step e o s)).
Proof.
  intros e o s w K. destruct o.
  all: try (open_step; split_step; try solve [cbn; intuition discriminate]; try solve [cbn in K; intuition congruence]).
Qed.

(** ** Redirects *)
Fixpoint bounded (n : nat) (l : list out) : Prop :=
  match l with [] => n <= 4 | x :: l' => n <= 4 /\ bounded (hops n [x]) l' end.
Lemma hops_app : forall a b n, hops n (a ++ b) = hops (hops n a) b.
Proof. induction a as [|x a IH]; intros b n; [reflexivity|]. destruct x as [[|]| | | | | | | | | | |]; cbn; apply IH. Qed.
Lemma bounded_prefix : forall l n l1 l2, bounded n l -> l = l1 ++ l2 -> hops n l1 <= 4.
Proof.
  induction l as [|x l IH]; intros n l1 l2 B E.
  - destruct l1; [exact B|discriminate].
  - destruct l1 as [|y l1]; [apply B|]. injection E as <- E. destruct B as [_ B]. specialize (IH _ _ _ B E).
    change (x :: l1) with ([x] ++ l1). rewrite hops_app. exact IH.
Qed.
Lemma bounded_app : forall a b n, bounded n a -> bounded (hops n a) b -> bounded n (a ++ b).
Proof.
  induction a as [|x a IH]; intros b n A B; [exact B|]. destruct A as [A1 A2]. split; auto.
  fold (app a b). apply IH; auto. change (x :: a) with ([x] ++ a) in B. rewrite hops_app in B. exact B.
Qed.
Lemma bounded_last : forall l n, bounded n l -> hops n l <= 4.
Proof. intros l n B. apply (bounded_prefix l n l []); auto. rewrite app_nil_r. reflexivity. Qed.
Definition redirect_ok (s : st) (n : nat) : Prop :=
  match p_mod s with
  | Setup => n = 0 /\ p_redirects s = 0
  | _ => match p_state s with
         | Dns | Request | Attached => n <= p_redirects s /\ p_redirects s <= 4
         | Redirect => n + 1 <= p_redirects s /\ p_redirects s <= 5
         | _ => True
         end
  end.
Lemma step_redirect : forall e o s w n, inv s w -> known s w o -> n <= 4 -> redirect_ok s n ->
  bounded n (snd (step e o s)) /\ redirect_ok (fst (step e o s)) (hops n (snd (step e o s))).
Proof.
  intros e o s w n I K L R. unfold redirect_ok in R.
  destruct o; open_step; split_step; cbn [bounded hops fst snd]; unfold redirect_ok; red_step.
  all: try solve [cbn in *; intuition (try congruence; try lia)].
  all: try solve [destruct (p_mod s), (p_state s); try discriminate; intuition (try congruence; try lia)].
  all: cbn in K.
  all: try match goal with H : p_queue ?s0 = _ |- _ => rewrite H in K; destruct K as [K _]; rewrite K in R; lia end.
  all: try match goal with H : Nat.leb max_redirect _ = false |- _ => apply Nat.leb_gt in H; unfold max_redirect in H; destruct t; cbn in *; intuition lia end.
  all: try (destruct (K ltac:(discriminate)) as (c & K1 & K2 & K3 & K4); try congruence; rewrite K3 in R).
  all: try (rewrite Nat.mod_small by lia; intuition lia).
  all: try (destruct (K eq_refl) as (c & K1 & K2 & K3 & K4); try congruence; rewrite K3 in R; intuition lia).
Qed.

