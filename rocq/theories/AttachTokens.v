(** Proofs for the property C41. *)
From Coq Require Import List Bool Arith Lia.
From Verif Require Import AttachModel AttachSpec AttachProofs AttachMore.
Import ListNotations.

(** The uploads of this connection count: synced is about what this server has got. *)
Definition past (s : st) (w : world) : Prop :=
  p_state s = Attached \/ exists c, p_dtls s = Some c /\ (w_end w = Some c \/ p_sct s = Some (Some c, true)).
Definition tokens_ok (s : st) (w : world) (a : list nat) : Prop :=
  a = p_tokens s /\ (p_version s = 0 -> p_tokens s = []) /\ p_synced s <= p_version s /\ p_uploading s <= p_version s /\
  (p_sct s <> None -> p_uploading s = p_version s -> exists c l, w_up w = Some (c, l) /\ incl (p_tokens s) l) /\
  (past s w -> p_synced s = p_version s -> incl (p_tokens s) (w_acked w)).
Definition more (a : list nat) (x : move * list out) : list nat := a ++ added [x].
Lemma step_tokens : forall e o s w a, inv s w -> known s w o -> tokens_ok s w a ->
  tokens_ok (fst (step e o s)) (see w ((o, e), snd (step e o s))) (more a ((o, e), snd (step e o s))).
Proof.
  intros e o s w a I K (T1 & T2 & T3 & T4 & T5 & T6). unfold tokens_ok, see, more, added, past in *. cbn [flat_map fst snd].
  destruct o; open_step; split_step; rewrite ?app_nil_r; cbn [fold_left look hear w_hand w_live w_up w_acked w_end]; rewrite ?app_nil_r.
  all: split; [subst a; cbn; first [reflexivity|symmetry; apply app_nil_r]|].
  all: split; [first [assumption|discriminate|auto]|].
  all: split; [lia|]. all: split; [lia|].
  all: split; [intros N U; first [congruence|lia|apply T5; assumption|apply T5; congruence|eexists _, _; split; [reflexivity|apply incl_refl]]|].
  all: intros P V; try lia.
  all: try solve [apply T6; assumption].
  all: cbn in K.
  all: try (rewrite T2 by lia; intros ? []; fail).
  all: destruct P as [P|(c1 & P1 & [P2|P2])]; try discriminate.
  all: try solve [apply T6; [|assumption]; first [left; assumption|left; reflexivity|right; eexists; split; [eassumption|auto; fail]]].
  all: try solve [exfalso; congruence].
  all: try solve [exfalso; injection P1 as <-; destruct I as ([B1 B2 B3 B4 B5 B6] & _); specialize (B6 (p_next s)); rewrite ?P2 in B6; cbn in B6;
    assert (p_next s < p_next s) by (apply B6; auto); lia].
  all: try solve [destruct T5 as (c2 & l2 & -> & X); [congruence|congruence|exact X]].
  all: try solve [destruct ok; [destruct (K eq_refl) as (c2 & b2 & l2 & _ & _ & X & _); congruence|]; apply T6; [|assumption];
     first [left; assumption|right; exists c1; auto; fail]].
  all: try solve [apply T6; [right; exists c1; split; [congruence|auto]|assumption]].
  all: try solve [apply T6; [left; congruence|assumption]].
  all: try solve [destruct (K eq_refl) as (c2 & X1 & X2 & X3 & X4); apply T6; [right; exists c2; split; [congruence|auto]|assumption]].
  all: try solve [intuition congruence].
Qed.
