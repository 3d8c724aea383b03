(** Proofs for the property C40. *)
From Coq Require Import List Bool Arith Lia.
From Verif Require Import AttachModel AttachSpec AttachProofs AttachMore.
Import ListNotations.

(** ** What is in the queue when memory is always available *)
Definition plain (q : list event) : bool := match q with [] | [QClose] | [QDns _] | [QClose; QDns _] => true | _ => false end.
Definition none (q : list event) : bool := match q with [] => true | _ => false end.
Definition few (q : list event) : bool := match q with [] | [QClose] => true | _ => false end.
Definition queue_ok (s : st) : Prop :=
  match p_mod s with
  | Setup => few (p_queue s) = true
  | _ => match p_state s with
         | Dns => plain (p_queue s) = true
         | Closed => few (p_queue s) = true
         | RetryWait | DeniedWait => none (p_queue s) = true /\ p_timer s = true
         | _ => none (p_queue s) = true
         end
  end.
Ltac queues := repeat match goal with
  | H : none ?q = true |- _ => destruct q eqn:?; [clear H|discriminate H]
  | H : few ?q = true |- _ => destruct q as [|[| |] [|]] eqn:?; try discriminate H; clear H
  | H : plain ?q = true |- _ => destruct q as [|[| |] [|[| |] [|]]] eqn:?; try discriminate H; clear H
  end.
Lemma step_queue : forall e o s w, inv s w -> known s w o -> e_dns e = true -> e_create e = true -> queue_ok s -> queue_ok (fst (step e o s)).
Proof.
  intros e o s w I K E1 E2 Q. unfold queue_ok in *.
  destruct o; open_step; rewrite ?E1, ?E2; split_step; try assumption; try solve [congruence].
  all: cbn in K.
  all: try (destruct (K eq_refl) as (c0 & K1 & K2 & K3 & K4); rewrite ?K3 in *; try congruence).
  all: repeat match goal with H : p_queue ?x = _ |- _ => rewrite H in * end.
  all: try solve [ands; repeat match goal with H : p_state ?x = _ |- _ => rewrite H in *; clear H end; ands; queues; cbn in *; first [reflexivity|congruence|intuition congruence]].
  all: try match goal with y : list event |- _ => solve [destruct y as [|[| |] [|[| |] [|? ?]]]; try discriminate; reflexivity] end.
  all: try match goal with y : list event |- _ => destruct K as (K1 & K2 & K3); rewrite ?K1 in *; try congruence;
    destruct y as [|[| |] [|[| |] [|? ?]]]; try discriminate; try (split; reflexivity); try reflexivity end.
  all: try solve [destruct (K ltac:(discriminate)) as (c0 & K1 & K2 & K3 & K4); rewrite ?K3 in *; congruence].
  destruct (K Heqb) as ([K1|K1] & _); rewrite K1 in Q; destruct Q as [Q _]; destruct (p_queue s); [reflexivity|discriminate|reflexivity|discriminate].
Qed.
