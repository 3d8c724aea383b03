From Coq Require Import String List Bool Arith Lia.
From Verif Require Import IamPolicyModel IamPolicySpec IamStateModel IamStateSpec IahModel IahSpec.
From Verif Require ListenerModel AuthModel.
Import ListNotations.
Open Scope list_scope. Open Scope nat_scope.

Lemma runs_app : forall E a s b,
  runs E s (a ++ b) = match runs E s a with
                      | None => None
                      | Some (s1, o1) => match runs E s1 b with Some (s2, o2) => Some (s2, o1 ++ o2) | None => None end
                      end.
Proof.
  induction a as [|o a IH]; intros s b; cbn.
  - destruct (runs E s b) as [[? ?]|]; reflexivity.
  - destruct (step E s o) as [[s1 l1]|]; [|reflexivity]. rewrite IH.
    destruct (runs E s1 a) as [[s2 l2]|]; [|reflexivity].
    destruct (runs E s2 b) as [[s3 l3]|]; [|reflexivity]. now rewrite app_assoc.
Qed.

Lemma runs_snoc : forall E a s o,
  runs E s (a ++ [o]) = match runs E s a with
                      | None => None
                      | Some (s1, o1) => match step E s1 o with Some (s2, o2) => Some (s2, o1 ++ o2) | None => None end
                      end.
Proof.
  intros. rewrite runs_app. destruct (runs E s a) as [[s1 o1]|]; [|reflexivity]. cbn.
  destruct (step E s1 o) as [[s2 o2]|]; [|reflexivity]. now rewrite app_nil_r.
Qed.

(** ** Stages of a request *)
Inductive stage := Dropped | Queued | Held | AnsPosted (b : bool) | AnsTold (b : bool) | Posted (b : bool) | Gone (b : bool).
Definition rec (g : stage) : AuthModel.req :=
  match g with
  | Dropped => AuthModel.Build_req 0 false false false false true
  | Queued => AuthModel.Build_req 1 false false false true false
  | Held => AuthModel.Build_req 2 false false false true false
  | AnsPosted b => AuthModel.Build_req 2 true b true true false
  | AnsTold b => AuthModel.Build_req 1 true b false true false
  | Posted b => AuthModel.Build_req 1 true b true true false
  | Gone b => AuthModel.Build_req 0 true b false true true
  end.

(** The same as a ghost state: the stage of every request, and where the handler is. *)
Definition holding (p : phase) (slot : option nat) (r : nat) (g : stage) : Prop :=
  match g with
  | Held => p = Resolved ListenerModel.ok /\ slot = Some r
  | AnsPosted _ | AnsTold _ => p = Answered /\ slot = Some r
  | _ => (p = Resolved ListenerModel.ok \/ p = Answered) -> slot <> Some r
  end.

Definition queue (d : AuthModel.st) : list nat := match AuthModel.a_listener d with Some l => ListenerModel.l_events l | None => [] end.

Definition Lis (s : st) : Prop :=
  match AuthModel.a_listener (dev s) with
  | None => h_phase s = Off \/ h_phase s = Finished
  | Some l => ListenerModel.l_init l = true /\
      (ListenerModel.l_ec l = ListenerModel.ok /\ ListenerModel.l_cb l = true /\
        match h_phase s with
        | Waiting => ListenerModel.l_fut l = Some 0 /\ ListenerModel.l_place l = Some 0 /\ ListenerModel.l_events l = []
        | Resolved ec => ec = ListenerModel.ok /\ ListenerModel.l_fut l = None
        | Answered | Released => ListenerModel.l_fut l = None
        | _ => False
        end
       \/ ListenerModel.l_ec l = ListenerModel.stopped /\ ListenerModel.l_events l = [] /\ ListenerModel.l_fut l = None /\ h_phase s <> Waiting /\ h_phase s <> Off)
  end.

Record Inv (s : st) : Prop := {
  J_gone : AuthModel.a_gone (dev s) = false;
  J_lis : Lis s;
  J_slot : h_phase s = Resolved ListenerModel.ok \/ h_phase s = Answered -> exists r, h_slot s = Some r /\ r < next s;
  J_new : forall r, next s <= r -> AuthModel.a_reqs (dev s) r = None /\ asks s r = None;
  J_req : forall r, r < next s -> exists g, AuthModel.a_reqs (dev s) r = Some (rec g) /\ holding (h_phase s) (h_slot s) r g /\
            (In r (queue (dev s)) <-> g = Queued);
  J_ask : forall r, r < next s -> exists k, asks s r = Some k;
  J_nodup : NoDup (queue (dev s));
  J_less : forall r, In r (queue (dev s)) -> r < next s }.

Lemma inv_init : forall i, Inv (init i).
Proof.
  intros i. constructor.
  - reflexivity.
  - left. reflexivity.
  - intros [H|H]; discriminate H.
  - intros r _. split; reflexivity.
  - intros r H. inversion H.
  - intros r H. inversion H.
  - constructor.
  - intros r [].
Qed.

(** What the steps do to the requests. *)
Lemma reqs_set : forall d r v x, AuthModel.a_reqs (AuthModel.set_req d r v) x = if Nat.eqb x r then Some v else AuthModel.a_reqs d x.
Proof. reflexivity. Qed.

Lemma do_verdict_queued : forall d r b, AuthModel.a_reqs d r = Some (rec Queued) ->
  AuthModel.do_verdict d r b = Some (AuthModel.set_req d r (rec (Posted b))).
Proof. intros d r b H. unfold AuthModel.do_verdict, AuthModel.get. rewrite H. reflexivity. Qed.
Lemma do_verdict_held : forall d r b, AuthModel.a_reqs d r = Some (rec Held) ->
  AuthModel.do_verdict d r b = Some (AuthModel.set_req d r (rec (AnsPosted b))).
Proof. intros d r b H. unfold AuthModel.do_verdict, AuthModel.get. rewrite H. reflexivity. Qed.
Lemma ref_inc_queued : forall d r, AuthModel.a_reqs d r = Some (rec Queued) ->
  AuthModel.ref_inc d r = Some (AuthModel.set_req d r (rec Held)).
Proof. intros d r H. unfold AuthModel.ref_inc, AuthModel.get. rewrite H. reflexivity. Qed.

Definition post_all (d : AuthModel.st) (q : list nat) : AuthModel.st :=
  {| AuthModel.a_reqs := fun x => if in_dec Nat.eq_dec x q then Some (rec (Posted false)) else AuthModel.a_reqs d x;
     AuthModel.a_listener := AuthModel.a_listener d; AuthModel.a_gone := AuthModel.a_gone d |}.

Lemma released_all : forall q d ec rest, NoDup q ->
  (forall r, In r q -> AuthModel.a_reqs d r = Some (rec Queued)) ->
  exists d', AuthModel.callbacks d (map (fun e => ListenerModel.Released e ec) q ++ rest) = AuthModel.callbacks d' rest /\
    (forall r, AuthModel.a_reqs d' r = if in_dec Nat.eq_dec r q then Some (rec (Posted false)) else AuthModel.a_reqs d r) /\
    AuthModel.a_listener d' = AuthModel.a_listener d /\ AuthModel.a_gone d' = AuthModel.a_gone d.
Proof.
  induction q as [|e q IH]; intros d ec rest Hn Hq; cbn [map app].
  - exists d. split; [reflexivity|]. split; [|auto]. intros r. destruct (in_dec _ _ _); [easy|reflexivity].
  - cbn [AuthModel.callbacks]. rewrite (do_verdict_queued d e false) by (apply Hq; now left).
    inversion Hn as [|? ? Hne Hnq]; subst.
    destruct (IH (AuthModel.set_req d e (rec (Posted false))) ec rest Hnq) as (d' & H1 & H2 & H3 & H4).
    { intros r Hr. rewrite reqs_set. destruct (Nat.eqb_spec r e); [subst; contradiction|]. apply Hq. now right. }
    exists d'. split; [exact H1|]. split; [|split; [rewrite H3|rewrite H4]; reflexivity].
    intros r. rewrite H2, reqs_set.
    destruct (in_dec Nat.eq_dec r q) as [I|I]; destruct (in_dec Nat.eq_dec r (e :: q)) as [J|J]; auto.
    + exfalso. apply J. now right.
    + destruct (Nat.eqb_spec r e); [reflexivity|]. destruct J as [J|J]; [congruence|contradiction].
    + destruct (Nat.eqb_spec r e); [subst; exfalso; apply J; now left|reflexivity].
Qed.

Lemma fold_react_skip : forall (q : list nat) ec l s,
  fold_left react (map AuthModel.L (map (fun e => ListenerModel.Released e ec) q ++ l)) s = fold_left react (map AuthModel.L l) s.
Proof. induction q as [|e q IH]; intros; cbn; auto. Qed.

Lemma tells_L : forall l, flat_map tells (map AuthModel.L l) = [].
Proof. induction l; cbn; auto. Qed.
