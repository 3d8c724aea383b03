(** Executions from lists of choices, for the examples. *)
From Coq Require Import List Bool Arith String.
From Verif Require Import LockModel LockSpec.
Import ListNotations.

(** true: the first branch, another turn of the loop. *)
Fixpoint choose (p : program) (n : nat) (ch : list bool) (c : cmd) : option (list act * exit * list bool) :=
  match n with
  | O => None
  | S n =>
    match c with
    | Skip => Some ([], Norm, ch) | Lock l => Some ([ALock l], Norm, ch) | Unlock l => Some ([AUnlock l], Norm, ch) | Wait l => Some ([AWait l], Norm, ch)
    | Join => Some ([AJoin], Norm, ch) | Touch => Some ([ATouch], Norm, ch) | Ret => Some ([], Returned, ch) | Brk => Some ([], Broke, ch) | Cont => Some ([], Continued, ch)
    | User => Some ([AUser], Norm, ch) | Ext => Some ([ATouch], Norm, ch) | Listener => None
    | Call f => match body p f with
                | None => None
                | Some b => match choose p n ch b with Some (t, Norm, ch) | Some (t, Returned, ch) => Some (t, Norm, ch) | _ => None end
                end
    | Seq a b => match choose p n ch a with
                 | Some (t, Norm, ch) => match choose p n ch b with Some (t', e, ch) => Some (t ++ t', e, ch) | None => None end
                 | Some (t, e, ch) => Some (t, e, ch)
                 | None => None
                 end
    | If a b => match ch with [] => None | x :: ch => choose p n ch (if x then a else b) end
    | Loop a => match ch with
                | [] => None
                | false :: ch => Some ([], Norm, ch)
                | true :: ch => match choose p n ch a with
                                | Some (t, Broke, ch) => Some (t, Norm, ch)
                                | Some (t, Norm, ch) | Some (t, Continued, ch) => match choose p n ch (Loop a) with Some (t', e, ch) => Some (t ++ t', e, ch) | None => None end
                                | Some (t, e, ch) => Some (t, e, ch)
                                | None => None
                                end
                end
    | Block a => match choose p n ch a with Some (t, Broke, ch) => Some (t, Norm, ch) | x => x end
    end
  end.
Lemma choose_exec : forall p n ch c t e ch', choose p n ch c = Some (t, e, ch') -> exec p c t e.
Proof.
  induction n as [|n IH]; intros ch c t e ch' E; [discriminate|]. destruct c; cbn [choose] in E; try (inversion E; subst; constructor; fail); try discriminate.
  - inversion E; subst. constructor. constructor.
  - inversion E; subst. constructor. constructor.
  - destruct (body p f) as [b|] eqn:B; [|discriminate]. destruct (choose p n ch b) as [[[t0 e0] ch0]|] eqn:C; [|discriminate]. apply IH in C. destruct e0; try discriminate; inversion E; subst; eapply e_call; eauto.
  - destruct (choose p n ch c1) as [[[t0 e0] ch0]|] eqn:C; [|discriminate]. apply IH in C. destruct e0; try (inversion E; subst; apply e_seq_end; [assumption|discriminate]).
    destruct (choose p n ch0 c2) as [[[t1 e1] ch1]|] eqn:C2; [|discriminate]. apply IH in C2. inversion E; subst. eapply e_seq; eauto.
  - destruct ch as [|[|] ch]; [discriminate| |]; [apply e_if_l|apply e_if_r]; eapply IH; exact E.
  - destruct ch as [|[|] ch]; [discriminate| |inversion E; subst; constructor]. destruct (choose p n ch c) as [[[t0 e0] ch0]|] eqn:C; [|discriminate]. apply IH in C.
    destruct e0.
    + destruct (choose p n ch0 (Loop c)) as [[[t1 e1] ch1]|] eqn:C2; [|discriminate]. apply IH in C2. inversion E; subst. eapply e_loop; eauto.
    + inversion E; subst. apply e_loop_out; auto.
    + inversion E; subst. apply e_loop_brk; auto.
    + destruct (choose p n ch0 (Loop c)) as [[[t1 e1] ch1]|] eqn:C2; [|discriminate]. apply IH in C2. inversion E; subst. eapply e_loop; eauto.
    + inversion E; subst. apply e_loop_out; auto.
  - destruct (choose p n ch c) as [[[t0 e0] ch0]|] eqn:C; [|discriminate]. apply IH in C. destruct e0; inversion E; subst; try (apply e_block; [assumption|discriminate]). apply e_block_brk. assumption.
Qed.
