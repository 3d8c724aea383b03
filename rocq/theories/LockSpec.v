(** What the use of locks has to be. *)
From Coq Require Import List Bool Arith String.
From Verif Require Import LockModel.
Import ListNotations.

Definition lock_eqb (a b : lock) : bool := match a, b with Core, Core | Fut, Fut | FQ, FQ | EvQ, EvQ => true | _, _ => false end.
(** Taking one lock away. *)
Fixpoint drop (l : lock) (h : list lock) : list lock := match h with [] => [] | x :: h => if lock_eqb x l then h else x :: drop l h end.
(** The locks which are held after an execution which starts with h. *)
Definition held1 (h : list lock) (a : act) : list lock := match a with ALock l => l :: h | AUnlock l => drop l h | _ => h end.
Definition held (h : list lock) (t : list act) : list lock := fold_left held1 t h.
(** The order of the locks. *)
Definition rank (l : lock) : nat := match l with Core => 0 | Fut => 1 | FQ => 2 | EvQ => 3 end.
(** A lock is taken only after locks which come before it, only a held lock is released, a condition variable is waited for with its own lock alone,
    threads are joined and callbacks of the user are called without a lock, the core is used with the lock of the device. *)
Definition proper (h : list lock) (a : act) : Prop :=
  match a with
  | ALock l => forall l', In l' h -> rank l' < rank l
  | AUnlock l => In l h
  | AWait l => h = [l]
  | AJoin | AUser => h = []
  | ATouch => In Core h
  end.
(** All of an execution is proper. *)
Definition all_proper (h : list lock) (t : list act) : Prop := forall t1 a t2, t = t1 ++ a :: t2 -> proper (held h t1) a.
(** The same without the rule for the use of the core. *)
Definition orderly (h : list lock) (t : list act) : Prop := forall t1 a t2, t = t1 ++ a :: t2 -> a <> ATouch -> proper (held h t1) a.

(** * Threads *)
(** Mutexes: a kind and which one. Of an action of a thread the number says which mutex a lock takes; a release releases the one of its kind which the thread holds. *)
Record thread := { todo : list (act * nat); has : list (lock * nat) }.
Fixpoint release (l : lock) (h : list (lock * nat)) : list (lock * nat) := match h with [] => [] | x :: h => if lock_eqb (fst x) l then h else x :: release l h end.
Definition which (l : lock) (h : list (lock * nat)) : nat := match find (fun x => lock_eqb (fst x) l) h with Some x => snd x | None => 0 end.
Definition free (m : lock * nat) (s : list thread) : Prop := forall th, In th s -> ~ In m (has th).
(** A step of one thread when the others are s. A wait releases its mutex and takes it again. A thread which joins others waits: nothing is said about when it goes on, but it may. *)
Inductive move (s : list thread) : thread -> thread -> Prop :=
| m_lock : forall l i t h, free (l, i) s -> ~ In (l, i) h -> move s {| todo := (ALock l, i) :: t; has := h |} {| todo := t; has := (l, i) :: h |}
| m_unlock : forall l i t h, move s {| todo := (AUnlock l, i) :: t; has := h |} {| todo := t; has := release l h |}
| m_wait : forall l i t h, move s {| todo := (AWait l, i) :: t; has := h |} {| todo := (ALock l, which l h) :: t; has := release l h |}
| m_other : forall a i t h, a = AUser \/ a = ATouch -> move s {| todo := (a, i) :: t; has := h |} {| todo := t; has := h |}
| m_join : forall i t h, move s {| todo := (AJoin, i) :: t; has := h |} {| todo := t; has := h |}.
Inductive steps : list thread -> list thread -> Prop :=
| s_refl : forall s, steps s s
| s_move : forall s s1 s2 th th', steps s (s1 ++ th :: s2) -> move (s1 ++ s2) th th' -> steps s (s1 ++ th' :: s2).
(** Some thread can go on which is not joining others. *)
Definition can_go (s : list thread) : Prop := exists s1 th s2 th', s = s1 ++ th :: s2 /\ move (s1 ++ s2) th th' /\ forall i t, todo th <> (AJoin, i) :: t.
(** A thread has ended or joins others. *)
Definition at_rest (th : thread) : Prop := todo th = [] \/ exists i t, todo th = (AJoin, i) :: t.
