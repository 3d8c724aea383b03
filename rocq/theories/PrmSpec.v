(** * What is typed and what it means *)
From Coq Require Import List Bool NArith.
Import ListNotations.
Open Scope N_scope.

(** A line of printable ASCII characters. *)
Definition plain (w : list N) : Prop := Forall (fun c => 32 <= c <= 126) w.
(** Lines typed one after the other, then the rest of the input. *)
Definition typed (l : list (list N)) (rest : list N) : list N := concat (map (fun w => w ++ [10]) l) ++ rest.

(** The word, in small or capital letters. *)
Definition letters (w word : list N) : Prop := Forall2 (fun a b => a = b \/ a + 32 = b) w word.
Definition yes (w : list N) : Prop := letters w [121] \/ letters w [121; 101; 115].
Definition no (w : list N) : Prop := letters w [110] \/ letters w [110; 111].
(** What a line says to a question with or without a default. *)
Definition says (def : option bool) (w : list N) (b : bool) : Prop :=
  (b = true /\ yes w) \/ (b = false /\ no w) \/ (w = [] /\ def = Some b).

(** The number a line of digits stands for. *)
Fixpoint decimal (w : list N) : N :=
  match w with [] => 0 | d :: r => (d - 48) * 10 ^ N.of_nat (length r) + decimal r end.
Definition digits (w : list N) : Prop := w <> [] /\ Forall (fun c => 48 <= c <= 57) w.
(** What a line says to a question for a number up to [max]. *)
Definition counts (def : option N) (max : N) (w : list N) (v : N) : Prop :=
  (digits w /\ (length w <= 15)%nat /\ v = decimal w /\ v <= max) \/ (w = [] /\ def = Some v).
