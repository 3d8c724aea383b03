(** Specifications of the codecs, independent of the code. *)
From Coq Require Import String Ascii List Bool Arith NArith.
From Verif Require Import CodecModel.
Import ListNotations.

Definition is_byte (b : N) : Prop := (b < 256)%N.
Definition bytes (l : list N) : Prop := Forall is_byte l.

(** Big endian number with the given base. *)
Definition positional (base : N) (digits : list N) : N :=
  fold_left (fun n d => (n * base + d)%N) digits 0%N.

(** Digits of hexadecimal characters. *)
Definition hex_digit (c : ascii) (v : N) : Prop :=
  exists i, v = N.of_nat i /\
  (nth_error (list_ascii_of_string "0123456789abcdef") i = Some c \/
   nth_error (list_ascii_of_string "0123456789ABCDEF") i = Some c).

(** All sequences of n bytes. *)
Definition all_bytes : list N := map N.of_nat (seq 0 256).
Fixpoint sequences (n : nat) : list (list N) :=
  match n with
  | O => [[]]
  | S m => flat_map (fun b => map (cons b) (sequences m)) all_bytes
  end.
(** How many sequences of n random bytes let the generator return t. *)
Definition produces (t : list ascii) (l : list N) : bool :=
  match create_token (map Some l) with
  | TokOk t' => if list_eq_dec ascii_dec t' t then true else false
  | _ => false
  end.
Definition ways (n : nat) (t : list ascii) : nat := length (filter (produces t) (sequences n)).

Definition is_token (t : list ascii) : Prop :=
  length t = 12 /\ Forall (fun c => In c alphabet) t.
