(** * What the log line of a packet says *)
From Coq Require Import String List NArith.
From Verif Require Import PprModel.
Import ListNotations.
Local Open Scope N_scope.

(** A decimal number. *)
Definition value (t : list N) : N := fold_left (fun a c => 10 * a + (c - 48)) t 0.
Definition numeral (n : N) (t : list N) : Prop := t <> [] /\ Forall (fun c => 48 <= c <= 57) t /\ value t = n.
(** The part of a text before its first 0. *)
Definition before0 (data u : list N) : Prop := ~ In 0 u /\ (data = u \/ exists r, data = u ++ 0 :: r).
(** The number in at most three bytes. *)
Definition number3 (data : list N) (v : N) : Prop :=
  (length data <= 3)%nat /\ v = match data with [a] => a | [a; b] => 256 * a + b | [a; b; c] => 65536 * a + 256 * b + c | _ => 0 end.
(** A block option: its number, whether more follow, its size. *)
Definition block (v : N) (t : list N) : Prop := exists n m s, t = n ++ bytes "/" ++ m ++ bytes "/" ++ s /\
  numeral (v / 16) n /\ numeral (v / 8 mod 2) m /\ numeral (2 ^ (4 + v mod 8)) s.

(** What one option says. *)
Definition option_says (k : N) (data t : list N) : Prop :=
  (k = 11 -> exists u, t = bytes ", Uri-Path: " ++ u /\ before0 data u) /\
  (k = 3 -> exists u, t = bytes ", Uri-Host: " ++ u /\ before0 data u) /\
  (k = 7 -> forall v, number3 data v -> exists u, t = bytes ", Uri-Port: " ++ u /\ numeral v u) /\
  (k = 27 -> forall v, number3 data v -> exists u, t = bytes ", Block1: " ++ u /\ block v u) /\
  (k = 23 -> forall v, number3 data v -> exists u, t = bytes ", Block2: " ++ u /\ block v u) /\
  (~ In k [11; 3; 7; 27; 23] -> exists nm u, t = bytes ", " ++ nm ++ bytes ": OptionDataLength: " ++ u /\ numeral (N.of_nat (length data)) u).

(** A byte string as the peers make it. *)
Definition octets (l : list N) : Prop := Forall (fun c => c < 256) l.
(** A message as a parser may give it: tokens have at most eight bytes, options sixteen
    bits. *)
Definition parses (m : message) : Prop :=
  (length (g_token m) <= 8)%nat /\ octets (g_token m) /\ Forall (fun o => fst o < 65536 /\ octets (snd o) /\ N.of_nat (length (snd o)) < 10 ^ 20) (g_options m) /\ g_payload m < 10 ^ 20.

(** Two hexadecimal digits for each byte. *)
Definition digit16 (c : N) : N := if c <=? 57 then c - 48 else c - 87.
Fixpoint unhex (t : list N) : list N := match t with a :: b :: r => (16 * digit16 a + digit16 b) :: unhex r | _ => [] end.

(** A code: the method, or the three digits of a response. *)
Definition code_says (code : N) (t : list N) : Prop :=
  (code = 1 -> t = bytes "GET") /\ (code = 2 -> t = bytes "POST") /\ (code = 3 -> t = bytes "PUT") /\ (code = 4 -> t = bytes "DELETE") /\
  (64 <= code < 192 -> length t = 3%nat /\ numeral (100 * (code / 32) + code mod 32) t).

(** The whole text of a packet. *)
Definition packet_says (header : list N) (m : message) (text : list N) : Prop :=
  exists ty c i tok os pl, text = header ++ bytes "Type: " ++ ty ++ bytes ", Code: " ++ c ++ bytes ", MessageId: " ++ i ++ bytes ", Token: " ++ tok ++ bytes ", Options:" ++ concat os ++ bytes ", Payload Length: " ++ pl /\
    nth_error [bytes "CON"; bytes "NON"; bytes "ACK"; bytes "RST"] (N.to_nat (g_type m)) = Some ty /\ code_says (g_code m) c /\ numeral (g_id m) i /\
    length tok = (2 * length (g_token m))%nat /\ unhex tok = g_token m /\ Forall2 (fun o t => option_says (fst o) (snd o) t) (g_options m) os /\ numeral (g_payload m) pl.
