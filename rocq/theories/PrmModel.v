(** * The questions of the setup program

    Models /repo/apps/common/prompt_stdin.c and createService of
    /repo/apps/tcp_tunnel_device/src/tcp_tunnel_init.c.

    The standard input is a list of bytes with its end behind it; reading at the end
    gives EOF each time.  A char is signed: the byte 255 equals EOF and the bytes from
    128 on are negative.  A loop which asks again is cut after a number of attempts;
    [Asking] means that it still asks.  Simplifications: what is printed is left out;
    the count of characters does not overflow (it does after 2^31 characters in one
    line); tolower is that of the C locale; printing and reading do not fail otherwise. *)
From Coq Require Import List Bool NArith Arith.
Import ListNotations.
Open Scope N_scope.

(** A write to a buffer; [None]: outside of it. *)
Fixpoint put (i : nat) (c : N) (b : list N) : option (list N) :=
  match b, i with
  | [], _ => None
  | x :: r, O => Some (c :: r)
  | x :: r, S i' => match put i' c r with Some r' => Some (x :: r') | None => None end
  end.

(** is_printable, prompt_stdin.c:24-27 *)
Definition is_printable (c : N) : bool := (32 <=? c) && (c <=? 126).

(** The loop of prompt, prompt_stdin.c:42-54, with n = bufferSize - 1: the result, the
    buffer and the rest of the input; [None]: a write outside of the buffer. *)
Fixpoint prompt (inp buf : list N) (i n : nat) : option (bool * list N * list N) :=
  match inp with
  | [] => match put (if Nat.ltb i n then i else n) 0 buf with Some b => Some (Nat.leb i n, b, []) | None => None end
  | c :: r =>
    if c =? 0 then Some (false, buf, r)
    else if (c =? 10) || (c =? 255) then
      match put (if Nat.ltb i n then i else n) 0 buf with Some b => Some (Nat.leb i n, b, r) | None => None end
    else if Nat.ltb i n && is_printable c then
      match put i c buf with Some b => prompt r b (S i) n | None => None end
    else prompt r buf (S i) n
  end.

Inductive res (A : Type) := Answer (a : A) (rest : list N) | Asking | Outside.
Arguments Answer {A}. Arguments Asking {A}. Arguments Outside {A}.

(** prompt_repeating, prompt_stdin.c:57-65: its result and the buffer *)
Fixpoint repeating (fuel : nat) (inp buf : list N) (n : nat) : res (bool * list N) :=
  match fuel with
  | O => Asking
  | S f =>
    match prompt inp buf 0 n with
    | None => Outside
    | Some (ret, b, r) => if negb (hd 0 b =? 0) then Answer (ret, b) r else repeating f r b n
    end
  end.

(** to_lowercase, prompt_stdin.c:6-11 *)
Fixpoint to_lowercase (b : list N) : list N :=
  match b with
  | [] => []
  | c :: r => if c =? 0 then b else (if (65 <=? c) && (c <=? 90) then c + 32 else c) :: to_lowercase r
  end.

(** strncmp(buffer, lit, n) == 0; [lit] ends with its 0 *)
Fixpoint strncmp_eq (n : nat) (b lit : list N) : bool :=
  match n, b, lit with
  | O, _, _ => true
  | S n', c :: r, d :: l => if c =? d then (if c =? 0 then true else strncmp_eq n' r l) else false
  | _, _, _ => false
  end.

(** prompt_yes_no, prompt_stdin.c:68-94, and prompt_yes_no_default, 97-128, when there
    is a default; [mem] is what the four bytes of the buffer hold when an attempt
    begins *)
Fixpoint yes_no (def : option bool) (mem : nat -> list N) (fuel : nat) (inp : list N) : res bool :=
  match fuel with
  | O => Asking
  | S f =>
    match prompt inp (mem f) 0 3 with
    | None => Outside
    | Some (valid, b, r) =>
      if negb valid then yes_no def mem f r
      else match def, hd 0 b =? 0 with
      | Some d, true => Answer d r
      | _, _ =>
        let w := to_lowercase b in
        if strncmp_eq 4 w [121; 0] || strncmp_eq 4 w [121; 101; 115; 0] then Answer true r
        else if strncmp_eq 4 w [110; 0] || strncmp_eq 4 w [110; 111; 0] then Answer false r
        else yes_no def mem f r
      end
    end
  end.

(** str_is_numerical, prompt_stdin.c:13-22 *)
Fixpoint str_is_numerical (b : list N) : bool :=
  match b with
  | [] => true
  | c :: r => if c =? 0 then true else if (c <? 48) || (57 <? c) then false else str_is_numerical r
  end.

(** strtol(buffer, NULL, 10) of digits up to a 0: fifteen digits fit in a long of 64
    bits, and one of 32 bits would be more than max all the same *)
Fixpoint strtol (acc : N) (b : list N) : N :=
  match b with
  | [] => acc
  | c :: r => if c =? 0 then acc else strtol (10 * acc + (c - 48)) r
  end.

(** prompt_uint16, prompt_stdin.c:131-161, and prompt_uint16_default, 164-194 *)
Fixpoint uint16 (def : option N) (max : N) (fuel : nat) (inp : list N) : res N :=
  match fuel with
  | O => Asking
  | S f =>
    match prompt inp (repeat 0 16) 0 15 with
    | None => Outside
    | Some (valid, b, r) =>
      if negb valid then uint16 def max f r
      else if hd 0 b =? 0 then match def with Some d => Answer d r | None => uint16 def max f r end
      else if negb (str_is_numerical b) then uint16 def max f r
      else let num := strtol 0 b in
        if num <=? max then Answer num r else uint16 def max f r
    end
  end.

(** ** createService *)

(** the string in a buffer; [None]: it has no end there *)
Fixpoint cstr (b : list N) : option (list N) :=
  match b with
  | [] => None
  | c :: r => if c =? 0 then Some [] else match cstr r with Some s => Some (c :: s) | None => None end
  end.

Definition bind {A B} (x : res A) (k : A -> list N -> res B) : res B :=
  match x with Answer a r => k a r | Asking => Asking | Outside => Outside end.

(** the answer of prompt_repeating as a string in a buffer of 20 zeros; its result is
    not looked at (tcp_tunnel_init.c:219-224, 238-242) *)
Definition text20 (fuel : nat) (inp : list N) : res (list N) :=
  bind (repeating fuel inp (repeat 0 20) 19) (fun a r => match cstr (snd a) with Some s => Answer s r | None => Outside end).

Record typed_service := { s_id : list N; s_type : list N; s_host : list N; s_port : N; s_meta : list (list N * list N) }.

(** the loop over metadata, tcp_tunnel_init.c:235-247: the entries in the order they
    are inserted; [k] bounds their number *)
Fixpoint metadata (mem : nat -> list N) (fuel k : nat) (inp : list N) : res (list (list N * list N)) :=
  bind (yes_no None mem fuel inp) (fun more r =>
    if more then
      match k with
      | O => Asking
      | S k' => bind (text20 fuel r) (fun key r1 => bind (text20 fuel r1) (fun value r2 =>
                  bind (metadata mem fuel k' r2) (fun l r3 => Answer ((key, value) :: l) r3)))
      end
    else Answer [] r).

(** createService, tcp_tunnel_init.c:217-252 *)
Definition create_service (mem : nat -> list N) (fuel k : nat) (inp : list N) : res typed_service :=
  bind (text20 fuel inp) (fun id r => bind (text20 fuel r) (fun host r1 => bind (uint16 None 65535 fuel r1) (fun port r2 =>
    bind (metadata mem fuel k r2) (fun meta r3 => Answer {| s_id := id; s_type := id; s_host := host; s_port := port; s_meta := meta |} r3)))).
