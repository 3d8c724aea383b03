(** * The log line of a CoAP packet

    Models /repo/src/core/nc_coap_packet_printer.c, which prints every CoAP packet a
    peer sends (nc_coap_server.c:82) and every packet sent to it (148).

    A text is a list of bytes.  The parser (nabto_coap, not in the repository) is an
    input: its result is [Bad] or a message whose options are those the iterator gives.
    The numbers of options, types and codes are those of RFC 7252 and RFC 7959.
    Simplifications: vsnprintf does not fail; the precision of %.*s, which is passed as
    a size_t, is read as the same number; lengths fit in an int. *)
From Coq Require Import String Ascii List Bool NArith Arith.
Import ListNotations.
Local Open Scope N_scope.

Definition bytes (s : string) : list N := map N_of_ascii (list_ascii_of_string s).

(** printf of unsigned numbers: %u, %02u and %02hhx *)
Fixpoint dec_f (fuel : nat) (n : N) : list N :=
  match fuel with
  | O => [48 + n mod 10]
  | S f => if n <? 10 then [48 + n] else dec_f f (n / 10) ++ [48 + n mod 10]
  end.
Definition dec (n : N) : list N := dec_f 20 n.
Definition dec2 (n : N) : list N := if n <? 10 then 48 :: dec n else dec n.
Definition hexd (n : N) : N := if n <? 10 then 48 + n else 87 + n.
Definition hex2 (n : N) : list N := [hexd (n mod 256 / 16); hexd (n mod 16)].

(** sprintf into a buffer of [k] bytes, with the 0 behind it; [None]: written outside *)
Definition sprintf (k : nat) (t : list N) : option (list N) := if Nat.leb (S (length t)) k then Some t else None.

(** blockToString, nc_coap_packet_printer.c:11-24; the value has 32 bits *)
Definition block_to_string (value : N) : option (list N) :=
  sprintf 21 (dec (value / 16) ++ bytes "/" ++ dec ((value mod 16) / 8) ++ bytes "/" ++ dec ((16 * 2 ^ (value mod 8)) mod 65536)).

(** tokenToString, nc_coap_packet_printer.c:26-37 *)
Definition token_to_string (token : list N) : option (list N) := sprintf 17 (concat (map hex2 token)).

(** coapTypeToString, nc_coap_packet_printer.c:39-48 *)
Definition type_to_string (t : N) : list N :=
  if t =? 0 then bytes "CON" else if t =? 1 then bytes "NON" else if t =? 2 then bytes "ACK" else if t =? 3 then bytes "RST" else bytes "UNKNOWN".

(** coapCodeToString, nc_coap_packet_printer.c:50-73 *)
Definition code_to_string (code : N) : option (list N) :=
  let real := code mod 256 in
  let cl := real / 32 in
  if (cl =? 0) && (real mod 32 =? 0) then Some (bytes "EMPTY")
  else if (cl =? 0) && (real mod 32 =? 1) then Some (bytes "GET")
  else if (cl =? 0) && (real mod 32 =? 2) then Some (bytes "POST")
  else if (cl =? 0) && (real mod 32 =? 3) then Some (bytes "PUT")
  else if (cl =? 0) && (real mod 32 =? 4) then Some (bytes "DELETE")
  else if (1 <? cl) && (cl <=? 5) then sprintf 15 (dec cl ++ dec2 (real mod 32))
  else sprintf 15 (bytes "UNKNOWN(" ++ dec real ++ bytes ")").

Definition option_names : list (N * string) :=
  [(1, "IF_MATCH"%string); (3, "URI_HOST"%string); (4, "ETAG"%string); (5, "IF_NONE_MATCH"%string); (7, "URI_PORT"%string); (8, "LOCATION_PATH"%string);
   (11, "URI_PATH"%string); (12, "CONTENT_FORMAT"%string); (14, "MAX_AGE"%string); (15, "URI_QUERY"%string); (17, "ACCEPT"%string); (20, "LOCATION_QUERY"%string);
   (28, "SIZE2"%string); (35, "PROXY_URI"%string); (39, "PROXY_SCHEME"%string); (60, "OPTION_SIZE1"%string)].
Fixpoint name_of (o : N) (l : list (N * string)) : option string :=
  match l with [] => None | (k, s) :: r => if k =? o then Some s else name_of o r end.

(** coapOptionToString, nc_coap_packet_printer.c:75-101; an option has 16 bits *)
Definition option_to_string (o : N) : option (list N) :=
  match name_of o option_names with
  | Some s => Some (bytes s)
  | None => sprintf 15 (bytes "UNKNOWN(" ++ dec (o mod 65536) ++ bytes ")")
  end.

(** nabto_coap_parse_variable_int with a maximum of 3 bytes: big endian *)
Definition variable_int (data : list N) : option N :=
  if Nat.leb (length data) 3 then Some (fold_left (fun a b => a * 256 + b mod 256) data 0) else None.

(** %.*s: up to the precision or a 0 *)
Fixpoint until0 (t : list N) : list N := match t with [] => [] | c :: r => if c =? 0 then [] else c :: until0 r end.

Record message := { g_type : N; g_code : N; g_id : N; g_token : list N; g_options : list (N * list N); g_payload : N }.
Inductive parsed := Bad | Good (m : message).

(** one option, nc_coap_packet_printer.c:149-169 *)
Definition option_text (o : N * list N) : option (list N) :=
  let (k, data) := o in
  let rest := match option_to_string k with
              | Some s => Some (bytes ", " ++ s ++ bytes ": OptionDataLength: " ++ dec (N.of_nat (length data)))
              | None => None
              end in
  if k =? 11 then Some (bytes ", Uri-Path: " ++ until0 data)
  else if k =? 3 then Some (bytes ", Uri-Host: " ++ until0 data)
  else match k =? 7, k =? 27, k =? 23, variable_int data with
  | true, _, _, Some v => Some (bytes ", Uri-Port: " ++ dec v)
  | _, true, _, Some v => match block_to_string v with Some s => Some (bytes ", Block1: " ++ s) | None => None end
  | _, _, true, Some v => match block_to_string v with Some s => Some (bytes ", Block2: " ++ s) | None => None end
  | _, _, _, _ => rest
  end.

Fixpoint options_texts (l : list (N * list N)) : option (list (list N)) :=
  match l with
  | [] => Some []
  | o :: r => match option_text o, options_texts r with Some t, Some ts => Some (t :: ts) | _, _ => None end
  end.

(** the texts in the order they are written, nc_coap_packet_printer.c:135-175; [None]:
    one of the small buffers was left *)
Definition pieces (header : list N) (p : parsed) : option (list (list N)) :=
  match p with
  | Bad => Some [header; bytes "Invalid packet"]
  | Good m =>
    match code_to_string (g_code m), token_to_string (g_token m), options_texts (g_options m) with
    | Some c, Some t, Some os =>
      Some ([header; bytes "Type: " ++ type_to_string (g_type m) ++ bytes ", Code: " ++ c ++ bytes ", MessageId: " ++ dec (g_id m mod 65536) ++ bytes ", Token: " ++ t; bytes ", Options:"]
            ++ os ++ [bytes ", Payload Length: " ++ dec (g_payload m)])
    | _, _, _ => None
    end
  end.

(** memory written from a position on; [None]: outside *)
Definition put_all (p : nat) (l buf : list N) : option (list N) :=
  if Nat.leb (p + length l) (length buf) then Some (firstn p buf ++ l ++ skipn (p + length l) buf) else None.

(** vsnprintf(buf + p, max, ...) *)
Definition vsnprintf (p max : nat) (t buf : list N) : option (list N) :=
  match max with
  | O => Some buf
  | S m => put_all p (firstn m t ++ [0]) buf
  end.

(** The buffer and ptr, [None] for NULL; [None] for the whole: written outside. *)
Definition cursor : Type := list N * option nat.
(** end is 1023 behind the start of the buffer, nc_coap_packet_printer.c:134 *)
Definition the_end : nat := 1023.

(** safeWrite, nc_coap_packet_printer.c:103-121 *)
Definition safe_write (s : cursor) (t : list N) : option cursor :=
  let (buf, ptr) := s in
  match ptr with
  | None => Some (buf, None)
  | Some p =>
    if Nat.ltb the_end p then Some (buf, None)
    else match vsnprintf p (the_end - p) t buf with
         | Some buf' => Some (buf', Some (p + length t)%nat)
         | None => None
         end
  end.

Fixpoint write_all (s : cursor) (l : list (list N)) : option cursor :=
  match l with
  | [] => Some s
  | t :: r => match safe_write s t with Some s' => write_all s' r | None => None end
  end.

(** What is given to the log. *)
Inductive outcome := Line (t : list N) | CanNotPrint | NoMemory | Unsafe.

Fixpoint cstr (b : list N) : option (list N) :=
  match b with
  | [] => None
  | c :: r => if c =? 0 then Some [] else match cstr r with Some s => Some (c :: s) | None => None end
  end.

(** nc_coap_packet_print, nc_coap_packet_printer.c:123-183; [mem]: calloc succeeds *)
Definition packet_print (mem : bool) (header : list N) (p : parsed) : outcome :=
  if negb mem then NoMemory
  else match pieces header p with
  | None => Unsafe
  | Some l =>
    match write_all (repeat 0 1024, Some 0%nat) l with
    | None => Unsafe
    | Some (buf, Some _) => match cstr buf with Some t => Line t | None => Unsafe end
    | Some (_, None) => CanNotPrint
    end
  end.
