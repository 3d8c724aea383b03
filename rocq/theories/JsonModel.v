(** * cJSON: the JSON printer and parser used by the IAM serializers

    Models /repo/3rdparty/cjson/cjson/cJSON.c, the unformatted printer
    (cJSON_PrintUnformatted) and the parser (cJSON_Parse).

    Simplifications, all of which are repeated in DESIGN.md:
    - memory allocation succeeds;
    - a text is a C string, i.e. the list of its bytes before the terminating
      NUL; reading the terminating NUL is modelled by the empty rest;
    - a number is only kept as its [valueint] (the only field the SDK reads),
      and [strtod] is a parameter of the parser;
    - the printer only meets numbers which are integers. *)

From Coq Require Import List String Ascii NArith ZArith Bool DecimalString Decimal.
Import ListNotations.
Local Open Scope string_scope.

(** A JSON value; models struct cJSON (cJSON.h:103-123). *)
Inductive json :=
| JNull
| JBool (b : bool)
| JNum (z : Z)
| JStr (s : string)
| JArr (l : list json)
| JObj (l : list (string * json)).

(** The C library's strtod followed by the saturating conversion to [int]
    (cJSON.c:349-376): the value and the number of bytes used, [None] when
    nothing could be converted. *)
Definition strtod_t := string -> option (Z * nat).

Definition dq : ascii := "034"%char.
Definition bs : ascii := "092"%char.

(** ** Printing *)

(** models the "%04x" of cJSON.c:1010, one lower case hexadecimal digit. *)
Definition hexdigit (n : N) : ascii :=
  if N.ltb n 10 then ascii_of_N (48 + n) else ascii_of_N (87 + n).

(** models one round of the copying loop of print_string_ptr,
    cJSON.c:974-1014 *)
Definition print_char (c : ascii) : string :=
  let n := N_of_ascii c in
  if (N.ltb 31 n && negb (Ascii.eqb c dq) && negb (Ascii.eqb c bs))%bool
  then String c ""
  else if Ascii.eqb c bs then String bs (String bs "")
  else if Ascii.eqb c dq then String bs (String dq "")
  else if N.eqb n 8 then String bs "b"
  else if N.eqb n 12 then String bs "f"
  else if N.eqb n 10 then String bs "n"
  else if N.eqb n 13 then String bs "r"
  else if N.eqb n 9 then String bs "t"
  else String bs (String "u" (String "0" (String "0"
         (String (hexdigit (N.div n 16)) (String (hexdigit (N.modulo n 16)) ""))))).

Fixpoint print_body (s : string) : string :=
  match s with
  | EmptyString => ""
  | String c s' => print_char c ++ print_body s'
  end.

(** models print_string_ptr, cJSON.c:902-1021 *)
Definition print_string (s : string) : string :=
  String dq (print_body s ++ String dq "").

(** models print_number for integers, cJSON.c:545-612 ("%d", line 571) *)
Definition print_num (z : Z) : string := NilZero.string_of_int (Z.to_int z).

(** models the separator handling of print_array / print_object:
    "," between the elements when not formatting (cJSON.c:1565-1582 and
    1790-1800) *)
Fixpoint join (l : list string) : string :=
  match l with
  | [] => ""
  | [x] => x
  | x :: l' => x ++ String "," (join l')
  end.

(** models print_value, print_array and print_object without formatting,
    cJSON.c:1367-1438, 1539-1598, 1714-1825 *)
Fixpoint print (v : json) : string :=
  match v with
  | JNull => "null"
  | JBool false => "false"
  | JBool true => "true"
  | JNum z => print_num z
  | JStr s => print_string s
  | JArr l => String "[" (join (map print l) ++ "]")
  | JObj l => String "{" (join (map (fun kv =>
                 print_string (fst kv) ++ String ":" (print (snd kv))) l) ++ "}")
  end.

(** ** Parsing *)

(** models buffer_skip_whitespace, cJSON.c:1038-1061.  When only white space is
    left the C code stops at the terminating NUL. *)
Fixpoint skip_ws (s : string) : string :=
  match s with
  | EmptyString => EmptyString
  | String c s' => if N.leb (N_of_ascii c) 32 then skip_ws s' else s
  end.

(** models skip_utf8_bom, cJSON.c:1064-1077 *)
Definition skip_bom (s : string) : string :=
  match s with
  | String a (String b (String c (String d r))) =>
      if (N.eqb (N_of_ascii a) 239 && N.eqb (N_of_ascii b) 187
          && N.eqb (N_of_ascii c) 191)%bool
      then String d r else s
  | _ => s
  end.

(** models one digit of parse_hex4, cJSON.c:615-649; [None] is "invalid" *)
Definition hexval (c : ascii) : option N :=
  let n := N_of_ascii c in
  if (N.leb 48 n && N.leb n 57)%bool then Some (n - 48)%N
  else if (N.leb 65 n && N.leb n 70)%bool then Some (n - 55)%N
  else if (N.leb 97 n && N.leb n 102)%bool then Some (n - 87)%N
  else None.

(** models parse_hex4, cJSON.c:615-649: an invalid digit makes the result 0 *)
Definition hex4 (a b c d : ascii) : N :=
  match hexval a, hexval b, hexval c, hexval d with
  | Some x, Some y, Some z, Some w => (((x * 16 + y) * 16 + z) * 16 + w)%N
  | _, _, _, _ => 0%N
  end.

(** models the encoding half of utf16_literal_to_utf8, cJSON.c:716-765
    (the code point is below 0x10FFFF + 1 whenever it is reached) *)
Definition utf8 (cp : N) : string :=
  let b n := ascii_of_N n in
  let cont k := b (N.lor 128 (N.land (N.shiftr cp k) 63))%N in
  if N.ltb cp 128 then String (b cp) ""
  else if N.ltb cp 2048 then
    String (b (N.lor 192 (N.shiftr cp 6))) (String (cont 0%N) "")
  else if N.ltb cp 65536 then
    String (b (N.lor 224 (N.shiftr cp 12))) (String (cont 6%N) (String (cont 0%N) ""))
  else
    String (b (N.lor 240 (N.shiftr cp 18)))
      (String (cont 12%N) (String (cont 6%N) (String (cont 0%N) ""))).

(** models the search for the closing quote in parse_string,
    cJSON.c:787-806: the text between the quotes and what follows *)
Fixpoint scan (s : string) : option (string * string) :=
  match s with
  | EmptyString => None
  | String c s1 =>
      if Ascii.eqb c dq then Some (EmptyString, s1)
      else if Ascii.eqb c bs then
        match s1 with
        | EmptyString => None
        | String d s2 =>
            match scan s2 with
            | Some (b, r) => Some (String c (String d b), r)
            | None => None
            end
        end
      else
        match scan s1 with
        | Some (b, r) => Some (String c b, r)
        | None => None
        end
  end.

Definition opt_app (p : string) (o : option string) : option string :=
  match o with Some s => Some (p ++ s) | None => None end.

(** models the decoding loop of parse_string, cJSON.c:820-882, together with
    the decoding half of utf16_literal_to_utf8, cJSON.c:652-715.  A backslash
    which is the last byte (possible only behind a broken \u literal) reads the
    closing quote, as the C code does. *)
Fixpoint decode (s : string) : option string :=
  match s with
  | EmptyString => Some ""
  | String c s1 =>
      if negb (Ascii.eqb c bs) then opt_app (String c "") (decode s1)
      else
        match s1 with
        | EmptyString => Some (String dq "")
        | String e s2 =>
            if Ascii.eqb e "b" then opt_app (String "008" "") (decode s2)
            else if Ascii.eqb e "f" then opt_app (String "012" "") (decode s2)
            else if Ascii.eqb e "n" then opt_app (String "010" "") (decode s2)
            else if Ascii.eqb e "r" then opt_app (String "013" "") (decode s2)
            else if Ascii.eqb e "t" then opt_app (String "009" "") (decode s2)
            else if (Ascii.eqb e dq || Ascii.eqb e bs || Ascii.eqb e "/")%bool
            then opt_app (String e "") (decode s2)
            else if Ascii.eqb e "u" then
              match s2 with
              | String h1 (String h2 (String h3 (String h4 r))) =>
                  let code := hex4 h1 h2 h3 h4 in
                  if (N.leb 56320 code && N.leb code 57343)%bool then None
                  else if (N.leb 55296 code && N.leb code 56319)%bool then
                    match r with
                    | String b2 (String u2
                        (String g1 (String g2 (String g3 (String g4 r2))))) =>
                        let code2 := hex4 g1 g2 g3 g4 in
                        if (negb (Ascii.eqb b2 bs) || negb (Ascii.eqb u2 "u"))%bool
                        then None
                        else if (N.ltb code2 56320 || N.ltb 57343 code2)%bool
                        then None
                        else opt_app
                               (utf8 (65536 + N.lor (N.shiftl (N.land code 1023) 10)
                                                    (N.land code2 1023)))
                               (decode r2)
                    | _ => None
                    end
                  else opt_app (utf8 code) (decode r)
              | _ => None
              end
            else None
        end
  end.

(** what a reader of a C string sees of a byte buffer *)
Fixpoint cstr (s : string) : string :=
  match s with
  | EmptyString => EmptyString
  | String c s' => if N.eqb (N_of_ascii c) 0 then EmptyString else String c (cstr s')
  end.

(** models parse_string, cJSON.c:773-899, entered behind the opening quote *)
Definition parse_string (s : string) : option (string * string) :=
  match scan s with
  | None => None
  | Some (b, r) =>
      match decode b with
      | None => None
      | Some x => Some (cstr x, r)
      end
  end.

(** models the character test of parse_number, cJSON.c:323-341 *)
Definition numchar (c : ascii) : bool :=
  let n := N_of_ascii c in
  ((N.leb 48 n && N.leb n 57) || Ascii.eqb c "+" || Ascii.eqb c "-"
   || Ascii.eqb c "e" || Ascii.eqb c "E" || Ascii.eqb c ".")%bool.

(** models the copying loop of parse_number, cJSON.c:321-346, at most
    [k] (63) bytes *)
Fixpoint num_prefix (k : nat) (s : string) : string :=
  match k, s with
  | S k', String c s' => if numchar c then String c (num_prefix k' s') else ""
  | _, _ => ""
  end.

Fixpoint drop (k : nat) (s : string) : string :=
  match k, s with
  | S k', String _ s' => drop k' s'
  | _, _ => s
  end.

(** models parse_number, cJSON.c:305-380 *)
Definition parse_number (L : strtod_t) (s : string) : option (Z * string) :=
  match L (num_prefix 63 s) with
  | None => None
  | Some (z, k) => Some (z, drop k s)
  end.

(** CJSON_NESTING_LIMIT, cJSON.h:137 *)
Definition nesting_limit : nat := 1000.

(** models parse_value, cJSON.c:1312-1364, parse_array, 1441-1536, and
    parse_object, 1601-1711.  [fuel] only makes the recursion structural. *)
Fixpoint parse_value (L : strtod_t) (fuel depth : nat) (s : string)
  : option (json * string) :=
  match fuel with
  | O => None
  | S f =>
      if prefix "null" s then Some (JNull, drop 4 s)
      else if prefix "false" s then Some (JBool false, drop 5 s)
      else if prefix "true" s then Some (JBool true, drop 4 s)
      else
        match s with
        | EmptyString => None
        | String c r =>
            if Ascii.eqb c dq then
              match parse_string r with
              | Some (x, r') => Some (JStr x, r')
              | None => None
              end
            else if (Ascii.eqb c "-"
                     || (N.leb 48 (N_of_ascii c) && N.leb (N_of_ascii c) 57))%bool
            then
              match parse_number L s with
              | Some (z, r') => Some (JNum z, r')
              | None => None
              end
            else if Ascii.eqb c "[" then
              if Nat.leb nesting_limit depth then None
              else
                match skip_ws r with
                | String d r' =>
                    if Ascii.eqb d "]" then Some (JArr [], r')
                    else
                      match parse_elems L f (S depth) (String d r') with
                      | Some (l, r'') => Some (JArr l, r'')
                      | None => None
                      end
                | EmptyString => None
                end
            else if Ascii.eqb c "{" then
              if Nat.leb nesting_limit depth then None
              else
                match skip_ws r with
                | String d r' =>
                    if Ascii.eqb d "}" then Some (JObj [], r')
                    else
                      match parse_members L f (S depth) (String d r') with
                      | Some (l, r'') => Some (JObj l, r'')
                      | None => None
                      end
                | EmptyString => None
                end
            else None
        end
  end
(** the element loop of parse_array, cJSON.c:1476-1511 *)
with parse_elems (L : strtod_t) (fuel depth : nat) (s : string)
  : option (list json * string) :=
  match fuel with
  | O => None
  | S f =>
      match parse_value L f depth (skip_ws s) with
      | None => None
      | Some (v, r) =>
          match skip_ws r with
          | String c r' =>
              if Ascii.eqb c "," then
                match parse_elems L f depth r' with
                | Some (l, r'') => Some (v :: l, r'')
                | None => None
                end
              else if Ascii.eqb c "]" then Some ([v], r')
              else None
          | EmptyString => None
          end
      end
  end
(** the member loop of parse_object, cJSON.c:1636-1688 *)
with parse_members (L : strtod_t) (fuel depth : nat) (s : string)
  : option (list (string * json) * string) :=
  match fuel with
  | O => None
  | S f =>
      match skip_ws s with
      | String q s1 =>
          if negb (Ascii.eqb q dq) then None
          else
            match parse_string s1 with
            | None => None
            | Some (k, s2) =>
                match skip_ws s2 with
                | String c s3 =>
                    if negb (Ascii.eqb c ":") then None
                    else
                      match parse_value L f depth (skip_ws s3) with
                      | None => None
                      | Some (v, r) =>
                          match skip_ws r with
                          | String c' r' =>
                              if Ascii.eqb c' "," then
                                match parse_members L f depth r' with
                                | Some (l, r'') => Some ((k, v) :: l, r'')
                                | None => None
                                end
                              else if Ascii.eqb c' "}" then Some ([(k, v)], r')
                              else None
                          | EmptyString => None
                          end
                      end
                | EmptyString => None
                end
            end
      | EmptyString => None
      end
  end.

(** models cJSON_Parse, cJSON.c:1079-1173 with require_null_terminated = 0:
    what follows the first value is ignored.  Every recursive call uses up at
    least one byte, so the length bounds the recursion. *)
Definition parse (L : strtod_t) (text : string) : option json :=
  match parse_value L (S (String.length text)) 0 (skip_ws (skip_bom text)) with
  | Some (v, _) => Some v
  | None => None
  end.

(** ** Access *)

(** models tolower of the C locale, used by case_insensitive_strcmp,
    cJSON.c:133-154 *)
Definition lower (c : ascii) : ascii :=
  let n := N_of_ascii c in
  if (N.leb 65 n && N.leb n 90)%bool then ascii_of_N (n + 32) else c.

Fixpoint eqb_nocase (a b : string) : bool :=
  match a, b with
  | EmptyString, EmptyString => true
  | String x a', String y b' => Ascii.eqb (lower x) (lower y) && eqb_nocase a' b'
  | _, _ => false
  end.

(** models the search of get_object_item with case_sensitive = false,
    cJSON.c:1880-1910: the first matching member *)
Fixpoint find_member (k : string) (l : list (string * json)) : option json :=
  match l with
  | [] => None
  | (k', v) :: l' => if eqb_nocase k k' then Some v else find_member k l'
  end.

(** models cJSON_GetObjectItem, cJSON.c:1912-1915; on anything but an object
    there is no member with a name *)
Definition get_item (j : json) (k : string) : option json :=
  match j with
  | JObj l => find_member k l
  | _ => None
  end.
