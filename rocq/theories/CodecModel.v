(** Small encoders and decoders: src/core/nc_packet.c, the packet header parser of
    src/core/nc_stream_manager.c, src/platform/np_util.c, the fingerprint strings of
    src/api/nabto_device.c and src/api/nabto_device_virtual_connection.c, the token generator of
    src/api/nabto_device.c, the CoAP status conversion of src/core/nc_coap_server.c.

    A byte is an N; a memory region is a list of bytes and an access outside
    of the list is undefined behaviour, a distinct result. *)
From Coq Require Import String Ascii List Bool Arith NArith.
Import ListNotations.

(** ** Variable length integers *)
Inductive rd :=
| RdUndef                        (* access outside of the buffer *)
| RdFail                         (* returns false *)
| RdOk (val : N) (len : nat).

Definition nth_byte (mem : list N) (i : nat) : option N := nth_error mem i.

(** Big endian value of the bytes 1 .. n-1 of the buffer appended to v. *)
Fixpoint read_more (mem : list N) (i n : nat) (v : N) : option N :=
  match n with
  | O => Some v
  | S m => match nth_byte mem i with
           | Some b => read_more mem (S i) m (v * 256 + b)%N
           | None => None
           end
  end.

(** nc_packet.c 8-60 var_uint_read. The sums of shifted bytes are written as
    a loop; [size] is the uint16_t bufSize. *)
Definition var_uint_read (mem : list N) (size : nat) : rd :=
  match nth_byte mem 0 with
  | None => RdUndef
  | Some first =>
      let b7 := N.land first 63 in
      let len := 2 ^ N.to_nat (N.shiftr first 6) in
      if Nat.ltb size len then RdFail
      else match read_more mem 1 (len - 1) b7 with
           | Some v => RdOk v len
           | None => RdUndef
           end
  end.

(** The k-th byte of a 64 bit value, counted from the least significant one. *)
Definition byte_of (v : N) (k : N) : N := (N.shiftr v (8 * k) mod 256)%N.

(** nc_packet.c 62-114 var_uint_write_forward. *)
Definition var_uint_write (v : N) : list N :=
  if N.ltb v (2 ^ 6) then [byte_of v 0]
  else if N.ltb v (2 ^ 14) then [N.lor (byte_of v 1) 64; byte_of v 0]
  else if N.ltb v (2 ^ 30) then [N.lor (byte_of v 3) 128; byte_of v 2; byte_of v 1; byte_of v 0]
  else [N.lor (byte_of v 7) 192; byte_of v 6; byte_of v 5; byte_of v 4;
        byte_of v 3; byte_of v 2; byte_of v 1; byte_of v 0].

(** ** Stream packet header *)
Inductive hdr :=
| HdrUndef
| HdrDrop
| HdrOk (id : N) (flags : N) (rest : list N).

(** nc_stream_manager.c 93-115: [pkt] is the packet with the application
    type in front. *)
Definition stream_header (pkt : list N) : hdr :=
  if Nat.ltb (length pkt) 4 then HdrDrop
  else match var_uint_read (tl pkt) (length pkt - 1) with
       | RdUndef => HdrUndef
       | RdFail => HdrDrop
       | RdOk id len =>
           match nth_byte pkt (1 + len) with
           | None => HdrUndef
           | Some flags => HdrOk id flags (skipn (1 + len) pkt)
           end
       end.

(** nc_stream_manager.c 273-279, nc_stream.c 262-268: application type,
    stream id, then what nabto_stream creates. AT_STREAM is an argument. *)
Definition stream_packet (at_stream : N) (id : N) (body : list N) : list N :=
  at_stream :: var_uint_write id ++ body.

(** ** Hexadecimal *)

(** np_util.c 31-41: value of one character. *)
Definition hex_value (c : ascii) : option N :=
  let n := N_of_ascii c in
  if (N.leb 48 n && N.leb n 57)%bool then Some (n - 48)%N
  else if (N.leb 65 n && N.leb n 70)%bool then Some (10 + (n - 65))%N
  else if (N.leb 97 n && N.leb n 102)%bool then Some (10 + (n - 97))%N
  else None.

Fixpoint update (l : list N) (i : nat) (f : N -> N) : list N :=
  match l, i with
  | [], _ => []
  | x :: l', O => f x :: l'
  | x :: l', S j => x :: update l' j f
  end.

(** np_util.c 30-48: the loop. *)
Fixpoint hex_loop (hex : list ascii) (index : nat) (data : list N) : option (list N) :=
  match hex with
  | [] => Some data
  | c :: hex' =>
      match hex_value c with
      | None => None
      | Some v =>
          hex_loop hex' (S index)
            (update data (index / 2)
               (fun d => (d + N.shiftl v (N.of_nat (((index + 1) mod 2) * 4))) mod 256)%N)
      end
  end.

(** np_util.c 3-51 np_hex_to_data, np_hex_to_data_length: None is false. dataLength * 2 - 1 does not
    wrap to a length that exists for dataLength = 0. *)
Definition hex_to_data (hex : list ascii) (n : nat) : option (list N) :=
  if negb (Nat.eqb (length hex) (2 * n) || (negb (Nat.eqb n 0) && Nat.eqb (length hex) (2 * n - 1)))%bool then None
  else hex_loop hex (if Nat.eqb (length hex mod 2) 1 then 1 else 0) (repeat 0%N n).

(** np_util.c 54-64 encodeChar. *)
Definition encode_char (v : N) : ascii :=
  if N.leb v 9 then ascii_of_N (48 + v)
  else if N.leb v 15 then ascii_of_N (97 + (v - 10))
  else ascii_of_N 48.

(** np_util.c 66-78 np_data_to_hex. *)
Definition data_to_hex (data : list N) : list ascii :=
  flat_map (fun b => [encode_char (N.land (N.shiftr b 4) 15); encode_char (N.land b 15)]) data.

(** ** Fingerprint strings *)

(** strlen on an allocated region: None when no NUL is found inside. *)
Fixpoint c_strlen (mem : list N) : option nat :=
  match mem with
  | [] => None
  | b :: mem' => if N.eqb b 0 then Some 0 else option_map S (c_strlen mem')
  end.

Definition chars (l : list ascii) : list N := map N_of_ascii l.

(** sprintf "%02x" writes lower case digits, as encode_char does, and a NUL.
    nabto_device.c 520-533 toHex: calloc of 2n+1 bytes, then the digits of
    each byte; the NUL of one sprintf is overwritten by the next one. *)
Definition to_hex_region (data : list N) : list N := chars (data_to_hex data) ++ [0%N].

(** nabto_device_virtual_connection.c 197-198: calloc(1,64), 64 digits. *)
Definition virtual_fingerprint_region (data : list N) : list N := chars (data_to_hex data).

(** nabto_device_virtual_connection.c 182-205
    nabto_device_connection_get_device_fingerprint. *)
Definition connection_device_fingerprint (is_virtual : bool) (conn_fp device_fp : list N) : list N :=
  if is_virtual then virtual_fingerprint_region conn_fp else to_hex_region device_fp.

(** ** Server connect tokens *)

(** nabto_device.c 712. *)
Definition alphabet : list ascii :=
  list_ascii_of_string "ABCDEFGHIJKLMNOPQRSTUVWXYZabcdefghijklmnopqrtsuvwxyz0123456789".

Inductive tok :=
| TokOk (t : list ascii)
| TokError                      (* the random source failed *)
| TokMore.                      (* would read another random byte *)

(** nabto_device.c 723-737: the loop, [src] is what the random source
    delivers (None: error), [left] characters are still missing. *)
Fixpoint token_loop (src : list (option N)) (left : nat) (acc : list ascii) : tok :=
  match left with
  | O => TokOk (rev acc)
  | S l =>
      match src with
      | [] => TokMore
      | None :: _ => TokError
      | Some b :: src' =>
          match nth_error alphabet (N.to_nat b) with
          | Some c => token_loop src' l (c :: acc)
          | None => token_loop src' left acc
          end
      end
  end.
Definition create_token (src : list (option N)) : tok := token_loop src 12 [].

(** ** CoAP status codes *)

(** nc_coap_server.c 326-335 for virtual requests. NABTO_COAP_CODE (RFC 7252: class in the upper
    three, detail in the lower five bits of a byte) is in the missing submodule; nabto_coap_code is
    read back as uint8_t. *)
Definition coap_code (klass detail : N) : N := N.lor (N.shiftl klass 5) detail.
Definition set_code_human (h : N) : N := coap_code (h / 100) (h mod 100).
(** nc_coap_server.c 540-551. *)
Definition get_code_human (code : N) : N :=
  let c := (code mod 256)%N in (N.shiftr c 5 * 100 + N.land c 31)%N.
