(** Keep alive of a DTLS connection (src/core/nc_keep_alive.c, nc_keep_alive.h and its callers in
    src/core/nc_attacher.c and src/core/nc_client_connection.c) and the attach response of the basestation which
    carries its settings (src/core/nc_attacher_attach_start.c).

    The packets of the connection are only counted. The keep alive event is one operation [Tick]; the caller
    posts it again when it has run, so ticks are [kaRetryInterval] ms apart, see [OWait]. *)
From Coq Require Import List Bool Arith NArith String.
Import ListNotations.

Definition u32 (n : N) : N := (n mod 2 ^ 32)%N.

(** nc_keep_alive.h 33-47 struct nc_keep_alive_context; [ka_buf]: sendBuffer. *)
Record ka := { ka_interval : N; ka_retry : N; ka_max : N; ka_recv : N; ka_sent : N; ka_lost : N; ka_n : N;
               ka_sending : bool; ka_buf : list N }.

(** nc_keep_alive.c 11-25 nc_keep_alive_init; the context is in zeroed memory. *)
Definition ka_init : ka :=
  {| ka_interval := 30000; ka_retry := 2000; ka_max := 15; ka_recv := 0; ka_sent := 0; ka_lost := 0;
     ka_n := 30000 / 2000; ka_sending := false; ka_buf := repeat 0%N 18 |}.

(** nc_keep_alive.c 41-52 nc_keep_alive_reset: n and isSending stay. *)
Definition ka_reset (k : ka) : ka :=
  {| ka_interval := 30000; ka_retry := 2000; ka_max := 15; ka_recv := 0; ka_sent := 0; ka_lost := 0;
     ka_n := ka_n k; ka_sending := ka_sending k; ka_buf := ka_buf k |}.

(** nc_keep_alive.c 54-60 nc_keep_alive_set_settings; None: division by zero. *)
Definition ka_set (k : ka) (i r m : N) : option ka :=
  if N.eqb r 0 then None
  else Some {| ka_interval := i; ka_retry := r; ka_max := m; ka_recv := ka_recv k; ka_sent := ka_sent k;
               ka_lost := ka_lost k; ka_n := i / r; ka_sending := ka_sending k; ka_buf := ka_buf k |}.

Inductive action := DoNothing | SendKa | Timeout.

Definition with_lost (k : ka) (l : N) : ka :=
  {| ka_interval := ka_interval k; ka_retry := ka_retry k; ka_max := ka_max k; ka_recv := ka_recv k;
     ka_sent := ka_sent k; ka_lost := l; ka_n := ka_n k; ka_sending := ka_sending k; ka_buf := ka_buf k |}.
Definition with_last (k : ka) (r s : N) : ka :=
  {| ka_interval := ka_interval k; ka_retry := ka_retry k; ka_max := ka_max k; ka_recv := r;
     ka_sent := s; ka_lost := 0; ka_n := ka_n k; ka_sending := ka_sending k; ka_buf := ka_buf k |}.
Definition with_sending (k : ka) (b : bool) : ka :=
  {| ka_interval := ka_interval k; ka_retry := ka_retry k; ka_max := ka_max k; ka_recv := ka_recv k;
     ka_sent := ka_sent k; ka_lost := ka_lost k; ka_n := ka_n k; ka_sending := b; ka_buf := ka_buf k |}.
Definition with_buf (k : ka) (l : list N) : ka :=
  {| ka_interval := ka_interval k; ka_retry := ka_retry k; ka_max := ka_max k; ka_recv := ka_recv k;
     ka_sent := ka_sent k; ka_lost := ka_lost k; ka_n := ka_n k; ka_sending := true; ka_buf := l |}.

(** nc_keep_alive.c 62-80 nc_keep_alive_should_send; uint32_t sums wrap. *)
Definition should_send (k : ka) (recv sent : N) : ka * action :=
  if (N.ltb (ka_recv k) recv && N.ltb (ka_sent k) sent)%bool then (with_last k recv sent, DoNothing)
  else if N.ltb (u32 (ka_max k + ka_n k)) (ka_lost k) then (k, Timeout)
  else let k := with_lost k (u32 (ka_lost k + 1)) in
       if (negb (ka_sending k) && N.ltb (ka_n k) (ka_lost k))%bool then (k, SendKa) else (k, DoNothing).

(** nc_keep_alive.c 87-97 nc_keep_alive_create_request. AT_KEEP_ALIVE = 4, CT_KEEP_ALIVE_REQUEST = 3
    (nc_protocol_defines.h 10, 17). *)
Definition create_request (k : ka) : ka := with_buf k (4%N :: 3%N :: repeat 0%N 16).

(** nc_keep_alive.c 99-114 nc_keep_alive_handle_request. CT_KEEP_ALIVE_RESPONSE = 4. *)
Definition handle_request (k : ka) (req : list N) : option ka :=
  if (Nat.ltb (List.length req) 18 || ka_sending k)%bool then None
  else Some (with_buf k (4%N :: 4%N :: firstn 16 (skipn 2 req))).

(** A connection with keep alive. [c_recv], [c_sent]: the counters of the DTLS layer (uint32_t,
    nm_mbedtls_cli.c and nm_mbedtls_srv.c get_packet_count). [c_pending]: the keep alive event is posted. *)
Record conn := { c_ka : ka; c_recv : N; c_sent : N; c_pending : bool }.
Definition conn_init : conn := {| c_ka := ka_init; c_recv := 0; c_sent := 0; c_pending := false |}.
Definition with_ka (c : conn) (k : ka) : conn :=
  {| c_ka := k; c_recv := c_recv c; c_sent := c_sent c; c_pending := c_pending c |}.

Inductive op :=
| Attached                        (* the connection is up, the first wait *)
| Recv (pkt : list N)             (* a packet with application data is received *)
| Sent                            (* the DTLS layer has written a packet, of whatever sort *)
| Done                            (* the completion event of the keep alive packet, any error code *)
| Tick                            (* the keep alive event runs *)
| Settings (i r m : N)            (* the server gives new settings *)
| Reconnect.                      (* the connection is closed and replaced *)

Inductive out :=
| OSend (pkt : list N)            (* async_send_data *)
| OWait (ms : N)                  (* the event is posted with this delay *)
| OTimeout                        (* the connection is closed as dead *)
| OUndef.                         (* undefined behaviour *)

(** nc_attacher.c 851-873 keep_alive_event and nc_client_connection.c 241-267, which only differ in how they close.
    889-907 / 270-300: the answer of async_send_data is not looked at. nc_keep_alive.c 82-85
    nc_keep_alive_wait. *)
Definition tick (c : conn) : conn * list out :=
  match should_send (c_ka c) (c_recv c) (c_sent c) with
  | (k, DoNothing) => (with_ka c k, [OWait (ka_retry k)])
  | (k, SendKa) => let k := create_request k in (with_ka c k, [OSend (ka_buf k); OWait (ka_retry k)])
  | (k, Timeout) => ({| c_ka := k; c_recv := c_recv c; c_sent := c_sent c; c_pending := false |}, [OTimeout])
  end.

(** nc_attacher.c 834-849 and 875-887, nc_client_connection.c 184-225: a keep alive request is a packet which starts
    with 4, 3. nm_mbedtls_cli.c 585 recvCount++ comes first. *)
Definition recv (c : conn) (pkt : list N) : conn * list out :=
  let c := {| c_ka := c_ka c; c_recv := u32 (c_recv c + 1); c_sent := c_sent c; c_pending := c_pending c |} in
  match pkt with
  | 4%N :: 3%N :: _ =>
    match handle_request (c_ka c) pkt with
    | Some k => (with_ka c k, [OSend (ka_buf k)])
    | None => (c, [])
    end
  | _ => (c, [])
  end.

Definition step (c : conn) (o : op) : conn * list out :=
  match o with
  | Attached => ({| c_ka := c_ka c; c_recv := c_recv c; c_sent := c_sent c; c_pending := true |},
                 [OWait (ka_retry (c_ka c))])                      (* nc_attacher.c 741 *)
  | Recv p => recv c p
  | Sent => ({| c_ka := c_ka c; c_recv := c_recv c; c_sent := u32 (c_sent c + 1); c_pending := c_pending c |}, [])
                                                                   (* nm_mbedtls_cli.c 658 *)
  | Done => (with_ka c (with_sending (c_ka c) false), [])          (* nc_keep_alive.c 116-121 *)
  | Tick => if c_pending c then tick c else (c, [])
  | Settings i r m => match ka_set (c_ka c) i r m with
                      | Some k => (with_ka c k, [])
                      | None => (c, [OUndef])
                      end
  | Reconnect => ({| c_ka := ka_reset (c_ka c); c_recv := 0; c_sent := 0; c_pending := false |}, [])
                                                                   (* nc_attacher.c 554-572 *)
  end.

Fixpoint run (c : conn) (h : list op) : conn * list out :=
  match h with
  | [] => (c, [])
  | o :: h => let (c1, o1) := step c o in let (c2, o2) := run c1 h in (c2, o1 ++ o2)
  end.

(** ** The length of a keep alive packet in its send context *)

(** src/platform/np_dtls.h 26-38: bufferSize is two bytes, the channel id is the next one; the padding and,
    on a machine of 16 bits, the completion event come behind. nc_attacher.c 894, 903 and nc_client_connection.c 275,
    288 pass [(size_t* )&sendCtx->bufferSize] and nc_keep_alive.c 96, 112 store the length 18 through that
    pointer. [w]: bytes of a size_t; the memory starts at bufferSize. *)
Fixpoint bytes_le (w : nat) (v : N) : list N :=
  match w with O => [] | S w => (v mod 256)%N :: bytes_le w (v / 256) end.
Definition bytes_of (big : bool) (w : nat) (v : N) : list N :=
  if big then rev (bytes_le w v) else bytes_le w v.
Definition store (big : bool) (w : nat) (mem : list N) (v : N) : list N :=
  bytes_of big w v ++ skipn w mem.
Definition load16 (big : bool) (mem : list N) : N :=
  match mem with
  | a :: b :: _ => if big then (a * 256 + b)%N else (b * 256 + a)%N
  | _ => 0
  end.
Definition buffer_size_after (big : bool) (w : nat) (mem : list N) : N := load16 big (store big w mem 18).

(** ** The attach response *)

(** A decoded CBOR value, as far as the code looks at it. tinycbor is not part of the repository:
    cbor_value_map_find_value gives the first entry with the key, or an invalid value. *)
Inductive cv := CUint (n : N) | CText (s : string) | CBytes (s : string) | CMap (l : list (string * cv)) | COther.
Fixpoint assoc (k : string) (l : list (string * cv)) : cv :=
  match l with [] => COther | (k', v) :: l => if String.eqb k k' then v else assoc k l end.
Definition find (k : string) (v : cv) : cv := match v with CMap l => assoc k l | _ => COther end.

(** The parts of struct nc_attach_context and of the device which the response changes; [a_dns]: the host to
    connect to next. *)
Record att := { a_ka : ka; a_stun : option (string * N); a_dns : string; a_port : N }.

Inductive status := Attached_ | Redirect | Error | UnknownFingerprint | WrongProductId | WrongDeviceId.

Local Open Scope string_scope.

(** nc_attacher_attach_start.c 180-254 handle_attached; None: undefined behaviour. Memory is there. *)
Definition handle_attached (a : att) (root : cv) : option (att * status) :=
  let ka1 := match find "KeepAlive" root with
             | CMap l => match assoc "Interval" l, assoc "RetryInterval" l, assoc "MaxRetries" l with
                         | CUint i, CUint r, CUint m => ka_set (a_ka a) (u32 i) (u32 r) (u32 m)
                         | _, _, _ => Some (a_ka a)
                         end
             | _ => Some (a_ka a)
             end in
  match ka1 with
  | None => None
  | Some k =>
    let st := match find "Stun" root with
              | CMap l => match assoc "Host" l, assoc "Port" l with
                          | CText h, CUint p => if Nat.ltb 255 (String.length h) then a_stun a
                                                else Some (h, (p mod 2 ^ 16)%N)
                          | _, _ => a_stun a
                          end
              | _ => a_stun a
              end in
    Some ({| a_ka := k; a_stun := st; a_dns := a_dns a; a_port := a_port a |}, Attached_)
  end.

(** nc_attacher_attach_start.c 256-309 handle_redirect. *)
Definition handle_redirect (a : att) (root : cv) : att * status :=
  match find "Host" root, find "Port" root, find "Fingerprint" root with
  | CText h, CUint p, CBytes _ =>
    if (Nat.ltb (String.length h) 1 || Nat.ltb 256 (String.length h))%bool then (a, Error)
    else ({| a_ka := a_ka a; a_stun := a_stun a; a_dns := h; a_port := (p mod 2 ^ 16)%N |}, Redirect)
  | _, _, _ => (a, Error)
  end.

(** The answer to the attach request: none, or code (class 2 is success, nc_coap.c), whether the
    content format is CBOR, and payload; [None]: no payload, or bytes which are not CBOR. *)
Inductive response := NoResponse | Response (ok : bool) (iscbor : bool) (payload : option cv).

(** nc_coap_rest_error.c 13-70 nc_coap_rest_error_decode_response, the error code; cbor_value_get_int keeps the
    low 32 bits. Negative codes are [COther] and give 0, no difference for the caller. *)
Definition error_code (iscbor : bool) (payload : option cv) : N :=
  if iscbor then match payload with
                 | Some v => match find "Code" (find "Error" v) with CUint n => u32 n | _ => 0%N end
                 | None => 0%N
                 end
  else 0%N.

(** nc_attacher_attach_start.c 94-178 coap_attach_start_handle_response. NABTO_PROTOCOL_UNKNOWN_DEVICE_FINGERPRINT = 5,
    WRONG_PRODUCT_ID = 7, WRONG_DEVICE_ID = 8 (nc_coap_rest_error.h 28-37). ATTACH_STATUS_ATTACHED = 0,
    REDIRECT = 1 (nc_protocol_defines.h 30, 31). *)
Definition handle_response (a : att) (r : response) : option (att * status) :=
  match r with
  | NoResponse => Some (a, Error)
  | Response false c p =>
    let e := error_code c p in
    Some (a, if N.eqb e 5 then UnknownFingerprint else if N.eqb e 7 then WrongProductId
             else if N.eqb e 8 then WrongDeviceId else Error)
  | Response true _ None => Some (a, Error)
  | Response true _ (Some root) =>
    match find "Status" root with
    | CUint s => if N.eqb s 0 then handle_attached a root
                 else if N.eqb s 1 then Some (handle_redirect a root) else Some (a, Error)
    | _ => Some (a, Error)
    end
  end.
