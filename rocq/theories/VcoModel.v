(** Virtual CoAP requests: api/nabto_device_virtual_connection.c 208-383 (the client side), the virtual parts of core/nc_coap_server.c (the server side) and core/nc_virtual_connection.c, one virtual connection. *)
From Coq Require Import List Bool Arith Ascii String.
Import ListNotations.
Local Open Scope list_scope.

(** * The path *)
(** nabto_device_virtual_coap_request_new, nabto_device_virtual_connection.c 211-260. The path is a list of characters without the terminating zero. The character before the end is read first: without any there is none (None: undefined). *)
Definition slash : ascii := "/"%char.
Definition strip (p : list ascii) : option (list ascii) :=
  match p with
  | [] => None
  | _ => Some (if Ascii.eqb (last p slash) slash then removelast p else p)
  end.
(** Lines 250-257: a pointer behind each slash; the slashes become zeroes, so that each string ends before the next one. *)
Fixpoint upto (p : list ascii) : list ascii := match p with [] => [] | c :: p => if Ascii.eqb c slash then [] else c :: upto p end.
Fixpoint pointers (p : list ascii) : list (list ascii) := match p with [] => [] | c :: p => (if Ascii.eqb c slash then [upto p] else []) ++ pointers p end.
Definition segments (p : list ascii) : option (list (list ascii)) := option_map pointers (strip p).

(** * Requests *)
(** struct nabto_device_virtual_coap_request, nabto_device_virtual_connection.c 46-57. live: not freed. core: apiReq.req. *)
Record api := { live : bool; segs : list (list ascii); pay : option (list nat); size : nat; fmt : nat; core : option nat; fut : option nat; ready : bool }.
(** struct nc_coap_server_virtual_request, nc_coap_server.h 29-55, and its nc_coap_server_request. gone: freed. who: handlerData. A request which is not gone is in the list of its connection unless it is closed. *)
Record creq := { who : nat; resolved : bool; rready : bool; cfreed : bool; sfreed : bool; closed : bool; gone : bool; rpay : option (list nat); rsize : nat; rfmt : nat; rcode : nat }.
Inductive err := Ok | Stopped | OutOfMemory | InvalidState | Unknown.
Inductive out :=
| Created (n : nat)                               (* a new request of the client *)
| Executed (n k : nat)                            (* the request n of the client is the request k of the server *)
| Handed (k : nat) (path : list (list ascii)) (p : list nat) (f : nat)    (* the handler of the resource is called *)
| Resolved (k f : nat) (e : err)                  (* the future f, for the request k *)
| Failed (f : nat) (e : err)                      (* the future f, without a request *)
| Freed (k : nat)
| Result (e : err) | GotCode (c : nat) | GotPayload (p : list nat) (len : nat) | GotFormat (f : nat)
| Crash.                                          (* undefined behaviour; nothing is said of what happens afterwards *)
(** conn: the virtual connection is there. lost: buffers to which no pointer is left. *)
Record st := { conn : bool; apis : list api; cores : list creq; lost : nat; dead : bool }.
Definition init : st := {| conn := true; apis := []; cores := []; lost := 0; dead := false |}.
Fixpoint upd {A : Type} (n : nat) (f : A -> A) (l : list A) : list A := match l, n with [], _ => [] | x :: l, O => f x :: l | x :: l, S n => x :: upd n f l end.
Definition set_apis (l : list api) (s : st) : st := {| conn := conn s; apis := l; cores := cores s; lost := lost s; dead := dead s |}.
Definition set_cores (l : list creq) (s : st) : st := {| conn := conn s; apis := apis s; cores := l; lost := lost s; dead := dead s |}.
Definition leak (b : bool) (s : st) : st := {| conn := conn s; apis := apis s; cores := cores s; lost := if b then S (lost s) else lost s; dead := dead s |}.
Definition die (s : st) : st * list out := ({| conn := conn s; apis := apis s; cores := cores s; lost := lost s; dead := true |}, [Crash]).
Definition is_some {A : Type} (o : option A) : bool := match o with Some _ => true | None => false end.

(** nc_coap_server_resolve_virtual, nc_coap_server.c 553-559, and response_handler, nabto_device_virtual_connection.c 374-383. *)
Definition set_ready (e : err) (a : api) : api := {| live := live a; segs := segs a; pay := pay a; size := size a; fmt := fmt a; core := core a; fut := fut a; ready := match e with Ok => true | _ => ready a end |}.
Definition set_resolved (c : creq) : creq := {| who := who c; resolved := true; rready := rready c; cfreed := cfreed c; sfreed := sfreed c; closed := closed c; gone := gone c; rpay := rpay c; rsize := rsize c; rfmt := rfmt c; rcode := rcode c |}.
Definition resolve (e : err) (k : nat) (s : st) : st * list out :=
  match nth_error (cores s) k with
  | None => die s
  | Some c =>
    if resolved c then (s, []) else
    match nth_error (apis s) (who c) with
    | Some a => match live a, fut a with
                | true, Some f => (set_apis (upd (who c) (set_ready e) (apis s)) (set_cores (upd k set_resolved (cores s)) s), [Resolved k f e])
                | _, _ => die s
                end
    | None => die s
    end
  end.
(** do_free_virtual_request, nc_coap_server.c 374-385. *)
Definition set_gone (c : creq) : creq := {| who := who c; resolved := resolved c; rready := rready c; cfreed := cfreed c; sfreed := sfreed c; closed := closed c; gone := true; rpay := rpay c; rsize := rsize c; rfmt := rfmt c; rcode := rcode c |}.
Definition do_free (k : nat) (s : st) : st * list out := (set_cores (upd k set_gone (cores s)) s, [Freed k]).
(** nc_coap_server_request_free, nc_coap_server.c 387-398. *)
Definition set_sfreed (c : creq) : creq := {| who := who c; resolved := resolved c; rready := rready c; cfreed := cfreed c; sfreed := true; closed := closed c; gone := gone c; rpay := rpay c; rsize := rsize c; rfmt := rfmt c; rcode := rcode c |}.
Definition server_free (k : nat) (c : creq) (s : st) : st * list out :=
  let s := set_cores (upd k set_sfreed (cores s)) s in if cfreed c then do_free k s else (s, []).
(** nc_coap_server_virtual_request_free, nc_coap_server.c 400-408. *)
Definition set_cfreed (c : creq) : creq := {| who := who c; resolved := resolved c; rready := rready c; cfreed := true; sfreed := sfreed c; closed := closed c; gone := gone c; rpay := rpay c; rsize := rsize c; rfmt := rfmt c; rcode := rcode c |}.
Definition client_free (k : nat) (c : creq) (s : st) : st * list out :=
  let s := set_cores (upd k set_cfreed (cores s)) s in if sfreed c then do_free k s else (s, []).
(** nc_coap_server_response_set_code (or _human), _set_payload, _set_content_format, nc_coap_server.c 318-358; the conversion of codes is CodecModel. *)
Definition set_resp (cd : nat) (p : option (list nat)) (z f : nat) (r : bool) (c : creq) : creq :=
  {| who := who c; resolved := resolved c; rready := r; cfreed := cfreed c; sfreed := sfreed c; closed := closed c; gone := gone c; rpay := p; rsize := z; rfmt := f; rcode := cd |}.
Definition resp_code (cd : nat) (k : nat) (c : creq) (s : st) : st * list out := (set_cores (upd k (set_resp cd (rpay c) (rsize c) (rfmt c) (rready c)) (cores s)) s, [Result Ok]).
Definition resp_payload (p : list nat) (a : bool) (k : nat) (c : creq) (s : st) : st * list out :=
  let s := leak (is_some (rpay c)) s in
  if a then (set_cores (upd k (set_resp (rcode c) (Some p) (List.length p) (rfmt c) (rready c)) (cores s)) s, [Result Ok])
  else (set_cores (upd k (set_resp (rcode c) None (rsize c) (rfmt c) (rready c)) (cores s)) s, [Result OutOfMemory]).
Definition resp_format (f : nat) (k : nat) (c : creq) (s : st) : st * list out := (set_cores (upd k (set_resp (rcode c) (rpay c) (rsize c) f (rready c)) (cores s)) s, [Result Ok]).
(** nc_coap_server_response_ready, nc_coap_server.c 360-372. *)
Definition resp_ready (k : nat) (c : creq) (s : st) : st * list out :=
  if closed c then (s, [Result Ok]) else
  let (s, o) := resolve Ok k (set_cores (upd k (set_resp (rcode c) (rpay c) (rsize c) (rfmt c) true) (cores s)) s) in (s, o ++ [Result Ok]).
(** nc_coap_server_send_error_response, nc_coap_server.c 303-316. msg: the message, None for NULL; a: nn_strdup succeeds. *)
Definition resp_error (cd : nat) (msg : option (list nat)) (a : bool) (k : nat) (c : creq) (s : st) : st * list out :=
  let s := leak (is_some msg && is_some (rpay c)) s in
  let p := match msg with None => rpay c | Some m => if a then Some m else None end in
  let z := match msg with None => rsize c | Some m => List.length m end in
  let (s, o) := resolve Ok k (set_cores (upd k (set_resp cd p z (rfmt c) true) (cores s)) s) in (s, o ++ [Result Ok]).
(** NABTO_COAP_CODE_NOT_FOUND, "Resource not found" (as character codes, first character only). *)
Definition not_found : nat := 132.
Definition not_found_text : list nat := [82].

(** * The client *)
Definition new_req (p : list ascii) (a : bool) (s : st) : st * list out :=
  if negb a then (s, [Result OutOfMemory]) else
  match segments p with
  | None => die s
  | Some g => (set_apis (apis s ++ [{| live := true; segs := g; pay := None; size := 0; fmt := 0; core := None; fut := None; ready := false |}]) s, [Created (List.length (apis s))])
  end.
(** nabto_device_virtual_coap_request_set_payload, 279-292: the old buffer is not freed, the size is set last. *)
Definition set_pay (p : option (list nat)) (z : nat) (a : api) : api := {| live := live a; segs := segs a; pay := p; size := z; fmt := fmt a; core := core a; fut := fut a; ready := ready a |}.
Definition set_payload (n : nat) (d : list nat) (al : bool) (a : api) (s : st) : st * list out :=
  let s := leak (is_some (pay a)) s in
  if al then (set_apis (upd n (set_pay (Some d) (List.length d)) (apis s)) s, [Result Ok])
  else (set_apis (upd n (set_pay None (size a)) (apis s)) s, [Result OutOfMemory]).
Definition set_format (n f : nat) (s : st) : st * list out :=
  (set_apis (upd n (fun a => {| live := live a; segs := segs a; pay := pay a; size := size a; fmt := f; core := core a; fut := fut a; ready := ready a |}) (apis s)) s, [Result Ok]).
(** nabto_device_virtual_coap_request_execute, 302-317, and nc_coap_server_create_virtual_request, nc_coap_server.c 469-514. al: the allocations succeed (also the copy of the message not found); found: there is a resource. The handler of the resource runs before apiReq.req is set; what it does is a later step here, which is the same because nothing of it uses apiReq.req. *)
Definition set_exec (c : option nat) (f : nat) (a : api) : api := {| live := live a; segs := segs a; pay := pay a; size := size a; fmt := fmt a; core := c; fut := Some f; ready := ready a |}.
Definition execute (n f : nat) (al found : bool) (a : api) (s : st) : st * list out :=
  if negb al then (set_apis (upd n (set_exec None f) (apis s)) s, [Failed f OutOfMemory]) else
  match (match pay a with Some p => if Nat.leb (size a) (List.length p) then Some (firstn (size a) p) else None | None => if Nat.eqb (size a) 0 then Some [] else None end) with
  | None => die s
  | Some p =>
    let k := List.length (cores s) in
    let c := {| who := n; resolved := false; rready := false; cfreed := false; sfreed := negb found; closed := false; gone := false; rpay := None; rsize := 0; rfmt := 0; rcode := 0 |} in
    let s := set_apis (upd n (set_exec (Some k) f) (apis s)) (set_cores (cores s ++ [c]) s) in
    if found then (s, [Executed n k; Handed k (segs a) p (fmt a)])
    else let (s, o) := resolve Ok k (set_cores (upd k (set_resp not_found (Some not_found_text) (List.length not_found_text) 0 true) (cores s)) s) in (s, Executed n k :: o)
  end.
(** nabto_device_virtual_coap_request_free, 262-277. *)
Definition set_dead (a : api) : api := {| live := false; segs := segs a; pay := pay a; size := size a; fmt := fmt a; core := core a; fut := fut a; ready := ready a |}.
Definition req_free (n : nat) (a : api) (s : st) : st * list out :=
  let s' := set_apis (upd n set_dead (apis s)) s in
  match core a with
  | None => (s', [])
  | Some k => match nth_error (cores s) k with None => die s | Some c => if gone c then die s else client_free k c s' end
  end.
(** 319-372 and nc_coap_server.c 517-551: nothing without a response; the device is found through the connection. *)
Definition getting (a : api) (s : st) (f : creq -> out) : st * list out :=
  if negb (ready a) then (s, [Result InvalidState]) else
  if negb (conn s) then die s else
  match core a with
  | None => die s
  | Some k => match nth_error (cores s) k with
              | None => die s
              | Some c => if gone c then die s else (s, [if rready c then f c else Result InvalidState])
              end
  end.
Definition get_code (a : api) (s : st) : st * list out := getting a s (fun c => GotCode (rcode c)).
Definition get_format (a : api) (s : st) : st * list out := getting a s (fun c => GotFormat (rfmt c)).
Definition get_payload (a : api) (s : st) : st * list out := getting a s (fun c => match rpay c with Some p => GotPayload p (rsize c) | None => Result Unknown end).
(** nabto_device_virtual_connection_free, 97-110; nc_virtual_connection_destroy, nc_virtual_connection.c 21-31; nc_coap_server_remove_connection, nc_coap_server.c 189-203. *)
Definition set_closed (c : creq) : creq := {| who := who c; resolved := resolved c; rready := rready c; cfreed := cfreed c; sfreed := sfreed c; closed := true; gone := gone c; rpay := rpay c; rsize := rsize c; rfmt := rfmt c; rcode := rcode c |}.
Fixpoint close_all (n k : nat) (s : st) : st * list out :=
  match n with
  | O => (s, [])
  | S n => match nth_error (cores s) k with
           | None => (s, [])
           | Some c => if gone c then close_all n (S k) s else
                       let (s, o) := resolve Stopped k (set_cores (upd k set_closed (cores s)) s) in
                       if dead s then (s, o) else let (s, o') := close_all n (S k) s in (s, o ++ o')
           end
  end.
Definition conn_free (s : st) : st * list out :=
  if negb (conn s) then die s else
  let (s, o) := close_all (List.length (cores s)) 0 s in ({| conn := false; apis := apis s; cores := cores s; lost := lost s; dead := dead s |}, o).

Inductive op :=
| New (p : list ascii) (a : bool) | SetPayload (n : nat) (d : list nat) (a : bool) | SetFormat (n f : nat) | Execute (n f : nat) (al found : bool) | Free (n : nat)
| GetCode (n : nat) | GetFormat (n : nat) | GetPayload (n : nat)
| RCode (k c : nat) | RPayload (k : nat) (d : list nat) (a : bool) | RFormat (k f : nat) | RReady (k : nat) | RError (k c : nat) (m : option (list nat)) (a : bool) | RFree (k : nat)
| ConnFree.
(** A call on a request of the client which is not there, or of the server which is freed, is undefined. *)
Definition on_api (n : nat) (s : st) (f : api -> st * list out) : st * list out :=
  match nth_error (apis s) n with Some a => if live a then f a else die s | None => die s end.
Definition on_core (k : nat) (s : st) (f : creq -> st * list out) : st * list out :=
  match nth_error (cores s) k with Some c => if gone c || sfreed c then die s else f c | None => die s end.
Definition step (s : st) (v : op) : st * list out :=
  if dead s then (s, []) else
  match v with
  | New p a => if conn s then new_req p a s else die s
  | SetPayload n d a => on_api n s (fun x => set_payload n d a x s)
  | SetFormat n f => on_api n s (fun x => set_format n f s)
  | Execute n f al found => on_api n s (fun x => if conn s then execute n f al found x s else die s)
  | Free n => on_api n s (fun x => req_free n x s)
  | GetCode n => on_api n s (fun x => get_code x s) | GetFormat n => on_api n s (fun x => get_format x s) | GetPayload n => on_api n s (fun x => get_payload x s)
  | RCode k c => on_core k s (fun x => resp_code c k x s) | RPayload k d a => on_core k s (fun x => resp_payload d a k x s) | RFormat k f => on_core k s (fun x => resp_format f k x s)
  | RReady k => on_core k s (fun x => resp_ready k x s) | RError k c m a => on_core k s (fun x => resp_error c m a k x s) | RFree k => on_core k s (fun x => server_free k x s)
  | ConnFree => conn_free s
  end.
Fixpoint run (s : st) (l : list op) : st * list out :=
  match l with [] => (s, []) | v :: l => let (s, o) := step s v in let (s, o') := run s l in (s, o ++ o') end.
