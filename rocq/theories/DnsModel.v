(** Resolving a hostname: core/nc_dns_multi_resolver.c on top of modules/dns/unix/nm_unix_dns.c (a thread calling getaddrinfo) or modules/libevent/nm_libevent_dns.c (evdns_getaddrinfo). What the system answers is an input. *)
From Coq Require Import List Bool Arith.
Import ListNotations.

Inductive addr := A4 (n : nat) | A6 (n : nat).
Inductive fam := F4 | F6.
Inductive plat := Unix | Libevent.
(** Names, and literal addresses, which the libevent module looks at itself. *)
Inductive host := Name (n : nat) | Lit4 (n : nat) | Lit6 (n : nat).
Inductive ec := Ok | InProgress | NotFound | NoData | Stopped | OutOfMemory | Unknown.
(** NC_DNS_MULTI_RESOLVER_MAX_IPS, nc_dns_multi_resolver.h 19. *)
Definition cap : nat := 4.

(** One family: a lookup is running (Busy), its completion event is posted with an error code, or neither. code: v4Ec or v6Ec; ips: the first v4IpsSize or v6IpsSize entries of v4Ips or v6Ips. *)
Inductive look := Idle | Busy | Posted (e : ec).
Record side := { lk : look; code : ec; ips : list addr }.
Inductive out :=
| Started (id n : nat)                            (* a request for at most n addresses is accepted *)
| Looked (f : fam) (e : ec) (a : list addr)       (* a lookup ends *)
| Completed (id : nat) (e : ec) (a : list addr)   (* the callback of the caller: the code, and the addresses in its array *)
| Crash.                                          (* a write outside the array *)
(** cur: resolvedCompletionEvent and ipsSize while a resolve is outstanding. posted: completion events of callers; each caller has its own array. *)
Record st := { s4 : side; s6 : side; cur : option (nat * nat); posted : list (nat * ec * list addr); stopped : bool; dead : bool }.
(** nc_dns_multi_resolver_init, 18-34. *)
Definition init : st :=
  let s := {| lk := Idle; code := Ok; ips := [] |} in {| s4 := s; s6 := s; cur := None; posted := []; stopped := false; dead := false |}.
Definition side_of (f : fam) (s : st) : side := match f with F4 => s4 s | F6 => s6 s end.
Definition set_side (f : fam) (x : side) (s : st) : st :=
  match f with
  | F4 => {| s4 := x; s6 := s6 s; cur := cur s; posted := posted s; stopped := stopped s; dead := dead s |}
  | F6 => {| s4 := s4 s; s6 := x; cur := cur s; posted := posted s; stopped := stopped s; dead := dead s |}
  end.
Definition die (s : st) : st * list out := ({| s4 := s4 s; s6 := s6 s; cur := cur s; posted := posted s; stopped := stopped s; dead := true |}, [Crash]).
Definition post (x : nat * ec * list addr) (s : st) : st := {| s4 := s4 s; s6 := s6 s; cur := cur s; posted := posted s ++ [x]; stopped := stopped s; dead := dead s |}.
Definition busy (c : ec) : bool := match c with InProgress => true | _ => false end.
Definition is_ok (c : ec) : bool := match c with Ok => true | _ => false end.

(** The lookup of a family ends: np_completion_event_resolve after the array is filled. *)
Definition ended (f : fam) (e : ec) (a : list addr) (s : st) : st * list out := (set_side f {| lk := Posted e; code := code (side_of f s); ips := a |} s, [Looked f e a]).
(** Starting: async_resolve, nm_unix_dns.c 185-210; async_resolve_v4 and _v6, nm_libevent_dns.c 124-262 (al: the allocations succeed; evdns_getaddrinfo may call dns_cb at once, which only posts an event). *)
Definition start (P : plat) (f : fam) (h : host) (al : bool) (s : st) : st * list out :=
  match P with
  | Unix => if stopped s then ended f Stopped [] s else if al then (s, []) else ended f OutOfMemory [] s
  | Libevent =>
    if stopped s then ended f Stopped [] s else
    match f, h with
    | F4, Lit6 _ | F6, Lit4 _ => ended f NoData [] s
    | F4, Lit4 n => ended f Ok [A4 n] s
    | F6, Lit6 n => ended f Ok [A6 n] s
    | _, Name _ => if al then (s, []) else ended f OutOfMemory [] s
    end
  end.
(** nc_dns_multi_resolver_resolve, 41-66. *)
Definition resolve (P : plat) (id : nat) (h : host) (n : nat) (al4 al6 : bool) (s : st) : st * list out :=
  if busy (code (s4 s)) || busy (code (s6 s)) then (post (id, InProgress, []) s, []) else
  let x := {| lk := Busy; code := InProgress; ips := [] |} in
  let s := {| s4 := x; s6 := x; cur := Some (id, n); posted := posted s; stopped := stopped s; dead := dead s |} in
  let (s, o4) := start P F4 h al4 s in
  let (s, o6) := start P F6 h al6 s in (s, Started id n :: o4 ++ o6).
(** resolve_one_ec, nm_unix_dns.c 51-96: the test in the loop reads the number stored before the loop, which is 0, so that every address is stored; more than the array holds is a write outside. dns_cb_deferred, nm_libevent_dns.c 277-330: no more than the array holds. None: the system reports an error. *)
Definition answer (P : plat) (f : fam) (r : option (list addr)) (s : st) : st * list out :=
  match lk (side_of f s) with
  | Busy =>
    match P, r with
    | Unix, None => ended f NotFound [] s
    | Unix, Some a => if Nat.ltb cap (List.length a) then die s else ended f Ok a s
    | Libevent, None => ended f Unknown [] s
    | Libevent, Some a => ended f (match a with [] => NoData | _ => Ok end) (firstn cap a) s
    end
  | _ => (s, [])
  end.
(** dns_resolved_ec, 82-108: the loop. *)
Fixpoint fill (n i todo : nat) (a4 a6 got : list addr) : list addr :=
  match todo with
  | O => got
  | S todo =>
    let got := if Nat.ltb (List.length got) n then match nth_error a4 i with Some x => got ++ [x] | None => got end else got in
    let got := if Nat.ltb (List.length got) n then match nth_error a6 i with Some x => got ++ [x] | None => got end else got in
    fill n (S i) todo a4 a6 got
  end.
Definition resolved_ec (n : nat) (x4 x6 : side) : ec * list addr :=
  if negb (is_ok (code x4)) && negb (is_ok (code x6)) then (code x4, []) else
  (Ok, fill n 0 (List.length (ips x4) + List.length (ips x6)) (ips x4) (ips x6) []).
(** dns_resolved_callback_v4 and _v6, 68-80, dns_resolved, 110-123. *)
Definition fire (f : fam) (s : st) : st * list out :=
  match lk (side_of f s) with
  | Posted e =>
    let s := set_side f {| lk := Idle; code := e; ips := ips (side_of f s) |} s in
    if busy (code (s4 s)) || busy (code (s6 s)) then (s, []) else
    match cur s with
    | None => (s, [])
    | Some (id, n) =>
      let (e, a) := resolved_ec n (s4 s) (s6 s) in
      (post (id, e, a) {| s4 := s4 s; s6 := s6 s; cur := None; posted := posted s; stopped := stopped s; dead := dead s |}, [])
    end
  | _ => (s, [])
  end.
(** The event queue calls a callback; the events of callers are called in the order in which they were posted. *)
Definition deliver (s : st) : st * list out :=
  match posted s with
  | [] => (s, [])
  | (id, e, a) :: l => ({| s4 := s4 s; s6 := s6 s; cur := cur s; posted := l; stopped := stopped s; dead := dead s |}, [Completed id e a])
  end.
(** stop_resolver, nm_unix_dns.c 150-171: what the thread has not begun (w4, w6: it has begun) ends. nm_libevent_dns_stop, 96-113: requests are cancelled, their callbacks come later with an error. *)
Definition stop (P : plat) (w4 w6 : bool) (s : st) : st * list out :=
  if stopped s then (s, []) else
  let s := {| s4 := s4 s; s6 := s6 s; cur := cur s; posted := posted s; stopped := true; dead := dead s |} in
  match P with
  | Libevent => (s, [])
  | Unix =>
    let (s, o4) := match lk (s4 s), w4 with Busy, false => ended F4 Stopped [] s | _, _ => (s, []) end in
    let (s, o6) := match lk (s6 s), w6 with Busy, false => ended F6 Stopped [] s | _, _ => (s, []) end in (s, o4 ++ o6)
  end.

Inductive op := Resolve (id : nat) (h : host) (n : nat) (al4 al6 : bool) | Answer (f : fam) (r : option (list addr)) | Fire (f : fam) | Deliver | Stop (w4 w6 : bool).
Definition step (P : plat) (s : st) (v : op) : st * list out :=
  if dead s then (s, []) else
  match v with
  | Resolve id h n al4 al6 => resolve P id h n al4 al6 s
  | Answer f r => answer P f r s
  | Fire f => fire f s
  | Deliver => deliver s
  | Stop w4 w6 => stop P w4 w6 s
  end.
Fixpoint run (P : plat) (s : st) (l : list op) : st * list out :=
  match l with [] => (s, []) | v :: l => let (s, o) := step P s v in let (s, o') := run P s l in (s, o ++ o') end.
