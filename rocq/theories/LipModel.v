(** * The local addresses of a device

    Models get_local_ips of /repo/src/modules/unix/nm_unix_local_ip.c:26-106 and of
    /repo/src/modules/libevent/nm_libevent_get_local_ip.c:51-131, which differ in the
    names of the socket functions only.  An address is the list of its bytes.

    The system is an input: what socket, connect and getsockname answer for IPv4 and for
    IPv6.  Simplifications: inet_addr and inet_pton of the two literals succeed; close
    does not fail; a name returned has the size of its family. *)
From Coq Require Import List Bool NArith Arith.
Import ListNotations.

Inductive family := V4 | V6.
(** what the system does with the socket of a family *)
Inductive answer := NoSocket | NoRoute | NoName | Name (ip : list N).
(** the calls made *)
Inductive call := Socket (f : family) (fd : nat) | Connect (fd : nat) | GetName (fd : nat) | Close (fd : nat).

(** memcmp with INADDR_ANY or in6addr_any *)
Definition any (ip : list N) : bool := forallb (fun b => N.eqb b 0) ip.

(** One family: the array (a write outside: [None]), ind, and the calls; [fd] names
    the socket (nm_unix_local_ip.c:40-70 and 74-104); the two sockets have two names,
    though the system may give the second the number of the first, which is closed. *)
Definition one (f : family) (a : answer) (fd : nat) (arr : list (option (family * list N))) (ind : nat)
  : option (list (option (family * list N))) * nat * list call :=
  match a with
  | NoSocket => (Some arr, ind, [])
  | NoRoute => (Some arr, ind, [Socket f fd; Connect fd; Close fd])
  | NoName => (Some arr, ind, [Socket f fd; Connect fd; GetName fd; Close fd])
  | Name ip =>
    if any ip then (Some arr, ind, [Socket f fd; Connect fd; GetName fd; Close fd])
    else (if Nat.ltb ind (length arr) then Some (firstn ind arr ++ Some (f, ip) :: skipn (S ind) arr) else None, S ind, [Socket f fd; Connect fd; GetName fd; Close fd])
  end.

(** get_local_ips with an array of the given size, nm_unix_local_ip.c:26-106: the array,
    the result and the calls *)
Definition get_local_ips (arr : list (option (family * list N))) (a4 a6 : answer) (fd4 fd6 : nat)
  : option (list (option (family * list N))) * nat * list call :=
  if Nat.ltb (length arr) 1 then (Some arr, 0, [])
  else
    let '(r4, ind, c4) := one V4 a4 fd4 arr 0 in
    match r4 with
    | None => (None, ind, c4)
    | Some arr1 =>
      if Nat.ltb (length arr) (ind + 1) then (Some arr1, ind, c4)
      else let '(r6, ind2, c6) := one V6 a6 fd6 arr1 ind in (r6, ind2, c4 ++ c6)
    end.
