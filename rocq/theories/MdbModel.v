(** * The sockets of the mDNS server (C96)

    Models binding, using and destroying one socket of the mDNS server:
    - src/modules/select_unix/nm_select_unix_mdns_udp_bind.c (platform [Select])
    - src/modules/libevent/nm_libevent_mdns_udp_bind.c       (platform [Libevent])
    over the descriptor table of UdpModel.

    Oracles: the results of socket(), of preparing the socket (options and
    bind to port 5353) and of event_new() are inputs.  Simplified: group
    memberships, whose failure is ignored by the code, and addresses are left
    out.  IPv4 and IPv6 take the same steps. *)
From Coq Require Import List Arith Bool.
From Verif Require UdpModel.
Import ListNotations.

Notation look := UdpModel.look.
Notation drop := UdpModel.drop.
Notation Ours := UdpModel.Ours.
Notation Theirs := UdpModel.Theirs.

Inductive platform := Select | Libevent.
Inductive ec := EOk | EAborted | ECreation | ENoMem | ESendFailed.

Inductive out :=
  | Bound (e : ec)
  | Opened (k : nat)
  | Closed (k : nat)        (* close() of a descriptor of this socket *)
  | ClosedOther (k : nat)   (* close() of a descriptor of somebody else *)
  | ClosedNone (k : nat)    (* close() of a descriptor which is not open *)
  | SentOn (k : nat)        (* sendto() on a descriptor of this socket *)
  | SentOther (k : nat)     (* sendto() on a descriptor of somebody else *)
  | SendDone (e : ec).

(** struct np_udp_socket; [tried]: the bind function has been called, which
    the server does once (nm_mdns_server.c:225-231). *)
Record st := mk { fds : UdpModel.fdt; live : bool; sk : option nat; aborted : bool; tried : bool }.

Definition init : st := mk [] true None false false.

Definition set_fds s t := mk t (live s) (sk s) (aborted s) (tried s).
Definition set_sk s k := mk (fds s) (live s) k (aborted s) (tried s).

(** close(sock->sock). *)
Definition close_sk (s : st) : st * list out :=
  match sk s with
  | None => (s, [])
  | Some k => match look k (fds s) with
              | Some Ours => (set_fds s (drop k (fds s)), [Closed k])
              | Some Theirs => (set_fds s (drop k (fds s)), [ClosedOther k])
              | None => (s, [ClosedNone k])
              end
  end.

(** nm_select_unix_async_bind_mdns_ipv4_ec,
    nm_select_unix_mdns_udp_bind.c:47-68, nm_select_unix_async_bind_mdns_ipv6_ec,
    76-103, create_socket_ipv6 and create_socket_ipv4, 112-140;
    udp_async_bind_mdns_ipv4_ec, nm_libevent_mdns_udp_bind.c:70-96,
    udp_async_bind_mdns_ipv6_ec, 104-129, udp_create_socket_ipv6 and
    udp_create_socket_ipv4, 138-165.  After a failure the descriptor is closed
    but sock->sock keeps its number. *)
Definition bind (p : platform) (o : option nat) (prep evok : bool) (s : st) : st * list out * ec :=
  if aborted s then (s, [], EAborted)
  else match UdpModel.sys_socket o (fds s) with
       | None => (s, [], ECreation)
       | Some k =>
           let s1 := set_sk (set_fds s ((k, Ours) :: fds s)) (Some k) in
           if prep then
             match p, evok with
             | Libevent, false => let (s2, x) := close_sk s1 in (s2, Opened k :: x, ENoMem)
             | _, _ => (s1, [Opened k], EOk)
             end
           else let (s2, x) := close_sk s1 in (s2, Opened k :: x, ECreation)
       end.

(** udp_async_send_to_ec, nm_libevent_udp.c:201-210 and
    nm_select_unix_udp.c:121-130: sendto() on sock->sock. *)
Definition send (s : st) : st * list out :=
  if aborted s then (s, [SendDone EAborted])
  else match sk s with
       | None => (s, [SendDone ESendFailed])
       | Some k => match look k (fds s) with
                   | Some Ours => (s, [SentOn k; SendDone EOk])
                   | Some Theirs => (s, [SentOther k; SendDone EOk])
                   | None => (s, [SendDone ESendFailed])
                   end
       end.

Inductive op :=
  | Bind (o : option nat) (prep evok : bool)
  | Send | Abort | Destroy
  | FOpen (k : nat) | FClose (k : nat).  (* the rest of the process *)

(** Destroy: udp_destroy, nm_libevent_udp.c:144-165,
    nm_select_unix_udp_free_socket, nm_select_unix_udp.c:206-216. *)
Definition step (p : platform) (s : st) (i : op) : st * list out :=
  match i with
  | FOpen k => (match look k (fds s) with
                | None => set_fds s ((k, Theirs) :: fds s)
                | Some _ => s end, [])
  | FClose k => (match look k (fds s) with
                 | Some Theirs => set_fds s (drop k (fds s))
                 | _ => s end, [])
  | _ =>
    if live s then
      match i with
      | Bind o prep evok =>
          if tried s then (s, [])
          else let '(s1, x, e) := bind p o prep evok s in
               (mk (fds s1) (live s1) (sk s1) (aborted s1) true, x ++ [Bound e])
      | Send => send s
      | Abort => (mk (fds s) true (sk s) true (tried s), [])
      | Destroy => let (s1, x) := close_sk s in (mk (fds s1) false None true true, x)
      | _ => (s, [])
      end
    else (s, [])
  end.

Fixpoint runs (p : platform) (s : st) (l : list op) : st * list out :=
  match l with
  | [] => (s, [])
  | i :: l' => let (s1, a) := step p s i in let (s2, b) := runs p s1 l' in (s2, a ++ b)
  end.
Definition trace p l := snd (runs p init l).
