(** * What the services file and the device configuration mean *)
From Coq Require Import String Ascii List Bool Arith NArith ZArith.
From Verif Require Import JsonModel JsonProofs PerModel PerSpec TunModel SvfModel.
Import ListNotations.
Open Scope string_scope.
Open Scope list_scope.
Open Scope nat_scope.

(** ** Numbers *)

(** C converts a number which fits to itself. *)
Definition cast_fits (cast : Z -> nat) : Prop := forall n, n <= N.to_nat 65535 -> cast (Z.of_nat n) = n.

(** strtod reads the numbers back which a 16 bit port can be. *)
Definition ports_readable (L : strtod_t) : Prop := strtod_sane L /\ forall n, n <= N.to_nat 65535 -> num_ok L (Z.of_nat n).

(** ** Texts *)

(** The first member of an object whose name is [k] but for upper and lower case. *)
Inductive named (k : string) : list (string * json) -> json -> Prop :=
| named_here : forall k' v l, eqb_nocase k k' = true -> named k ((k', v) :: l) v
| named_later : forall k' v' v l, eqb_nocase k k' = false -> named k l v -> named k ((k', v') :: l) v.

(** The text entries of an object, in order. *)
Definition texts (l : list (string * json)) : list (string * string) :=
  flat_map (fun e => match snd e with JStr x => [(fst e, x)] | _ => [] end) l.

(** The value describes the service: an object with an id, a type, a host, a port
    from 0 to 65535 and perhaps metadata. *)
Definition describes (j : json) (v : service) : Prop :=
  exists l, j = JObj l /\
    named "Id" l (JStr (v_id v)) /\ named "Type" l (JStr (v_type v)) /\ named "Host" l (JStr (v_host v)) /\
    named "Port" l (JNum (Z.of_nat (v_port v))) /\ v_port v <= N.to_nat 65535 /\
    ((exists e, named "Metadata" l (JObj e) /\ v_meta v = texts e) \/
     ((forall e, ~ named "Metadata" l (JObj e)) /\ v_meta v = [])).

(** The text of the file describes the services: it is an array and each of its
    elements describes one. *)
Definition file_describes (L : strtod_t) (t : string) (l : list service) : Prop :=
  exists js, parse L (JsonModel.cstr t) = Some (JArr js) /\ Forall2 describes js l.

(** A value which is a service definition: an object with the four members, of the
    right kinds. *)
Definition definition (j : json) : Prop :=
  exists l id type host port, j = JObj l /\
    named "Id" l (JStr id) /\ named "Type" l (JStr type) /\ named "Host" l (JStr host) /\ named "Port" l (JNum port).

(** ** Devices *)

(** What the device offers: id, type, address, port and metadata of each service,
    in order. *)
Definition offer (v : svc) : string * string * nat * nat * list (string * string) := (id v, ty v, addr v, port v, meta v).
Definition offers (s : TunModel.st) : list (string * string * nat * nat * list (string * string)) := map offer (svcs s).

(** The device offers exactly these services. *)
Definition offers_services (ip : string -> option nat) (s : TunModel.st) (l : list service) : Prop :=
  Forall2 (fun o v => exists a, ip (v_host v) = Some a /\ o = (v_id v, v_type v, a, v_port v, v_meta v)) (offers s) l.

(** Services with different ids, each with metadata of different names. *)
Definition distinct (l : list service) : Prop :=
  NoDup (map v_id l) /\ Forall (fun v => NoDup (map fst (v_meta v))) l.

(** ** Faults *)

(** There is memory for every service, every place in the vector and every metadata
    entry. *)
Definition enough (f : faults) : Prop :=
  (forall i, m_new (f_mem f) i = true) /\ (forall i, m_push (f_mem f) i = true) /\ (forall i k, m_ins (f_mem f) i k = true) /\
  (forall i k, g_meta (f_regs f) i k = true).

(** Nothing goes wrong in the start, and all of a file of [n] bytes is read. *)
Definition well (f : faults) (n : nat) : Prop :=
  enough f /\ f_before f = true /\ f_dmem f = true /\ f_parse f = true /\ f_between f = true /\ f_after f = true /\
  r_size (f_read f) = true /\ r_mem (f_read f) = true /\ r_open (f_read f) = true /\ n <= r_len (f_read f) /\
  (forall i, g_new (f_regs f) i = true) /\ (forall i, g_str (f_regs f) i = true) /\
  exists p, (forall i, g_port (f_regs f) i = Some (p i)) /\ forall i j, p i = p j -> i = j.

(** ** Services which can be written *)
Definition writable (v : service) : Prop :=
  no_nul (v_id v) /\ no_nul (v_type v) /\ no_nul (v_host v) /\ v_port v <= N.to_nat 65535 /\
  Forall (fun e => no_nul (fst e) /\ no_nul (snd e)) (v_meta v).

(** A configuration which can be written and read. *)
Definition complete (c : config) : Prop :=
  (exists p, c_product c = Some p /\ no_nul p) /\ (exists d, c_device c = Some d /\ no_nul d) /\
  (forall s, c_server c = Some s -> no_nul s) /\ c_port c <= N.to_nat 65535.
