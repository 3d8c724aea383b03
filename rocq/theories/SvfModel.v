(** * The services file and the device configuration of the TCP tunnel device

    Models apps/tcp_tunnel_device/src/tcp_tunnel_services.c,
    apps/common/json_config.c, apps/common/device_config.c and the part of
    apps/tcp_tunnel_device/src/tcp_tunnel_main.c which gives the services to the
    device.

    Simplifications:
    - the results of strdup are taken to be strings;
    - a JSON number is the integer part of what strtod gives, as in [JsonModel];
    - nobody else writes the files while they are read;
    - nn_string_map (whose source is not in the repository) keeps the entries in
      the order in which they are inserted;
    - everything else which a start does is an input: it succeeds or not. *)
From Coq Require Import String Ascii List Bool Arith NArith ZArith.
From Verif Require Import JsonModel PerModel TunModel.
Import ListNotations.
Open Scope string_scope.
Open Scope list_scope.
Open Scope nat_scope.

(** struct tcp_tunnel_service, tcp_tunnel_services.h:14-20 *)
Record service := { v_id : string; v_type : string; v_host : string; v_port : nat; v_meta : list (string * string) }.

(** What a C program finds after a call: a value, a failure, or nothing since it
    dereferenced a null pointer. *)
Inductive res (A : Type) := Got (x : A) | Failed | Crashed.
Arguments Got {A} x.
Arguments Failed {A}.
Arguments Crashed {A}.

(** json_config_exists, json_config.c:14-21 *)
Definition json_config_exists (file : option string) : bool := PerModel.file_exists file.

(** json_config_load, json_config.c:23-54: the buffer is used without a test
    whether calloc (line 31) gave one.  [mem]: cJSON_Parse has memory. *)
Definition json_config_load (L : strtod_t) (r : rres) (mem : bool) (file : option string) : res json :=
  match file with
  | None => Failed
  | Some t =>
    if negb (r_size r) then Failed
    else if negb (r_open r) then Failed
    else if negb (r_mem r) then Crashed
    else if negb mem then Failed
    else match parse L (JsonModel.cstr (PerModel.take (r_len r) t)) with
         | Some j => Got j
         | None => Failed
         end
  end.

(** json_config_save, json_config.c:56-75.  [mem]: cJSON_PrintUnformatted gives a
    text.  The file afterwards, and what is returned, [None] when power is lost. *)
Definition json_config_save (mem : bool) (w : wres) (file : option string) (j : json) : option string * option bool :=
  if mem then PerModel.write_file w file (print j) else (file, Some false).

(** ** Services *)

(** Which allocations succeed while the services are read: of the [i]th service,
    of its place in the vector, and of its metadata entries. *)
Record mems := { m_new : nat -> bool; m_push : nat -> bool; m_ins : nat -> string -> bool }.

(** cJSON_IsString and cJSON_IsNumber of what cJSON_GetObjectItem gives *)
Definition str_of (o : option json) : option string := match o with Some (JStr s) => Some s | _ => None end.
Definition num_of (o : option json) : option Z := match o with Some (JNum z) => Some z | _ => None end.

(** the loop over the metadata, tcp_tunnel_services.c:100-116: an entry which is
    no string is passed over; the result of nn_string_map_insert is not used *)
Fixpoint read_meta (ins : string -> bool) (l : list (string * json)) : list (string * string) :=
  match l with
  | [] => []
  | (k, JStr x) :: l' => if ins k then (k, x) :: read_meta ins l' else read_meta ins l'
  | _ :: l' => read_meta ins l'
  end.

(** service_from_json, tcp_tunnel_services.c:77-123.  [cast] is the conversion
    from double to uint16_t (line 97), which C defines for 0 to 65535 only. *)
Definition service_from_json (cast : Z -> nat) (m : mems) (i : nat) (j : json) : option service :=
  match j with
  | JObj l =>
    match str_of (get_item j "Id"), str_of (get_item j "Type"), str_of (get_item j "Host"), num_of (get_item j "Port") with
    | Some id, Some type, Some host, Some port =>
      if m_new m i then
        Some {| v_id := id; v_type := type; v_host := host; v_port := cast port;
                v_meta := match get_item j "Metadata" with Some (JObj e) => read_meta (m_ins m i) e | _ => [] end |}
      else None
    | _, _, _, _ => None
    end
  | _ => None
  end.

(** the loop of load_services_from_json, tcp_tunnel_services.c:64-74: the result
    of nn_vector_push_back (line 69) is not used *)
Fixpoint load_items (cast : Z -> nat) (m : mems) (i : nat) (l : list json) : option (list service) :=
  match l with
  | [] => Some []
  | j :: l' =>
    match service_from_json cast m i j with
    | None => None
    | Some v =>
      match load_items cast m (S i) l' with
      | None => None
      | Some vs => Some (if m_push m i then v :: vs else vs)
      end
    end
  end.

(** load_services_from_json, tcp_tunnel_services.c:57-75 *)
Definition load_services_from_json (cast : Z -> nat) (m : mems) (j : json) : option (list service) :=
  match j with JArr l => load_items cast m 0 l | _ => None end.

(** tcp_tunnel_service_as_json, tcp_tunnel_services.c:126-146 *)
Definition service_as_json (v : service) : json :=
  JObj [("Id", JStr (v_id v)); ("Type", JStr (v_type v)); ("Host", JStr (v_host v)); ("Port", JNum (Z.of_nat (v_port v)));
        ("Metadata", JObj (map (fun e => (fst e, JStr (snd e))) (v_meta v)))].

(** the services file of a list of services: the setups,
    tcp_tunnel_init.c:249, 266, 398, 405, and tcp_tunnel_services.c:150, 165 *)
Definition services_json (l : list service) : json := JArr (map service_as_json l).

(** tcp_tunnel_services.c:160-163 *)
Definition ssh_service : service := {| v_id := "ssh"; v_type := "ssh"; v_host := "127.0.0.1"; v_port := 22; v_meta := [] |}.

(** tcp_tunnel_create_default_services_file, tcp_tunnel_services.c:148-168.
    [mem]: the array, the service and the text are allocated. *)
Definition create_default_services_file (mem : bool) (w : wres) (file : option string) : option string * option bool :=
  json_config_save mem w file (services_json [ssh_service]).

(** ** Giving the services to the device *)

(** What happens while the services are given to the device: the allocations of
    nabto_device_add_tcp_tunnel_service for the [i]th service, the port the stream
    manager chose for it, and the allocations of its metadata. *)
Record regs := { g_new : nat -> bool; g_str : nat -> bool; g_port : nat -> option nat; g_meta : nat -> string -> bool }.

Definition is_ok (o : list TunModel.out) : bool := match o with [Result Ok] => true | _ => false end.

(** the loop over the metadata, tcp_tunnel_main.c:590-600 *)
Fixpoint give_meta (g : string -> bool) (id : string) (l : list (string * string)) (s : TunModel.st) : TunModel.st * bool :=
  match l with
  | [] => (s, true)
  | (k, x) :: l' => let (s', o) := add_meta id k x (g k) s in if is_ok o then give_meta g id l' s' else (s', false)
  end.

(** the loop over the services, tcp_tunnel_main.c:581-601.  [ip]: np_ip_address_read_v4. *)
Fixpoint give_services (ip : string -> option nat) (g : regs) (i : nat) (l : list service) (s : TunModel.st) : TunModel.st * bool :=
  match l with
  | [] => (s, true)
  | v :: l' =>
    let (s1, o) := add_service (v_id v) (v_type v) (ip (v_host v)) (v_port v) (g_new g i) (g_str g i) (g_port g i) s in
    if is_ok o then
      let (s2, b) := give_meta (g_meta g i) (v_id v) (v_meta v) s1 in
      if b then give_services ip g (S i) l' s2 else (s2, false)
    else (s1, false)
  end.

(** ** A start *)

(** The faults of a start: what was done before (everything up to
    tcp_tunnel_main.c:525 went well), the default file (its memory, its write),
    the read of the file, the memory, the device, and the rest of the start. *)
Record faults := { f_before : bool; f_dmem : bool; f_write : wres; f_read : rres; f_parse : bool; f_mem : mems;
                   f_between : bool; f_regs : regs; f_after : bool }.

(** load_tcp_tunnel_services, tcp_tunnel_services.c:32-55: the file afterwards and
    the services *)
Definition load_tcp_tunnel_services (L : strtod_t) (cast : Z -> nat) (f : faults) (file : option string) : option string * res (list service) :=
  let load file' :=
    match json_config_load L (f_read f) (f_parse f) file' with
    | Got j => match load_services_from_json cast (f_mem f) j with Some l => Got l | None => Failed end
    | Failed => Failed
    | Crashed => Crashed
    end in
  if json_config_exists file then (file, load file)
  else
    let (file', b) := create_default_services_file (f_dmem f) (f_write f) file in
    match b with
    | Some true => (file', load file')
    | _ => (file', Failed)
    end.

(** handle_main, tcp_tunnel_main.c:408, 488-601 and what follows: the services file
    afterwards and the tunnels of the device if it runs. *)
Definition start (L : strtod_t) (cast : Z -> nat) (ip : string -> option nat) (f : faults) (file : option string) : option string * res TunModel.st :=
  if negb (f_before f) then (file, Failed) else
  let (file', r) := load_tcp_tunnel_services L cast f file in
  (file', match r with
          | Got l =>
            if negb (f_between f) then Failed else
            let (s, b) := give_services ip (f_regs f) 0 l TunModel.init in
            if (b && f_after f)%bool then Got s else Failed
          | Failed => Failed
          | Crashed => Crashed
          end).

(** One start after the other: the file at the end and what came of each start. *)
Fixpoint starts (L : strtod_t) (cast : Z -> nat) (ip : string -> option nat) (l : list faults) (file : option string) : option string * list (res TunModel.st) :=
  match l with
  | [] => (file, [])
  | f :: l' =>
    let (file1, r) := start L cast ip f file in
    let (file2, rs) := starts L cast ip l' file1 in (file2, r :: rs)
  end.

(** ** The device configuration *)

(** struct device_config, device_config.h:14-19; a null pointer is [None] *)
Record config := { c_product : option string; c_device : option string; c_server : option string; c_port : nat }.

(** load_device_config, device_config.c:20-51, after device_config_init
    (device_config.c:73-76, tcp_tunnel_main.c:508) *)
Definition config_from_json (cast : Z -> nat) (j : json) : option config :=
  match str_of (get_item j "ProductId"), str_of (get_item j "DeviceId") with
  | Some p, Some d => Some {| c_product := Some p; c_device := Some d; c_server := str_of (get_item j "Server");
                              c_port := match num_of (get_item j "ServerPort") with Some z => cast z | None => 0 end |}
  | _, _ => None
  end.

Definition load_device_config (L : strtod_t) (cast : Z -> nat) (r : rres) (mem : bool) (file : option string) : res config :=
  match json_config_load L r mem file with
  | Got j => match config_from_json cast j with Some c => Got c | None => Failed end
  | Failed => Failed
  | Crashed => Crashed
  end.

Definition opt_member (k : string) (o : option string) : list (string * json) := match o with Some x => [(k, JStr x)] | None => [] end.

(** save_device_config, device_config.c:53-71 *)
Definition config_json (c : config) : json :=
  JObj (opt_member "ProductId" (c_product c) ++ opt_member "DeviceId" (c_device c) ++ opt_member "Server" (c_server c) ++
        (if Nat.eqb (c_port c) 0 then [] else [("ServerPort", JNum (Z.of_nat (c_port c)))])).

Definition save_device_config (mem : bool) (w : wres) (file : option string) (c : config) : option string * option bool :=
  json_config_save mem w file (config_json c).
