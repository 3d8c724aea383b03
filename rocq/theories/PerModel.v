(** * The files of the TCP tunnel device

    Models how apps/tcp_tunnel_device keeps the IAM state and the private key
    in files: /repo/src/modules/fs/posix/nm_fs_posix.c, apps/common/string_file.c,
    apps/common/private_key.c, apps/tcp_tunnel_device/src/tcp_tunnel_state.c and
    the parts of apps/tcp_tunnel_device/src/tcp_tunnel_main.c which use them.

    Simplifications:
    - a file is missing or is the bytes which would be read from it after a power
      loss at this moment; bytes which are written reach it in order;
    - the device configuration, the IAM configuration, the services file and the
      settings made from them are inputs of a start ([b_conf], [b_before],
      [b_middle], [b_after]); the device never writes them while it runs;
    - the device only stops between two operations or while it writes. *)
From Coq Require Import String Ascii List Bool Arith NArith ZArith.
From Verif Require Import JsonModel IamPolicyModel IamStateModel IamJsonModel.
Import ListNotations.
Open Scope string_scope.
Open Scope list_scope.
Open Scope nat_scope.

Fixpoint take (n : nat) (s : string) : string :=
  match n, s with
  | S n', String c s' => String c (take n' s')
  | _, _ => EmptyString
  end.

(** ** The file system *)

(** What happens to a write: the file cannot be opened; fwrite takes less than
    all bytes, [n] of them reach the file; fwrite takes all bytes and [n] of them
    have reached the file when fclose has flushed the buffer; the device loses
    power before the file is opened; it does so after the file was opened, when
    [n] bytes have reached it. *)
Inductive wres :=
| WNoOpen
| WCut (n : nat)
| WTaken (n : nat)
| WLossBefore
| WLoss (n : nat).

(** write_file, nm_fs_posix.c:119-138: the file afterwards, and whether NM_FS_OK
    is returned, [None] when power was lost.  fopen with "wb" (line 124) empties
    the file, the result of fclose (line 136) is not looked at. *)
Definition write_file (w : wres) (file : option string) (text : string) : option string * option bool :=
  match w with
  | WNoOpen => (file, Some false)
  | WCut n => (Some (take n text), Some false)
  | WTaken n => (Some (take n text), Some true)
  | WLossBefore => (file, None)
  | WLoss n => (Some (take n text), None)
  end.

(** What happens to a read: file_size succeeds, the buffer is allocated, the
    file can be opened, and the number of bytes fread gives. *)
Record rres := { r_size : bool; r_mem : bool; r_open : bool; r_len : nat }.

(** string_file_exists, string_file.c:8-11, with exists, nm_fs_posix.c:53-66 *)
Definition file_exists (file : option string) : bool := match file with Some _ => true | None => false end.

(** string_file_load, string_file.c:13-33, with size and read_file,
    nm_fs_posix.c:68-117.  [read] is unsigned, so the test at line 108 never
    finds an error: a read which ends early is a success with less text.  The
    caller sees a C string. *)
Definition string_file_load (r : rres) (file : option string) : option string :=
  match file with
  | None => None
  | Some t => if (r_size r && r_mem r && r_open r)%bool then Some (cstr (take (r_len r) t)) else None
  end.

(** ** The device *)

(** A running device: the IAM module and the private key given to
    nabto_device_set_private_key. *)
Record proc := { p_iam : iam; p_key : string }.

Record dev := { d_state : option string; d_key : option string; d_run : option proc }.

Definition set_state_file (f : option string) (d : dev) : dev :=
  {| d_state := f; d_key := d_key d; d_run := d_run d |}.
Definition set_key_file (f : option string) (d : dev) : dev :=
  {| d_state := d_state d; d_key := f; d_run := d_run d |}.
Definition set_run (p : option proc) (d : dev) : dev :=
  {| d_state := d_state d; d_key := d_key d; d_run := p |}.

(** What can be seen of the device: it started, a start ended with an error
    message, a request was answered, it printed that the state could not be saved
    (tcp_tunnel_main.c:797-799). *)
Inductive out := Started | Refused | Answered (code : N) | Complained.

(** The inputs of a start: everything before the state file is loaded succeeds,
    the IAM configuration, reading and writing the state file, loading the
    services, the new private key ([None]: it could not be made), writing and
    reading the key file, everything between the key and the IAM module, the
    answers the IAM module gets, everything after it. *)
Record boot_in := {
  b_before : bool; b_conf : config; b_rs : rres; b_ws : wres; b_middle : bool;
  b_new : option string; b_wk : wres; b_rk : rres; b_ext : ext; b_after : bool }.

(** nm_iam_state_set_friendly_name at tcp_tunnel_state.c:38 *)
Definition default_name (s : istate) : istate :=
  match st_friendly s with Some _ => s | None => with_friendly (Some "Tcp Tunnel") s end.

(** Outcome of a part of the start: continue, refuse, power lost. *)
Inductive phase (A : Type) := Go (a : A) | No | Lost.
Arguments Go {A}. Arguments No {A}. Arguments Lost {A}.

(** load_tcp_tunnel_state, tcp_tunnel_state.c:21-42: the state file afterwards and
    the loaded state.  The result of write_state_to_file is ignored (line 39). *)
Definition load_tunnel_state (L : strtod_t) (r : rres) (w : wres) (file : option string)
  : option string * phase istate :=
  match string_file_load r file with
  | None => (file, No)
  | Some t =>
      let '(s, ok) := state_load L 0 empty_state t in
      if negb ok then (file, No)
      else match st_friendly s with
           | Some _ => (file, Go s)
           | None =>
               let s' := default_name s in
               let '(f, res) := write_file w file (state_dump s') in
               (f, match res with None => Lost | Some _ => Go s' end)
           end
  end.

(** load_or_create_private_key, private_key.c:24-48, and create_private_key,
    10-22; [K] is what nabto_device_set_private_key makes of a text: the
    fingerprint of the key, [None] when it is refused. *)
Definition load_key (K : string -> option N) (new : option string) (w : wres) (r : rres) (file : option string)
  : option string * phase string :=
  let '(f, made) :=
    if file_exists file then (file, Some true)
    else match new with
         | None => (file, Some false)
         | Some k => write_file w file k
         end in
  match made with
  | None => (f, Lost)
  | Some false => (f, No)
  | Some true =>
      match string_file_load r f with
      | None => (f, No)
      | Some k => match K k with Some _ => (f, Go k) | None => (f, No) end
      end
  end.

(** The start: handle_main in tcp_tunnel_main.c:488-694 without --init, and
    initializeIam, 813-831.  The module is new, nm_iam_init. *)
Definition boot (L : strtod_t) (K : string -> option N) (b : boot_in) (d : dev) : dev * list out :=
  if negb (b_before b && file_exists (d_state d))%bool then (d, [Refused])
  else
    let '(fs, ph) := load_tunnel_state L (b_rs b) (b_ws b) (d_state d) in
    let d1 := set_state_file fs d in
    match ph with
    | No => (d1, [Refused])
    | Lost => (d1, [])
    | Go s =>
        if negb (b_middle b) then (d1, [Refused])
        else
          let '(fk, phk) := load_key K (b_new b) (b_wk b) (b_rk b) (d_key d1) in
          let d2 := set_key_file fk d1 in
          match phk with
          | No => (d2, [Refused])
          | Lost => (d2, [])
          | Go k =>
              let '(i1, ok1) := load_conf iam_init (b_conf b) in
              if negb ok1 then (d2, [Refused])
              else
                let '(i2, ok2) := load_state (b_ext b) i1 s in
                if negb (ok2 && b_after b)%bool then (d2, [Refused])
                else (set_run (Some {| p_iam := i2; p_key := k |}) d2, [Started])
          end
    end.

(** What reaches the IAM module while the device runs: requests, authorization
    questions and closed connections.  The application calls no other function
    of the module after the start. *)
Inductive event :=
| Request (c : conn) (r : request)
| Check (c : conn) (action : string) (m : attrs)
| Closed (ref : nat).

Definition op_of (e : event) : IamStateModel.op :=
  match e with
  | Request c r => OpCoap c r
  | Check c a m => OpCheck c a m
  | Closed r => OpClosed r
  end.

(** the status code of the answer; it is handed over before the callback is
    called, coap_handler/nm_iam_coap_handler.c:71-107 *)
Definition answer (E : env) (x : ext) (i : iam) (e : event) : list out :=
  match e with
  | Request c r => match coap E x c i r with Resp _ code => [Answered code] | CUndefined => [] end
  | _ => []
  end.

(** iam_user_changed, tcp_tunnel_main.c:791-801, with save_tcp_tunnel_state,
    tcp_tunnel_state.c:44-66.  A state which cannot be copied or printed for lack
    of memory is [WNoOpen]: the file is not touched and a message is printed. *)
Definition user_changed (w : wres) (i : iam) (d : dev) : dev * list out :=
  let '(f, res) := write_file w (d_state d) (state_dump (i_state i)) in
  let d1 := set_state_file f d in
  match res with
  | None => (set_run None d1, [])
  | Some true => (d1, [])
  | Some false => (d1, [Complained])
  end.

Inductive op :=
| Boot (b : boot_in)
| Serve (x : ext) (e : event) (w : wres)
| Stop.

(** [None]: undefined behaviour in the IAM module.  Operations which do not fit
    (starting a running device, events of a stopped one) do nothing. *)
Definition step (L : strtod_t) (K : string -> option N) (E : env) (d : dev) (o : op) : option (dev * list out) :=
  match o with
  | Boot b => match d_run d with Some _ => Some (d, []) | None => Some (boot L K b d) end
  | Stop => Some (set_run None d, [])
  | Serve x e w =>
      match d_run d with
      | None => Some (d, [])
      | Some p =>
          match IamStateModel.step E (p_iam p) (x, op_of e) with
          | None => None
          | Some i' =>
              let a := answer E x (p_iam p) e in
              let d1 := set_run (Some {| p_iam := i'; p_key := p_key p |}) d in
              if Nat.ltb (i_callbacks (p_iam p)) (i_callbacks i')
              then let '(d2, o2) := user_changed w i' d1 in Some (d2, a ++ o2)
              else Some (d1, a)
          end
      end
  end.

Fixpoint run (L : strtod_t) (K : string -> option N) (E : env) (d : dev) (l : list op) : option (dev * list out) :=
  match l with
  | [] => Some (d, [])
  | o :: l' =>
      match step L K E d o with
      | None => None
      | Some (d1, o1) =>
          match run L K E d1 l' with
          | None => None
          | Some (d2, o2) => Some (d2, o1 ++ o2)
          end
      end
  end.
