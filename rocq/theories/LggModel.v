(** * The log of a device

    Models /repo/src/api/nabto_device_logging.c:9-135, the adapters of
    /repo/src/platform/np_logging.c:3-84 and the beginning of nabto_device_new,
    /repo/src/api/nabto_device.c:73-89.  Texts are lists of bytes.

    Simplifications: the text a format and its arguments make is an input without zero
    bytes and vsnprintf does not fail; callbacks and their data are numbers; the module of
    a message, which logging_log ignores, is left out; the callback writing to standard
    output is available. *)
From Coq Require Import String List Bool NArith Arith.
Import ListNotations.

Inductive severity := Error | Warn | Info | Trace.
(** the severities as bits, /repo/src/platform/np_logging_defines.h:38-41 *)
Definition bit (s : severity) : N := match s with Error => 2 | Warn => 4 | Info => 8 | Trace => 16 end%N.
(** the levels, np_logging_defines.h:48-51 *)
Definition level_error : N := bit Error.
Definition level_warn : N := N.lor (bit Warn) level_error.
Definition level_info : N := N.lor (bit Info) level_warn.
Definition level_trace : N := N.lor (bit Trace) level_info.

(** default_log_callback, the callback writing to standard output, one of the application *)
Inductive callback := Default | StdOut | App (n : nat).
(** NabtoDeviceLogMessage_, /repo/include/nabto/nabto_device.h:2021-2026 *)
Record message := { m_severity : severity; m_file : list N; m_line : N; m_text : list N }.

(** the globals: np_log.log is logging_log (np_logging.c:8, nabto_device_logging.c:22-25),
    logCallback, userData and level_ (nabto_device_logging.c:14-16) *)
Record globals := { g_on : bool; g_cb : callback; g_data : nat; g_level : N }.
Definition start : globals := {| g_on := false; g_cb := Default; g_data := 0; g_level := level_info |}.

(** vsnprintf into a buffer; [None] is a write outside of it *)
Definition vsnprintf (buf : list N) (n : nat) (text : list N) : option (list N) :=
  let k := Nat.min (length text) (n - 1) in
  if Nat.ltb k (length buf) then Some (firstn k text ++ 0%N :: skipn (S k) buf) else None.
(** an assignment to a place of a buffer *)
Definition put (buf : list N) (i : nat) (b : N) : option (list N) :=
  if Nat.ltb i (length buf) then Some (firstn i buf ++ b :: skipn (S i) buf) else None.
(** the string at the beginning of a buffer; [None] if it does not end *)
Fixpoint cstr (buf : list N) : option (list N) :=
  match buf with
  | [] => None
  | b :: r => if N.eqb b 0 then Some [] else match cstr r with Some s => Some (b :: s) | None => None end
  end.

(** what a call to the log does: nothing, a callback, or memory used wrongly *)
Inductive effect := Nothing | Called (c : callback) (data : nat) (m : message) | Broken.

(** logging_log, nabto_device_logging.c:32-67; [mem] is the 256 bytes of log before *)
Definition logging_log (g : globals) (mem : list N) (s : severity) (file : list N) (line : N) (text : list N) : effect :=
  if N.eqb (N.land (g_level g) (bit s)) 0 then Nothing
  else match vsnprintf mem (256 - 1) text with
       | None => Broken
       | Some b1 => match put b1 (256 - 1) 0%N with
                    | None => Broken
                    | Some b2 => match cstr b2 with
                                 | None => Broken
                                 | Some t => match g_cb g with
                                             | Default => Nothing
                                             | c => Called c (g_data g) {| m_severity := s; m_file := file; m_line := line; m_text := t |}
                                             end
                                 end
                    end
       end.

(** np_log.log through an adapter, np_logging.c:3-8 and 40-84 *)
Definition log (g : globals) (mem : list N) (s : severity) (file : list N) (line : N) (text : list N) : effect :=
  if g_on g then logging_log g mem s file line text else Nothing.

(** nabto_device_logging_set_callback, nabto_device_logging.c:69-77 *)
Definition set_callback (g : globals) (c : option callback) (data : nat) : globals :=
  {| g_on := g_on g; g_cb := match c with Some x => x | None => Default end; g_data := data; g_level := g_level g |}.

(** nabto_device_set_log_level, nabto_device_logging.c:106-124: the globals, and whether
    the result is NABTO_DEVICE_EC_OK *)
Definition set_level (g : globals) (name : string) : globals * bool :=
  let to l := ({| g_on := g_on g; g_cb := g_cb g; g_data := g_data g; g_level := l |}, true) in
  if String.eqb name "error" then to level_error
  else if String.eqb name "warn" then to level_warn
  else if String.eqb name "info" then to level_info
  else if String.eqb name "trace" then to level_trace
  else (g, false).

(** what becomes of the first lines of nabto_device_new *)
Inductive creation := NoMemory | NoMutex | Created.
(** nabto_device_new up to nabto_device_logging_init, nabto_device.c:73-89 *)
Definition device_new (g : globals) (mem : list N) (c : creation) (file : list N) (line : N) (text : list N) : globals * effect :=
  match c with
  | Created => ({| g_on := true; g_cb := g_cb g; g_data := g_data g; g_level := g_level g |}, Nothing)
  | _ => (g, log g mem Error file line text)
  end.

(** what an application does with the log; the first number is the device given *)
Inductive op := New (c : creation) | SetLevel (d : nat) (name : string) | SetCallback (d : nat) (c : option nat) (data : nat) | SetStdOut (d : nat).

(** nabto_device_new, nabto_device_set_log_level, nabto_device_set_log_callback and
    nabto_device_set_log_std_out_callback (nabto_device_logging.c:99-135) *)
Definition step (g : globals) (o : op) : globals :=
  match o with
  | New c => fst (device_new g (repeat 0%N 256) c [] 0 [])
  | SetLevel _ name => fst (set_level g name)
  | SetCallback _ c data => set_callback g (option_map App c) data
  | SetStdOut _ => set_callback g (Some StdOut) 0
  end.
Definition run (l : list op) : globals := fold_left step l start.
