(** * Vocabulary for the statements about the files of the TCP tunnel device *)
From Coq Require Import String Ascii List Bool Arith NArith ZArith.
From Verif Require Import JsonModel IamPolicyModel IamStateModel IamStateSpec IamJsonModel IamJsonSpec PerModel.
Import ListNotations.
Open Scope string_scope.
Open Scope list_scope.
Open Scope nat_scope.

(** ** Texts *)

(** [t] starts with [t']. *)
Definition begins (t' t : string) : Prop := exists u, t = String.append t' u.

(** The C library never uses more bytes of a number than it is given. *)
Definition strtod_sane (L : strtod_t) : Prop := forall s z k, L s = Some (z, k) -> k <= String.length s.

(** A text which holds a private key holds the same one with more text behind. *)
Definition keys_sane (K : string -> option N) : Prop :=
  forall t t' f, begins t t' -> K t = Some f -> K t' = Some f.

(** ** Inputs *)

Definition cb_c_string (v : cborstr) : Prop := match v with CbStr s => c_string s | _ => True end.
Definition pl_holds {A} (P : A -> Prop) (p : payload A) : Prop := match p with PlOk a => P a | _ => True end.

(** The strings of a request are C strings and the categories are a set. *)
Definition c_request (r : request) : Prop :=
  match r with
  | RqAddFp _ f p => c_string f /\ pl_holds cb_c_string p
  | RqSetRole _ p | RqSetPassword _ p | RqSetFp _ p | RqSetDisplay _ p | RqSetSct _ p | RqSetOauth _ p
  | RqPairLocalInitial p | RqPairPasswordInvite p | RqSetDeviceInfo _ p => pl_holds cb_c_string p
  | RqSetFcm _ p => pl_holds (fun q => match q with Some (a, b) => cb_c_string a /\ cb_c_string b | None => True end) p
  | RqSetCats _ p => pl_holds (fun q => match q with Some l => NoDup l /\ (forall x, In x l -> c_string x) | None => True end) p
  | RqPairLocalOpen p => pl_holds (fun q => cb_c_string (snd q)) p
  | RqPairPasswordOpen p => pl_holds (fun q => cb_c_string (snd q)) p
  | _ => True
  end.
Definition c_op (o : op) : Prop :=
  match o with
  | Serve x (Request c r) _ => opt_c_string (x_sct x) /\ opt_c_string (cn_fp c) /\ c_request r
  | _ => True
  end.
Definition c_ops (l : list op) : Prop := Forall c_op l.

(** ** States *)

(** The state the device writes or would write with the operation [o] at [d]. *)
Definition serves (E : env) (d : dev) (o : op) (s : istate) : Prop :=
  exists p x e w i, d_run d = Some p /\ o = Serve x e w /\
    IamStateModel.step E (p_iam p) (x, op_of e) = Some i /\ s = i_state i.

(** The state a text stands for. *)
Definition stands_for (L : strtod_t) (t : string) (s : istate) : Prop :=
  state_load L 0 empty_state t = (s, true).

(** The states of a history: what the state file said at its beginning, and what
    the IAM module held after each event. *)
Definition had (L : strtod_t) (K : string -> option N) (E : env) (d0 : dev) (ops : list op) (s : istate) : Prop :=
  (exists t, d_state d0 = Some t /\ stands_for L t s) \/
  (exists pre o post d os, ops = pre ++ o :: post /\ run L K E d0 pre = Some (d, os) /\ serves E d o s).

(** The same state, except that a device with no name is called "Tcp Tunnel". *)
Definition named (s : istate) : istate :=
  {| st_pw_open_password := st_pw_open_password s; st_pw_open_sct := st_pw_open_sct s;
     st_pw_open := st_pw_open s; st_local_open := st_local_open s; st_pw_invite := st_pw_invite s;
     st_local_initial := st_local_initial s; st_open_role := st_open_role s;
     st_initial_user := st_initial_user s;
     st_friendly := match st_friendly s with Some n => Some n | None => Some "Tcp Tunnel" end;
     st_users := st_users s |}.

(** ** Good input and output *)

(** Everything of the text reached the file. *)
Definition complete (w : wres) (text : string) : Prop := exists n, w = WTaken n /\ String.length text <= n.
(** Everything of the file is read. *)
Definition reads_all (r : rres) (file : option string) : Prop :=
  r_size r = true /\ r_mem r = true /\ r_open r = true /\
  forall t, file = Some t -> String.length t <= r_len r.

(** The operations which do not touch a file: the device is stopped, or events
    which leave the state alone. *)
Definition starts_again (o : op) : Prop := match o with Boot _ | Stop => True | _ => False end.

(** The excluded events: see [reload_safe]. *)
Definition safe_op (d : dev) (o : op) : Prop :=
  match o with
  | Serve x e _ => forall p, d_run d = Some p -> reload_safe (p_iam p) (x, op_of e)
  | _ => True
  end.
Fixpoint safe_ops (L : strtod_t) (K : string -> option N) (E : env) (d : dev) (l : list op) : Prop :=
  match l with
  | [] => True
  | o :: l' => safe_op d o /\ forall d' os, step L K E d o = Some (d', os) -> safe_ops L K E d' l'
  end.

(** A start at which nothing around the device goes wrong: memory, the files and
    the configuration; the registration of tokens succeeds. *)
Definition good_start (b : boot_in) (d : dev) : Prop :=
  b_before b = true /\ b_middle b = true /\ b_after b = true /\ ext_ok (b_ext b) /\
  reads_all (b_rs b) (d_state d) /\ reads_all (b_rk b) (d_key d) /\
  snd (load_conf iam_init (b_conf b)) = true.
