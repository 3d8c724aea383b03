(** * Specification of what the IAM module tells clients (C95) *)
From Coq Require Import String Ascii List Bool Arith NArith.
From Verif Require Import IamPolicyModel IamStateModel IrdModel.
Import ListNotations.
Open Scope list_scope.
Open Scope N_scope.

(** ** A decoder of CBOR (RFC 8949), for the types which occur *)

Inductive value :=
  | VUint (n : N)
  | VText (s : string)
  | VBool (b : bool)
  | VArray (l : list value)
  | VMap (l : list (string * value)).

(** A number in big endian. *)
Fixpoint number (k : nat) (acc : N) (b : list N) : option (N * list N) :=
  match k, b with
  | O, _ => Some (acc, b)
  | S k', x :: b' => number k' (acc * 256 + x) b'
  | S _, [] => None
  end.

(** The argument in the low five bits of the first byte or after it. *)
Definition argument (x : N) (b : list N) : option (N * list N) :=
  let a := x mod 32 in
  if a <? 24 then Some (a, b)
  else if a =? 24 then number 1 0 b
  else if a =? 25 then number 2 0 b
  else if a =? 26 then number 4 0 b
  else if a =? 27 then number 8 0 b
  else None.

Fixpoint text (k : nat) (b : list N) : option (string * list N) :=
  match k, b with
  | O, _ => Some (EmptyString, b)
  | S k', x :: b' => match text k' b' with Some (s, r) => Some (String (ascii_of_N x) s, r) | None => None end
  | S _, [] => None
  end.

Fixpoint parse (f : nat) (b : list N) : option (value * list N) :=
  match f, b with
  | S f', x :: b' =>
      if x =? 159 then match parse_items f' b' with Some (l, r) => Some (VArray l, r) | None => None end
      else if x =? 191 then match parse_pairs f' b' with Some (l, r) => Some (VMap l, r) | None => None end
      else if x =? 244 then Some (VBool false, b')
      else if x =? 245 then Some (VBool true, b')
      else if x / 32 =? 0 then match argument x b' with Some (n, r) => Some (VUint n, r) | None => None end
      else if x / 32 =? 3 then
        match argument x b' with
        | Some (n, r) => match text (N.to_nat n) r with Some (s, r') => Some (VText s, r') | None => None end
        | None => None
        end
      else None
  | _, _ => None
  end
with parse_items (f : nat) (b : list N) : option (list value * list N) :=
  match f, b with
  | S f', x :: b' =>
      if x =? 255 then Some ([], b')
      else match parse f' b with
           | Some (v, r) => match parse_items f' r with Some (l, r') => Some (v :: l, r') | None => None end
           | None => None
           end
  | _, _ => None
  end
with parse_pairs (f : nat) (b : list N) : option (list (string * value) * list N) :=
  match f, b with
  | S f', x :: b' =>
      if x =? 255 then Some ([], b')
      else match parse f' b with
           | Some (VText k, r) =>
               match parse f' r with
               | Some (v, r') => match parse_pairs f' r' with Some (l, r'') => Some ((k, v) :: l, r'') | None => None end
               | None => None
               end
           | _ => None
           end
  | _, _ => None
  end.

(** The whole payload is one value. *)
Definition decode (b : list N) : option value :=
  match parse (List.length b) b with Some (v, []) => Some v | _ => None end.

(** ** What has to be told *)

(** A fingerprint of a user. *)
Definition FpMap (f : fprint) (v : value) : Prop :=
  v = VMap (("Fingerprint"%string, VText (fp_val f)) :: match fp_name f with Some s => [("Name"%string, VText s)] | None => [] end).

(** The entries of the map which describes a user.  There is none for the
    password. *)
Inductive UserEntry (u : user) : string -> value -> Prop :=
  | UE_name : UserEntry u "Username" (VText (u_name u))
  | UE_display s : u_display u = Some s -> UserEntry u "DisplayName" (VText s)
  | UE_role s : u_role u = Some s -> UserEntry u "Role" (VText s)
  | UE_fps l : Forall2 FpMap (u_fps u) l -> UserEntry u "Fingerprints" (VArray l)
  | UE_fp l f : u_fps u = l ++ [f] -> UserEntry u "Fingerprint" (VText (fp_val f))
  | UE_sct s : u_sct u = Some s -> UserEntry u "Sct" (VText s)
  | UE_token t : u_fcm_token u = Some t -> u_fcm_project u = None -> UserEntry u "Fcm" (VMap [("Token"%string, VText t)])
  | UE_project p : u_fcm_token u = None -> u_fcm_project u = Some p -> UserEntry u "Fcm" (VMap [("ProjectId"%string, VText p)])
  | UE_fcm t p : u_fcm_token u = Some t -> u_fcm_project u = Some p ->
      UserEntry u "Fcm" (VMap [("Token"%string, VText t); ("ProjectId"%string, VText p)])
  | UE_cats : UserEntry u "NotificationCategories" (VArray (map VText (u_cats u)))
  | UE_oauth s : u_oauth u = Some s -> UserEntry u "OauthSubject" (VText s).

(** The entries of the map of the settings. *)
Inductive SettingsEntry (s : istate) : string -> value -> Prop :=
  | SE_open : SettingsEntry s "PasswordOpenPairing" (VBool (st_pw_open s))
  | SE_invite : SettingsEntry s "PasswordInvitePairing" (VBool (st_pw_invite s))
  | SE_local : SettingsEntry s "LocalOpenPairing" (VBool (st_local_open s))
  | SE_sct t : st_pw_open_sct s = Some t -> SettingsEntry s "PasswordOpenSct" (VText t)
  | SE_pw p : st_pw_open_password s = Some p -> SettingsEntry s "PasswordOpenPassword" (VText p).

(** The modes of pairing which are possible on a connection. *)
Definition may (E : env) (i : iam) (c : conn) (a : string) : Prop := check_access E i c a [] = Some true.
Inductive Mode (E : env) (i : iam) (c : conn) : string -> Prop :=
  | M_open r p : may E i c "IAM:PairingPasswordOpen" -> st_pw_open (i_state i) = true ->
      st_pw_open_password (i_state i) = Some p -> st_open_role (i_state i) = Some r -> Mode E i c "PasswordOpen"
  | M_local r : cn_local c = true -> st_local_open (i_state i) = true -> may E i c "IAM:PairingLocalOpen" ->
      st_open_role (i_state i) = Some r -> Mode E i c "LocalOpen"
  | M_invite : may E i c "IAM:PairingPasswordInvite" -> st_pw_invite (i_state i) = true -> Mode E i c "PasswordInvite"
  | M_initial n u : cn_local c = true -> may E i c "IAM:PairingLocalInitial" -> st_local_initial (i_state i) = true ->
      st_initial_user (i_state i) = Some n -> find_user (users i) (Some n) = Some u ->
      u_fps u = [] -> u_oauth u = None -> Mode E i c "LocalInitial".

Inductive PairingEntry (E : env) (d : info) (i : iam) (c : conn) : string -> value -> Prop :=
  | PE_modes l : NoDup l -> (forall s, In s l <-> Mode E i c s) -> PairingEntry E d i c "Modes" (VArray (map VText l))
  | PE_version s : n_version d = Some s -> PairingEntry E d i c "NabtoVersion" (VText s)
  | PE_app_version s : n_app_version d = Some s -> PairingEntry E d i c "AppVersion" (VText s)
  | PE_app_name s : n_app_name d = Some s -> PairingEntry E d i c "AppName" (VText s)
  | PE_product s : n_product d = Some s -> PairingEntry E d i c "ProductId" (VText s)
  | PE_device s : n_device d = Some s -> PairingEntry E d i c "DeviceId" (VText s)
  | PE_friendly s : st_friendly (i_state i) = Some s -> PairingEntry E d i c "FriendlyName" (VText s).

(** The payload is a map with each of these entries once, and no other.
    Modes may be told in any order. *)
Definition MapOf (P : string -> value -> Prop) (b : list N) : Prop :=
  exists l, decode b = Some (VMap l) /\ NoDup (map fst l) /\
    (forall k v, In (k, v) l -> P k v) /\ (forall k v, P k v -> In k (map fst l)).

(** The action a request needs, and the attributes it is checked with. *)
Definition action (r : request) : option (string * attrs) :=
  match r with
  | GetMe => None
  | GetUser n => Some ("IAM:GetUser", [("IAM:Username", n)])
  | ListUsers => Some ("IAM:ListUsers", [])
  | ListRoles => Some ("IAM:ListRoles", [])
  | GetSettings => Some ("IAM:GetSettings", [])
  | GetPairing => Some ("IAM:GetPairing", [])
  | GetCategories => Some ("IAM:ListNotificationCategories", [])
  end%string.

(** The same state with other passwords. *)
Definition other_passwords (f : user -> option string) (i : iam) : iam :=
  set_users (map (fun u => set_u_password (f u) u) (users i)) i.
Definition other_open_password (p : string) (i : iam) : iam :=
  let s := i_state i in
  set_state {| st_pw_open_password := match st_pw_open_password s with Some _ => Some p | None => None end;
     st_pw_open_sct := st_pw_open_sct s;
     st_pw_open := st_pw_open s; st_local_open := st_local_open s; st_pw_invite := st_pw_invite s;
     st_local_initial := st_local_initial s; st_open_role := st_open_role s;
     st_initial_user := st_initial_user s; st_friendly := st_friendly s; st_users := st_users s |} i.

(** ** Test notifications *)

Definition is_answer (x : fout) : bool := match x with Denied _ | Replied _ => true | _ => false end.
Definition is_freed (x : fout) : bool := match x with Freed => true | _ => false end.
Definition fcount (p : fout -> bool) (l : list fout) : nat := List.length (filter p l).

(** A JSON string up to its closing quote; None: an escape or a control character. *)
Fixpoint json_string (s : string) : option (string * string) :=
  match s with
  | EmptyString => None
  | String c s' =>
      if Ascii.eqb c """" then Some (EmptyString, s')
      else if Ascii.eqb c "\" || (N_of_ascii c <? 32) then None
      else match json_string s' with Some (x, r) => Some (String c x, r) | None => None end
  end.

Fixpoint skip (p s : string) : option string :=
  match p, s with
  | EmptyString, _ => Some s
  | String a p', String b s' => if Ascii.eqb a b then skip p' s' else None
  | String _ _, EmptyString => None
  end.

(** The message of a test notification is the fixed text with this token. *)
Definition MessageFor (t p : string) : Prop :=
  exists r, skip noti1 p = Some r /\ json_string r = Some (t, " } }"%string).

(** A token without quotes, backslashes and control characters. *)
Definition plain (t : string) : Prop :=
  Forall (fun c => c <> """"%char /\ c <> "\"%char /\ 32 <= N_of_ascii c) (list_ascii_of_string t).

(** The requests which the handler took: one while it has none. *)
Fixpoint taken (E : env) (s : fstate) (l : list fop) : nat :=
  match l with
  | [] => O
  | o :: l' => ((match s, o with FIdle, FRequest _ _ _ _ => 1 | _, _ => 0 end) + taken E (fst (fstep E s o)) l')%nat
  end.
Definition waiting (s : fstate) : nat := match s with FWaiting => 1%nat | _ => O end.

(** Notifications are delivered to the basestation and there is memory for the
    response. *)
Definition fcm_fine (o : fop) : Prop := match o with FResolved r al _ => r <> FFailed /\ al = true | _ => True end.
Definition ins_fine (o : fop) : Prop := match o with FRequest _ _ _ m => f_ins m = true | _ => True end.
Definition users_alive (E : env) (o : fop) : Prop :=
  match o with FRequest i c _ _ => resolve_user i c <> None | _ => True end.
