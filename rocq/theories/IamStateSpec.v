(** Specification vocabulary for the IAM state properties. It uses the data types
    of the model and [attr_get], [check_access], [step] where a property is about
    those; no helper of the state transitions is used. *)
From Coq Require Import String Ascii List Bool Arith NArith.
From Verif Require Import IamPolicyModel IamPolicySpec IamStateModel.
Import ListNotations.
Open Scope string_scope.

(** ** Histories *)

(** [P] holds of every operation of the history at the moment it is performed. *)
Fixpoint along (E : env) (P : iam -> ext * op -> Prop) (i : iam) (l : list (ext * op)) : Prop :=
  match l with
  | [] => True
  | o :: l' => P i o /\ forall i', step E i o = Some i' -> along E P i' l'
  end.

(** ** Identity *)

(** [a] is the first element of [l] with property [P]. *)
Definition first_such {A} (P : A -> Prop) (l : list A) (a : A) : Prop :=
  exists pre post, l = (pre ++ a :: post)%list /\ P a /\ Forall (fun x => ~ P x) pre.

Definition fp_values (u : user) : list string := map fp_val (u_fps u).
Definition owns (f : string) (u : user) : Prop := In f (fp_values u).

(** Nobody is known by the client's fingerprint / by the password login. *)
Definition no_fp_user (i : iam) (c : conn) : Prop :=
  forall f, cn_fp c = Some f -> Forall (fun u => ~ owns f u) (users i).
Definition no_pw_user (i : iam) (c : conn) : Prop :=
  forall n, cn_pwauth c = true -> cn_pwname c = Some n -> Forall (fun u => u_name u <> n) (users i).

Inductive identity (i : iam) (c : conn) : option user -> Prop :=
| id_fingerprint : forall f u, cn_fp c = Some f -> first_such (owns f) (users i) u -> identity i c (Some u)
| id_password : forall n u, no_fp_user i c -> cn_pwauth c = true -> cn_pwname c = Some n ->
    first_such (fun u => u_name u = n) (users i) u -> identity i c (Some u)
| id_token : forall u, no_fp_user i c -> no_pw_user i c ->
    first_such (fun a => fst a = cn_ref c) (i_auth i) (cn_ref c, u_id u) -> In u (users i) -> identity i c (Some u)
| id_nobody : no_fp_user i c -> no_pw_user i c -> (forall x, ~ In (cn_ref c, x) (i_auth i)) -> identity i c None.

Definition role_name (i : iam) (who : option user) : option string :=
  match who with Some u => u_role u | None => conf_unpaired (i_conf i) end.

(** What the request attributes of a connection look like to the policies. *)
Definition sees (c : conn) (who : option user) (m m' : attrs) : Prop :=
  forall k, attr_get k m' =
    if string_dec k "Connection:IsLocal" then Some (if cn_local c then "true" else "false")
    else if string_dec k "Connection:Username" then match who with Some u => Some (u_name u) | None => None end
    else attr_get k m.

Definition no_reserved (m : attrs) : Prop :=
  attr_get "Connection:IsLocal" m = None /\ attr_get "Connection:Username" m = None.

(** ** Users *)

Definition alphabet : list ascii := list_ascii_of_string "abcdefghijklmnopqrstuvwxyz0123456789_.-".
Definition valid_name (s : string) : Prop :=
  s <> "" /\ Forall (fun c => In c alphabet) (list_ascii_of_string s).

Definition names_ok (us : list user) : Prop :=
  Forall (fun u => valid_name (u_name u)) us /\ NoDup (map u_name us).

(** Two different users of the list own the same fingerprint. *)
Definition shared_fp (us : list user) : Prop :=
  exists pre u mid v post f, us = (pre ++ u :: mid ++ v :: post)%list /\ owns f u /\ owns f v.

(** [f] is not the fingerprint of any user. *)
Definition fp_unused (i : iam) (f : string) : Prop := Forall (fun u => ~ owns f u) (users i).

(** The exceptions of C08: entry points that do not check. *)
Definition fp_checked (i : iam) (o : ext * op) : Prop :=
  match snd o with
  | OpApi (ApSetFp _ (Some f)) => fp_unused i f
  | OpApi (ApAddFp _ (Some f) _) => fp_unused i f
  | OpCoap c (RqPairLocalInitial _) => forall f, cn_fp c = Some f -> fp_unused i f
  | OpLoadState s => ~ shared_fp (st_users s)
  | _ => True
  end.

(** Loaded states have valid, distinct usernames. *)
Definition loads_ok (i : iam) (o : ext * op) : Prop :=
  match snd o with OpLoadState s => names_ok (st_users s) | _ => True end.

Definition user_count (i : iam) : N := N.of_nat (length (users i)).

(** C09: open pairing happens only while there is room; the limit is not changed. *)
Definition room_to_pair (i : iam) (o : ext * op) : Prop :=
  match snd o with
  | OpCoap _ (RqPairLocalOpen _) | OpCoap _ (RqPairPasswordOpen _) => (user_count i < l_max_users (i_lim i))%N
  | OpSetLimits l => l_max_users l = l_max_users (i_lim i)
  | _ => True
  end.
Definition keeps_limit (i : iam) (o : ext * op) : Prop :=
  match snd o with
  | OpSetLimits l => l_max_users l = l_max_users (i_lim i)
  | _ => True
  end.

(** ** Frame conditions *)

Inductive field := FName | FDisplay | FFps | FPassword | FRole | FSct | FFcmToken | FFcmProject | FCats | FOauth.
Inductive fval := VStr (s : option string) | VFps (l : list (string * option string)) | VSet (l : list string).
Definition get (f : field) (u : user) : fval :=
  match f with
  | FName => VStr (Some (u_name u))
  | FDisplay => VStr (u_display u)
  | FFps => VFps (map (fun f => (fp_val f, fp_name f)) (u_fps u))
  | FPassword => VStr (u_password u)
  | FRole => VStr (u_role u)
  | FSct => VStr (u_sct u)
  | FFcmToken => VStr (u_fcm_token u)
  | FFcmProject => VStr (u_fcm_project u)
  | FCats => VSet (u_cats u)
  | FOauth => VStr (u_oauth u)
  end.

(** Pairing settings and everything else that is not a user. *)
Definition settings (s : istate) :=
  (st_pw_open_password s, st_pw_open_sct s, (st_pw_open s, st_local_open s, st_pw_invite s, st_local_initial s),
   st_open_role s, st_initial_user s, st_friendly s).

(** Exactly the first user named [n] changed, only in the fields [fs], by [R]. *)
Definition one_user_changed (n : string) (fs : list field) (R : user -> user -> Prop) (s s' : istate) : Prop :=
  settings s' = settings s /\
  exists pre u u' post,
    st_users s = (pre ++ u :: post)%list /\ st_users s' = (pre ++ u' :: post)%list /\
    u_name u = n /\ Forall (fun v => u_name v <> n) pre /\
    u_id u' = u_id u /\ R u u' /\ (forall g, ~ In g fs -> get g u' = get g u).

Definition becomes (f : field) (v : fval) (u u' : user) : Prop := get f u' = v.

(** What each successful call must do to the persistent state. *)
Definition fps (u : user) : list (string * option string) := map (fun f => (fp_val f, fp_name f)) (u_fps u).
Definition api_effect (a : api) (s s' : istate) : Prop :=
  match a with
  | ApCreateUser n => exists name u, n = Some name /\ settings s' = settings s /\
      st_users s' = (st_users s ++ [u])%list /\ Forall (fun v => u_name v <> name) (st_users s) /\
      u_name u = name /\ u_fps u = [] /\ u_role u = None /\ u_password u = None /\ u_display u = None /\ u_oauth u = None
      /\ u_cats u = [] /\ u_fcm_token u = None /\ u_fcm_project u = None
  | ApSetFp n v => exists name f, n = Some name /\ v = Some f /\
      one_user_changed name [FFps]
        (fun u u' => match fps u with
                     | [] => fps u' = [(f, None)]
                     | (_, nm) :: l => fps u' = (f, nm) :: l
                     end) s s'
  | ApAddFp n v fn => exists name f, n = Some name /\ v = Some f /\
      one_user_changed name [FFps] (fun u u' => fps u' = (fps u ++ [(f, fn)])%list) s s'
  | ApRemoveFp n v => exists name f, n = Some name /\ v = Some f /\
      one_user_changed name [FFps]
        (fun u u' => exists l1 nm l2, fps u = (l1 ++ (f, nm) :: l2)%list /\ fps u' = (l1 ++ l2)%list /\
                                      ~ In f (map fst l1)) s s'
  | ApSetSct n v => exists name, n = Some name /\ one_user_changed name [FSct] (becomes FSct (VStr v)) s s'
  | ApSetPassword n v => exists name, n = Some name /\ one_user_changed name [FPassword] (becomes FPassword (VStr v)) s s'
  | ApSetRole n v => exists name, n = Some name /\ one_user_changed name [FRole] (becomes FRole (VStr v)) s s'
  | ApSetDisplay n v => exists name, n = Some name /\ one_user_changed name [FDisplay] (becomes FDisplay (VStr v)) s s'
  | ApSetFcmToken n v => exists name, n = Some name /\ one_user_changed name [FFcmToken] (becomes FFcmToken (VStr v)) s s'
  | ApSetFcmProject n v => exists name, n = Some name /\ one_user_changed name [FFcmProject] (becomes FFcmProject (VStr v)) s s'
  | ApSetCats n v => exists name, n = Some name /\ one_user_changed name [FCats] (becomes FCats (VSet v)) s s'
  | ApSetOauth n v => exists name, n = Some name /\ one_user_changed name [FOauth] (becomes FOauth (VStr v)) s s'
  | ApDeleteUser n => exists name pre u post, n = Some name /\ settings s' = settings s /\
      st_users s = (pre ++ u :: post)%list /\ st_users s' = (pre ++ post)%list /\ u_name u = name /\
      Forall (fun v => u_name v <> name) pre
  | ApAuthorize _ _ => s' = s
  | ApSetMode m b => st_users s' = st_users s /\ st_pw_open_password s' = st_pw_open_password s /\
      st_pw_open_sct s' = st_pw_open_sct s /\ st_open_role s' = st_open_role s /\
      st_initial_user s' = st_initial_user s /\ st_friendly s' = st_friendly s /\
      st_pw_open s' = (match m with PmPasswordOpen => b | _ => st_pw_open s end) /\
      st_local_open s' = (match m with PmLocalOpen => b | _ => st_local_open s end) /\
      st_pw_invite s' = (match m with PmPasswordInvite => b | _ => st_pw_invite s end) /\
      st_local_initial s' = (match m with PmLocalInitial => b | _ => st_local_initial s end)
  end.

(** The role named by nm_iam_set_user_role exists. *)
Definition api_validated (i : iam) (a : api) : Prop :=
  let l := i_lim i in
  let upto hi s := match s with Some s => (strlen s <= hi)%N | None => False end in
  match a with
  | ApCreateUser (Some n) => valid_name n /\ (strlen n <= l_username l)%N /\ (user_count i < l_max_users l)%N
  | ApSetFp _ (Some f) => strlen f = 64%N
  | ApAddFp _ (Some f) n => strlen f = 64%N /\ upto (l_display l) n
  | ApSetSct _ v => upto (l_sct l) v
  | ApSetPassword _ v => upto (l_pw_max l) v /\ match v with Some s => (l_pw_min l <= strlen s)%N | None => False end
  | ApSetRole _ v => exists r, In r (conf_roles (i_conf i)) /\ v = Some (r_id r)
  | ApSetDisplay _ v => upto (l_display l) v
  | ApSetFcmToken _ v => upto (l_fcm_token l) v
  | ApSetFcmProject _ v => upto (l_fcm_project l) v
  | ApSetCats _ v => incl v (i_cats i)
  | ApSetOauth _ v => upto (l_oauth l) v
  | _ => True
  end.

(** ** Reloading *)

(** A module that was just created, with the same limits and categories. *)
Definition restarted (i : iam) : iam := set_categories (i_cats i) (set_limits (i_lim i) iam_init).
(** External calls during the reload succeed. *)
Definition ext_ok (x : ext) : Prop := (forall t, x_add x t = true) /\ x_mdns x = true.
(** Same user up to the allocation. *)
Definition same_user (u v : user) : Prop := forall f, get f u = get f v.
Definition same_state (s t : istate) : Prop :=
  settings s = settings t /\ Forall2 same_user (st_users s) (st_users t).

(** The excluded operations of C12: fingerprints that do not have the length the
    loader demands, pairing more users than allowed, generated tokens longer than
    the limit, and changing the limits or categories. *)
Definition reload_safe (i : iam) (o : ext * op) : Prop :=
  match snd o with
  | OpApi (ApCreateUser _) => forall t, x_sct (fst o) = Some t -> (strlen t <= l_sct (i_lim i))%N
  | OpCoap _ (RqAddFp _ f _) => strlen f = 64%N
  | OpCoap c (RqPairLocalInitial _) | OpCoap c (RqPairPasswordInvite _) =>
      forall f, cn_fp c = Some f -> strlen f = 64%N
  | OpCoap c (RqPairLocalOpen _) | OpCoap c (RqPairPasswordOpen _) =>
      (forall f, cn_fp c = Some f -> strlen f = 64%N) /\ (user_count i < l_max_users (i_lim i))%N
  | OpSetLimits _ | OpSetCats _ => False
  | _ => True
  end.

(** ** CoAP *)

(** The action and attributes a request needs permission for. *)
Definition required (r : request) : string * attrs :=
  match r with
  | RqCreateUser _ => ("IAM:CreateUser", [])
  | RqDeleteUser u => ("IAM:DeleteUser", [("IAM:Username", u)])
  | RqAddFp u _ _ => ("IAM:SetUserFingerprint", [("IAM:Username", u)])
  | RqDeleteFp u _ => ("IAM:SetUserFingerprint", [("IAM:Username", u)])
  | RqSetName u _ => ("IAM:SetUserUsername", [("IAM:Username", u)])
  | RqSetRole u (PlOk (CbStr r)) => ("IAM:SetUserRole", [("IAM:Username", u); ("IAM:RoleId", r)])
  | RqSetRole u _ => ("IAM:SetUserRole", [("IAM:Username", u)])
  | RqSetPassword u _ => ("IAM:SetUserPassword", [("IAM:Username", u)])
  | RqSetFp u _ => ("IAM:SetUserFingerprint", [("IAM:Username", u)])
  | RqSetDisplay u _ => ("IAM:SetUserDisplayName", [("IAM:Username", u)])
  | RqSetFcm u _ => ("IAM:SetUserFcm", [("IAM:Username", u)])
  | RqSetSct u _ => ("IAM:SetUserSct", [("IAM:Username", u)])
  | RqSetOauth u _ => ("IAM:SetUserOauthSubject", [("IAM:Username", u)])
  | RqSetCats u _ => ("IAM:SetUserNotificationCategories", [("IAM:Username", u)])
  | RqPairLocalInitial _ => ("IAM:PairingLocalInitial", [])
  | RqPairLocalOpen _ => ("IAM:PairingLocalOpen", [])
  | RqPairPasswordInvite _ => ("IAM:PairingPasswordInvite", [])
  | RqPairPasswordOpen _ => ("IAM:PairingPasswordOpen", [])
  | RqSetSettings _ _ => ("IAM:SetSettings", [])
  | RqSetDeviceInfo _ _ => ("IAM:SetDeviceInfo", [])
  end.

(** The user a request is about, when its path names one. *)
Definition target (r : request) : option string :=
  match r with
  | RqDeleteUser u | RqAddFp u _ _ | RqDeleteFp u _ | RqSetName u _ | RqSetRole u _ | RqSetPassword u _
  | RqSetFp u _ | RqSetDisplay u _ | RqSetFcm u _ | RqSetSct u _ | RqSetOauth u _ | RqSetCats u _ => Some u
  | _ => None
  end.

(** The nullable string a request payload carries. *)
Definition reads (p : payload cborstr) (v : option string) : Prop :=
  match v with Some s => p = PlOk (CbStr s) | None => p = PlOk CbNull end.

(** What each request that changes the persistent state must do (pairing requests
    are specified by [pairing_ok] below). *)
Definition coap_effect (r : request) (s s' : istate) : Prop :=
  match r with
  | RqCreateUser p => exists name, p = PlOk (CbStr name) /\ api_effect (ApCreateUser (Some name)) s s'
  | RqDeleteUser n => api_effect (ApDeleteUser (Some n)) s s'
  | RqAddFp n f p => one_user_changed n [FFps]
      (fun u u' => exists nm, fps u' = (fps u ++ [(f, nm)])%list /\ forall x, nm = Some x -> p = PlOk (CbStr x)) s s'
  | RqDeleteFp n f => api_effect (ApRemoveFp (Some n) (Some f)) s s'
  | RqSetName n p => exists v, p = PlOk (CbStr v) /\ valid_name v /\ Forall (fun u => u_name u <> v) (st_users s) /\
      one_user_changed n [FName] (becomes FName (VStr (Some v))) s s'
  | RqSetRole n p => exists v, p = PlOk (CbStr v) /\ api_effect (ApSetRole (Some n) (Some v)) s s'
  | RqSetPassword n p => exists v, reads p v /\ api_effect (ApSetPassword (Some n) v) s s'
  | RqSetFp n p => exists v, reads p v /\
      match v with
      | Some f => api_effect (ApSetFp (Some n) (Some f)) s s'
      | None => one_user_changed n [FFps] (fun u u' => exists f, fps u = f :: fps u') s s'
      end
  | RqSetDisplay n p => exists v, reads p v /\ api_effect (ApSetDisplay (Some n) v) s s'
  | RqSetFcm n p => exists t q, p = PlOk (Some (CbStr t, CbStr q)) /\
      one_user_changed n [FFcmToken; FFcmProject]
        (fun u u' => u_fcm_token u' = Some t /\ u_fcm_project u' = Some q) s s'
  | RqSetSct n p => exists v, p = PlOk (CbStr v) /\ api_effect (ApSetSct (Some n) (Some v)) s s'
  | RqSetOauth n p => exists v, reads p v /\ api_effect (ApSetOauth (Some n) v) s s'
  | RqSetCats n p => exists l, p = PlOk (Some l) /\ api_effect (ApSetCats (Some n) l) s s'
  | RqSetSettings key p => exists b, p = PlOk (Some b) /\
      (key = "password-open-pairing" /\ api_effect (ApSetMode PmPasswordOpen b) s s' \/
       key = "password-invite-pairing" /\ api_effect (ApSetMode PmPasswordInvite b) s s' \/
       key = "local-open-pairing" /\ api_effect (ApSetMode PmLocalOpen b) s s')
  | RqSetDeviceInfo key p => exists v, key = "friendly-name" /\ p = PlOk (CbStr v) /\ st_friendly s' = Some v /\
      s' = {| st_pw_open_password := st_pw_open_password s; st_pw_open_sct := st_pw_open_sct s;
              st_pw_open := st_pw_open s; st_local_open := st_local_open s; st_pw_invite := st_pw_invite s;
              st_local_initial := st_local_initial s; st_open_role := st_open_role s;
              st_initial_user := st_initial_user s; st_friendly := Some v; st_users := st_users s |}
  | _ => True
  end.

(** Requests that may be answered with success without changing anything: pairing
    of an already paired client, and user creation when the device refuses the
    generated token. *)
Definition may_be_idle (r : request) : bool :=
  match r with
  | RqCreateUser _ | RqPairLocalOpen _ | RqPairPasswordInvite _ | RqPairPasswordOpen _ => true
  | _ => false
  end.

(** Only the user named [n] may differ. *)
Definition only_user (n : string) (s s' : istate) : Prop :=
  settings s' = settings s /\
  exists pre u post, st_users s = (pre ++ u :: post)%list /\ u_name u = n /\
    (st_users s' = (pre ++ post)%list \/ exists u', st_users s' = (pre ++ u' :: post)%list).

(** Everything outside the module's notification bookkeeping. *)
Definition observable (i : iam) := (i_state i, i_conf i, i_lim i, i_cats i, i_auth i, i_tokens i).

(** ** Pairing *)

Definition open_pairing_effect (c : conn) (i i' : iam) : Prop :=
  settings (i_state i') = settings (i_state i) /\
  exists f n u, cn_fp c = Some f /\ fp_unused i f /\ Forall (fun v => u_name v <> n) (users i) /\
    users i' = (users i ++ [u])%list /\ u_name u = n /\ valid_name n /\ fp_values u = [f] /\
    u_role u = st_open_role (i_state i) /\ u_role u <> None /\ u_password u = None.

Definition may (E : env) (i : iam) (c : conn) (action : string) : Prop := check_access E i c action [] = Some true.

(** What must be the case when a pairing request changes the persistent state. *)
Definition pairing_ok (E : env) (c : conn) (i i' : iam) (r : request) : Prop :=
  match r with
  | RqPairLocalOpen _ =>
      st_local_open (i_state i) = true /\ may E i c "IAM:PairingLocalOpen" /\ cn_local c = true /\
      open_pairing_effect c i i'
  | RqPairPasswordOpen _ =>
      st_pw_open (i_state i) = true /\ may E i c "IAM:PairingPasswordOpen" /\
      st_pw_open_password (i_state i) <> None /\ cn_pwauth c = true /\
      open_pairing_effect c i i'
  | RqPairPasswordInvite _ =>
      st_pw_invite (i_state i) = true /\ may E i c "IAM:PairingPasswordInvite" /\ cn_pwauth c = true /\
      exists n f, cn_pwname c = Some n /\ cn_fp c = Some f /\ fp_unused i f /\
        one_user_changed n [FFps; FPassword]
          (fun u u' => fp_values u' = (fp_values u ++ [f])%list /\ u_password u' = None) (i_state i) (i_state i')
  | RqPairLocalInitial _ =>
      st_local_initial (i_state i) = true /\ may E i c "IAM:PairingLocalInitial" /\ cn_local c = true /\
      exists n f, st_initial_user (i_state i) = Some n /\ cn_fp c = Some f /\
        one_user_changed n [FFps]
          (fun u u' => fp_values u = [] /\ u_oauth u = None /\ fp_values u' = [f]) (i_state i) (i_state i')
  | _ => True
  end.

Definition is_pairing (r : request) : bool :=
  match r with
  | RqPairLocalOpen _ | RqPairPasswordOpen _ | RqPairPasswordInvite _ | RqPairLocalInitial _ => true
  | _ => false
  end.

(** C15's missing guard of password open pairing. *)
Definition open_login (c : conn) : Prop := cn_pwauth c = true /\ cn_pwname c = Some "".

(** The responses of the initial pairing requests in a history of pairing
    requests; [None] for undefined behaviour. *)
Fixpoint initial_pairings (E : env) (i : iam) (l : list (ext * conn * request)) : nat :=
  match l with
  | [] => 0
  | (x, c, r) :: l' =>
      match coap E x c i r with
      | Resp i' code =>
          (match r with RqPairLocalInitial _ => if N.eqb code 201 then 1 else 0 | _ => 0 end)
          + initial_pairings E i' l'
      | CUndefined => 0
      end
  end.

(** ** Freed users *)

(** Users are only removed while no connection is authorized as them. *)
Definition removal_safe (i : iam) (o : ext * op) : Prop :=
  match snd o with
  | OpApi (ApDeleteUser (Some n)) | OpCoap _ (RqDeleteUser n) =>
      forall u r, In u (users i) -> u_name u = n -> ~ In (r, u_id u) (i_auth i)
  | OpLoadState _ => i_auth i = []
  | _ => True
  end.

(** Every connection is authorized at most once while it is open. *)
Definition authorize_once (i : iam) (o : ext * op) : Prop :=
  match snd o with
  | OpApi (ApAuthorize r _) => forall id, ~ In (r, id) (i_auth i)
  | _ => True
  end.

(** ** Tokens *)

(** Excluded by C62: setting a token through the API, and device errors when
    registering a token set over CoAP. *)
Definition tokens_registered (i : iam) (o : ext * op) : Prop :=
  match snd o with
  | OpApi (ApSetSct _ _) => False
  | OpCoap _ (RqSetSct _ (PlOk (CbStr s))) => x_add (fst o) s = true
  | _ => True
  end.

(** ** Arguments *)

(** All string arguments are given. *)
Definition no_null (a : api) : Prop :=
  match a with
  | ApCreateUser n => n <> None
  | ApSetFp _ v | ApSetSct _ v | ApSetPassword _ v | ApSetDisplay _ v | ApSetFcmToken _ v
  | ApSetFcmProject _ v | ApSetOauth _ v => v <> None
  | ApAddFp _ v fn => v <> None /\ fn <> None
  | _ => True
  end.
