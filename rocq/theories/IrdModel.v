(** * What the IAM module tells clients (C95)

    Models the reading CoAP handlers of src/modules/iam/coap_handler
    (nm_iam_get_me.c, nm_iam_get_user.c, nm_iam_list_users.c,
    nm_iam_list_roles.c, nm_iam_settings_get.c, nm_iam_pairing_get.c,
    nm_iam_get_notification_categories.c), nm_iam_send_fcm_test.c with the
    asynchronous part of nm_iam_coap_handler.c, and the encoder of
    3rdparty/tinycbor/tinycbor_src/src/cborencoder.c as they use it.

    The state of the IAM module and the access check are those of
    IamStateModel.v. *)
From Coq Require Import String Ascii List Bool Arith NArith.
From Verif Require Import IamPolicyModel IamStateModel.
Import ListNotations.
Open Scope list_scope.
Open Scope N_scope.

(** ** The CBOR encoder *)

(** struct CborEncoder: [left] is end - data.ptr, None when end is NULL and
    data.bytes_needed counts. *)
Record enc := mkenc { left : option N; need : N; buf : list N }.

(** cbor_encoder_init, 203-209, with a NULL buffer or one of this size. *)
Definition enc_null : enc := mkenc None 0 [].
Definition enc_buf (n : N) : enc := mkenc (Some n) 0 [].

Definition len {A} (l : list A) : N := N.of_nat (List.length l).

(** append_to_buffer with would_overflow, 256-301; false: CborErrorOutOfMemory. *)
Definition append (b : list N) (e : enc) : enc * bool :=
  match left e with
  | None => if need e + len b =? 0 then (e, true) else (mkenc None (need e + len b) (buf e), false)
  | Some n => if len b <=? n then (mkenc (Some (n - len b)) (need e) (buf e ++ b), true)
              else (mkenc None (len b - n) (buf e), false)
  end.

(** put64, 250-254: [k] bytes, the most significant first. *)
Fixpoint be (k : nat) (n : N) : list N :=
  match k with
  | O => []
  | S k' => ((n / 256 ^ N.of_nat k') mod 256) :: be k' n
  end.

(** encode_number_no_update, 308-335. *)
Definition head (major n : N) : list N :=
  if n <? 24 then [major * 32 + n]
  else if n <=? 255 then (major * 32 + 24) :: be 1 n
  else if n <=? 65535 then (major * 32 + 25) :: be 2 n
  else if n <=? 4294967295 then (major * 32 + 26) :: be 4 n
  else (major * 32 + 27) :: be 8 n.

Fixpoint bytes_of (s : string) : list N :=
  match s with EmptyString => [] | String c s' => N_of_ascii c :: bytes_of s' end.

(** The calls the handlers make.  A container shares the position of its
    parent: create_container, 490-514, cbor_encoder_close_container, 573-589. *)
Inductive call :=
  | KText (s : string)         (* cbor_encode_text_stringz *)
  | KUint (n : N)              (* cbor_encode_uint *)
  | KBool (b : bool)           (* cbor_encode_boolean *)
  | KArray                     (* cbor_encoder_create_array, indefinite *)
  | KMap                       (* cbor_encoder_create_map, indefinite *)
  | KClose.                    (* cbor_encoder_close_container *)

(** What is appended, in one or two pieces (encode_string, 445-451). *)
Definition pieces (k : call) : list (list N) :=
  match k with
  | KText s => [head 3 (len (bytes_of s)); bytes_of s]
  | KUint n => [head 0 n]
  | KBool b => [[if b then 245 else 244]]
  | KArray => [[159]]
  | KMap => [[191]]
  | KClose => [[255]]
  end.

(** One call; the result is that of the last piece, as only OutOfMemory occurs. *)
Fixpoint do_pieces (l : list (list N)) (e : enc) (r : bool) : enc * bool :=
  match l with
  | [] => (e, r)
  | b :: l' => let (e1, r1) := append b e in do_pieces l' e1 r1
  end.
Definition do_call (k : call) (e : enc) : enc * bool := do_pieces (pieces k) e true.

(** A handler which goes on after OutOfMemory (nm_iam_cbor_err_not_oom,
    nm_iam_coap_handler.c:350-353); the result of the last call. *)
Fixpoint tolerant (l : list call) (e : enc) (r : bool) : enc * bool :=
  match l with
  | [] => (e, r)
  | k :: l' => let (e1, r1) := do_call k e in tolerant l' e1 r1
  end.

(** A handler which stops at any error; None: it returned 0 there. *)
Fixpoint strict (l : list call) (e : enc) : option enc * list N :=
  match l with
  | [] => (Some e, buf e)
  | k :: l' => match do_call k e with
               | (e1, true) => strict l' e1
               | (e1, false) => (None, buf e1)
               end
  end.

(** cbor_encoder_get_extra_bytes_needed. *)
Definition extra (e : enc) : N := match left e with None => need e | Some _ => 0 end.

(** ** What is encoded *)

Definition opt_text (k : string) (o : option string) : list call :=
  match o with Some s => [KText k; KText s] | None => [] end.

Fixpoint last_fp (l : list fprint) (o : option string) : option string :=
  match l with [] => o | f :: l' => last_fp l' (Some (fp_val f)) end.

(** nm_iam_cbor_encode_user, nm_iam_coap_handler.c:220-347. *)
Definition user_calls (u : user) : list call :=
  [KMap; KText "Username"; KText (u_name u)] ++
  opt_text "DisplayName" (u_display u) ++
  opt_text "Role" (u_role u) ++
  [KText "Fingerprints"; KArray] ++
  flat_map (fun f => [KMap; KText "Fingerprint"; KText (fp_val f)] ++ opt_text "Name" (fp_name f) ++ [KClose]) (u_fps u) ++
  [KClose] ++
  opt_text "Fingerprint" (last_fp (u_fps u) None) ++
  opt_text "Sct" (u_sct u) ++
  (match u_fcm_token u, u_fcm_project u with
   | None, None => []
   | t, p => [KText "Fcm"; KMap] ++ opt_text "Token" t ++ opt_text "ProjectId" p ++ [KClose]
   end) ++
  [KText "NotificationCategories"; KArray] ++ map KText (u_cats u) ++ [KClose] ++
  opt_text "OauthSubject" (u_oauth u) ++
  [KClose].

(** encode_users, nm_iam_list_users.c:20-45, encode_roles, nm_iam_list_roles.c:18-43,
    encode_categories, nm_iam_get_notification_categories.c:17-29. *)
Definition list_calls (l : list string) : list call := [KArray] ++ map KText l ++ [KClose].

(** encode_response, nm_iam_settings_get.c:20-57. *)
Definition settings_calls (s : istate) : list call :=
  [KMap; KText "PasswordOpenPairing"; KBool (st_pw_open s);
   KText "PasswordInvitePairing"; KBool (st_pw_invite s);
   KText "LocalOpenPairing"; KBool (st_local_open s)] ++
  opt_text "PasswordOpenSct" (st_pw_open_sct s) ++
  opt_text "PasswordOpenPassword" (st_pw_open_password s) ++ [KClose].

(** What the device knows about itself. *)
Record info := mkinfo {
  n_version : option string; n_app_name : option string; n_app_version : option string;
  n_product : option string; n_device : option string }.

Definition both (a b : option bool) : option bool :=
  match a with Some true => b | r => r end.

(** nm_iam_pairing_is_..._possible, nm_iam_pairing.c:9-76; None: undefined. *)
Definition open_possible (E : env) (i : iam) (c : conn) : option bool :=
  both (check_access E i c "IAM:PairingPasswordOpen" [])
       (Some (st_pw_open (i_state i)
              && match st_pw_open_password (i_state i) with Some _ => true | None => false end
              && match st_open_role (i_state i) with Some _ => true | None => false end)).
Definition local_open_possible (E : env) (i : iam) (c : conn) : option bool :=
  if cn_local c && st_local_open (i_state i) then
    both (check_access E i c "IAM:PairingLocalOpen" [])
         (Some match st_open_role (i_state i) with Some _ => true | None => false end)
  else Some false.
Definition invite_possible (E : env) (i : iam) (c : conn) : option bool :=
  both (check_access E i c "IAM:PairingPasswordInvite" []) (Some (st_pw_invite (i_state i))).
Definition initial_possible (E : env) (i : iam) (c : conn) : option bool :=
  if cn_local c then
    both (check_access E i c "IAM:PairingLocalInitial" [])
         (Some (st_local_initial (i_state i)
                && match find_user (users i) (st_initial_user (i_state i)) with
                   | Some u => negb (is_user_paired u)
                   | None => false
                   end))
  else Some false.

Definition mode (o : option bool) (s : string) : option (list call) :=
  match o with Some true => Some [KText s] | Some false => Some [] | None => None end.
Definition join (a b : option (list call)) : option (list call) :=
  match a, b with Some x, Some y => Some (x ++ y) | _, _ => None end.

(** encode_response, nm_iam_pairing_get.c:20-111. *)
Definition pairing_calls (E : env) (d : info) (i : iam) (c : conn) : option (list call) :=
  join (Some [KMap; KText "Modes"; KArray])
  (join (mode (open_possible E i c) "PasswordOpen")
  (join (mode (local_open_possible E i c) "LocalOpen")
  (join (mode (invite_possible E i c) "PasswordInvite")
  (join (mode (initial_possible E i c) "LocalInitial")
  (Some ([KClose] ++ opt_text "NabtoVersion" (n_version d) ++ opt_text "AppVersion" (n_app_version d) ++
   opt_text "AppName" (n_app_name d) ++ opt_text "ProductId" (n_product d) ++ opt_text "DeviceId" (n_device d) ++
   opt_text "FriendlyName" (st_friendly (i_state i)) ++ [KClose])))))).

(** ** The handlers *)

Inductive request := GetMe | GetUser (n : string) | ListUsers | ListRoles | GetSettings | GetPairing | GetCategories.

(** What may fail for lack of memory. *)
Record mem := mkmem { m_ins : bool; m_buf : bool; m_set : bool }.

Inductive response :=
  | Content (code : N) (p : list N)            (* a CBOR payload *)
  | Error (code : N) (msg : option string)
  | Silent                                     (* the request is freed without a response *)
  | Crash.                                     (* a user which was freed is used *)

(** The bytes of the buffer of calloc after the encoder wrote to it. *)
Definition padded (n : N) (b : list N) : list N := b ++ repeat 0 (N.to_nat (n - len b)).

(** The end of the handlers: set code, content format and payload. *)
Definition reply (m : mem) (p : list N) : response :=
  if m_set m then Content 205 p else Error 500 (Some "Insufficient resources"%string).

(** The handlers which encode twice, the first time to know the size. *)
Definition send (m : mem) (l : list call) (none : response) : response :=
  let n := extra (fst (tolerant l enc_null true)) in
  if m_buf m then reply m (padded n (buf (fst (tolerant l (enc_buf n) true)))) else none.

Definition denied : response := Error 403 (Some "Access Denied"%string).
Definition oom : response := Error 500 (Some "Insufficient resources"%string).

Definition guarded (v : option bool) (k : response) : response :=
  match v with None => Crash | Some false => denied | Some true => k end.

(** Size of a strict pass: 0 when it stopped. *)
Definition strict_size (l : list call) (e : enc) : N :=
  match fst (strict l e) with Some e1 => extra e1 | None => 0 end.

Definition read (E : env) (d : info) (i : iam) (c : conn) (r : request) (m : mem) : response :=
  match r with
  (* nm_iam_get_me.c:18-67; the user is found as in check_access *)
  | GetMe =>
      match resolve_user i c with
      | None => Crash
      | Some None => Error 404 (Some "Not paired"%string)
      | Some (Some u) => send m (user_calls u) Silent
      end
  (* nm_iam_get_user.c:20-63; the route has the parameter *)
  | GetUser n =>
      guarded (check_access E i c "IAM:GetUser" (if m_ins m then [("IAM:Username"%string, n)] else []))
        match find_user (users i) (Some n) with
        | None => Error 404 None
        | Some u => send m (user_calls u) oom
        end
  (* nm_iam_list_users.c:47-71 *)
  | ListUsers =>
      guarded (check_access E i c "IAM:ListUsers" [])
        (let l := list_calls (map u_name (users i)) in
         let n := strict_size l enc_null in
         if m_buf m then reply m (padded n (snd (strict l (enc_buf n)))) else Silent)
  (* nm_iam_list_roles.c:45-78 *)
  | ListRoles =>
      guarded (check_access E i c "IAM:ListRoles" [])
        (let l := list_calls (map r_id (conf_roles (i_conf i))) in
         let n := strict_size l enc_null in
         if n =? 0 then Error 500 (Some "Encoding error"%string)
         else if m_buf m then
           match strict l (enc_buf n) with
           | (Some e, b) => if extra e =? 0 then Error 500 (Some "Encoding error"%string) else reply m (padded n b)
           | (None, _) => Error 500 (Some "Encoding error"%string)
           end
         else oom)
  (* nm_iam_settings_get.c:60-85 *)
  | GetSettings =>
      guarded (check_access E i c "IAM:GetSettings" []) (send m (settings_calls (i_state i)) Silent)
  (* nm_iam_pairing_get.c:114-139 *)
  | GetPairing =>
      guarded (check_access E i c "IAM:GetPairing" [])
        match pairing_calls E d i c with
        | None => Crash
        | Some l => send m l Silent
        end
  (* nm_iam_get_notification_categories.c:31-74 *)
  | GetCategories =>
      guarded (check_access E i c "IAM:ListNotificationCategories" [])
        (let l := list_calls (i_cats i) in
         match tolerant l enc_null true with
         | (_, true) => Error 500 (Some "Encoding error"%string)
         | (e, false) =>
             if m_buf m then
               match tolerant l (enc_buf (extra e)) true with
               | (e1, true) => reply m (padded (extra e) (buf e1))
               | (_, false) => Error 500 (Some "Encoding error"%string)
               end
             else oom
         end)
  end.

(** ** POST /iam/users/:user/fcm-test, nm_iam_send_fcm_test.c *)

Definition noti1 : string :=
  "{""message"": { ""notification"": { ""title"": ""Test notification"", ""body"": ""Notifications are working"" }, ""token"": """.
Definition noti2 : string := """ } }".

(** Allocations and calls which may fail. *)
Record fmem := mkfmem { f_ins : bool; f_ctx : bool; f_payload : bool; f_msg : bool; f_fut : bool; f_set : bool; f_project : bool }.

Inductive fout :=
  | Denied (code : N)                           (* an error response *)
  | Sent (project payload : string)             (* nabto_device_fcm_send *)
  | Replied (p : list N)                        (* 201 with a CBOR payload *)
  | Freed                                       (* the request is freed, the handler listens again *)
  | UseAfterFree.

(** The handler: no request, or one whose notification was sent. *)
Inductive fstate := FIdle | FWaiting | FDead.

Inductive fres := FOk (status : N) (body : string) | FFailed.

Inductive fop :=
  | FRequest (i : iam) (c : conn) (n : string) (m : fmem)
  | FResolved (r : fres) (al sp : bool).

(** handle_request, 92-196, and request_callback, nm_iam_coap_handler.c:71-90.
    The buffer has room for the three strings, so nn_strcat succeeds. *)
Definition fcm_request (E : env) (i : iam) (c : conn) (n : string) (m : fmem) : fstate * list fout :=
  match check_access E i c "IAM:SendUserFcmTest" (if f_ins m then [("IAM:Username"%string, n)] else []) with
  | None => (FDead, [UseAfterFree])
  | Some false => (FIdle, [Denied 403; Freed])
  | Some true =>
      match find_user (users i) (Some n) with
      | None => (FIdle, [Denied 404; Freed])
      | Some u =>
          match u_fcm_token u, u_fcm_project u with
          | Some t, Some p =>
              if f_ctx m && f_payload m && f_msg m && f_fut m && f_set m && f_project m
              then (FWaiting, [Sent p (noti1 ++ t ++ noti2)%string])
              else (FIdle, [Denied 500; Freed])
          | _, _ => (FIdle, [Denied 404; Freed])
          end
      end
  end.

(** encode_response, 34-48. *)
Definition fcm_calls (s : N) (b : string) : list call :=
  [KMap; KText "StatusCode"; KUint s; KText "Body"; KText b; KClose].

(** msg_sent_callback, 50-90: on the paths of an error ctx is freed before
    ctx->handler is read.  [al]: calloc, [sp]: set_payload. *)
Definition fcm_resolved (r : fres) (al sp : bool) : fstate * list fout :=
  match r with
  | FFailed => (FDead, [Denied 503; UseAfterFree])
  | FOk s b =>
      if negb al then (FDead, [Denied 500; UseAfterFree])
      else (FIdle, [(let l := fcm_calls s b in
                    let n := extra (fst (tolerant l enc_null true)) in
                    if sp then Replied (padded n (buf (fst (tolerant l (enc_buf n) true)))) else Denied 500); Freed])
  end.

(** One request at a time: the next one is taken after the last was freed. *)
Definition fstep (E : env) (s : fstate) (o : fop) : fstate * list fout :=
  match s, o with
  | FIdle, FRequest i c n m => fcm_request E i c n m
  | FWaiting, FResolved r al sp => fcm_resolved r al sp
  | _, _ => (s, [])
  end.

Fixpoint fruns (E : env) (s : fstate) (l : list fop) : fstate * list fout :=
  match l with
  | [] => (s, [])
  | o :: l' => let (s1, x) := fstep E s o in let (s2, y) := fruns E s1 l' in (s2, x ++ y)
  end.
