(** Properties C11, C13, C65-C67 and the JSON half of C12: IAM documents. *)
From Coq Require Import String Ascii List Bool Arith NArith ZArith.
From Verif Require Import JsonModel JsonProofs IamPolicyModel IamPolicySpec IamStateModel IamStateSpec IamStateProofs IamStateInv IamStateReload IamJsonModel IamJsonSpec IamJsonProofs.
Import ListNotations.
Open Scope string_scope.

(** Concrete values used by the examples: a strtod for one digit integers. *)
Definition ex_strtod : strtod_t := fun s =>
  match s with
  | String c _ => Some ((Z.of_N (N_of_ascii c) - 48)%Z, 1)
  | EmptyString => None
  end.
Example ex_strtod_ok : reads_versions ex_strtod.
Proof. split; reflexivity. Qed.

Definition ex_user := {| u_id := 7; u_name := "alice"; u_display := Some ("A ""quoted"" \ name" ++ String "010" (String "001" "é"));
  u_fps := [{| fp_val := "aabb"; fp_name := Some "phone" |}; {| fp_val := "ccdd"; fp_name := None |}];
  u_password := Some ""; u_role := Some "admin"; u_sct := None; u_fcm_token := None;
  u_fcm_project := Some "proj"; u_cats := ["info"; "warn"]; u_oauth := Some "sub" |}.
Definition ex_state := {| st_pw_open_password := Some "pw"; st_pw_open_sct := None; st_pw_open := true;
  st_local_open := false; st_pw_invite := true; st_local_initial := false; st_open_role := Some "admin";
  st_initial_user := None; st_friendly := Some "{}"; st_users := [ex_user; set_u_name "bob" ex_user] |}.

Ltac cs := apply c_stringI; reflexivity.

Example ex_user_proper : forall n, validate_username n = true -> proper_user (set_u_name n ex_user).
Proof.
  intros n Hn. unfold proper_user.
  split; [now apply validate_username_ok|].
  split; [intros f [<-|[<-|[]]]; split; first [exact I|cs]|].
  repeat (split; [first [exact I|cs]|]).
  split; [intros c [<-|[<-|[]]]; cs|].
  repeat constructor; cbn; intuition discriminate.
Qed.
Example ex_state_proper : proper_state ex_state.
Proof.
  unfold proper_state. repeat (split; [first [exact I|cs]|]).
  intros u [<-|[<-|[]]].
  - apply (ex_user_proper "alice"). reflexivity.
  - apply (ex_user_proper "bob"). reflexivity.
Qed.

(** ** C11 *)
Theorem C11_state_round_trip : forall L id s, reads_versions L -> proper_state s ->
  exists s', state_load L id empty_state (state_dump s) = (s', true) /\ same_state s s'.
Proof. exact state_round. Qed.
Print Assumptions C11_state_round_trip.

Example C11_ex : exists s', state_load ex_strtod 0 empty_state (state_dump ex_state) = (s', true)
  /\ map u_display (st_users s') = map u_display (st_users ex_state) /\ length (st_users s') = 2.
Proof. eexists. split; [vm_compute; reflexivity|]. split; vm_compute; reflexivity. Qed.

(** The text itself: any JSON value whose strings are C strings is read back
    from what is printed for it, down to a depth of 1000. *)
Theorem C11_text_round_trip : forall L v, jwf L v -> jdepth v <= 1000 -> parse L (print v) = Some v.
Proof. exact parse_print. Qed.
Print Assumptions C11_text_round_trip.

Example C11_ex_text :
  print (user_to_json (set_u_cats [] (set_u_fps [] ex_user))) =
  "{""Username"":""alice"",""Fingerprints"":[],""DisplayName"":""A \""quoted\"" \\ name\n\u0001é"",""Password"":"""",""Role"":""admin"",""Fcm"":{""ProjectId"":""proj""},""OauthSubject"":""sub""}".
Proof. vm_compute. reflexivity. Qed.

(** ** C12, from the written text *)
Theorem C12_reload_text_partial : forall E lim cats ops i x L id,
  let i0 := set_categories cats (set_limits lim iam_init) in
  along E reload_safe i0 ops -> run E i0 ops = Some i -> ext_ok x ->
  reads_versions L -> proper_state (i_state i) ->
  exists s' i2, state_load L id empty_state (state_dump (i_state i)) = (s', true) /\
    load_state x (restarted i) s' = (i2, true) /\ same_state (i_state i) (i_state i2).
Proof.
  intros E lim cats ops i x L id i0 Hal Hr Hx HL Hp.
  destruct (reload_always Hal Hr Hx) as (i2 & H1 & H2).
  exists (with_users (number_from id (st_users (i_state i))) (i_state i)), i2.
  split; [now apply state_load_dump|]. split; [|exact H2]. now rewrite load_number.
Qed.
Print Assumptions C12_reload_text_partial.

(** ** C13 *)
Definition ex_conf1 := {|
  conf_roles := [{| r_id := "admin"; r_policies := ["all"; "none"] |}; {| r_id := "guest"; r_policies := [] |}];
  conf_policies := [{| p_id := "all"; p_stmts := [
    {| s_effect := Allow; s_actions := ["IAM:GetUser"; "IAM:SetUser"]; s_conds := [
       {| c_op := StringEquals; c_key := "IAM:Username"; c_values := ["${Connection:Username}"; "x"] |};
       {| c_op := BoolOp; c_key := "Connection:IsLocal"; c_values := ["true"] |}] |};
    {| s_effect := Deny; s_actions := []; s_conds := [] |}] |}];
  conf_unpaired := Some "guest" |}.

Ltac pset := split; [repeat constructor; cbn; intuition discriminate|intros ? Hin; cbn in Hin; repeat (destruct Hin as [<-|Hin]; [cs|]); contradiction].
Example ex_conf1_proper : proper_conf ex_conf1.
Proof.
  split; [intros p [<-|[]]|split; [intros r [<-|[<-|[]]]|cs]].
  - split; [cs|]. intros s [<-|[<-|[]]].
    + split; [now left|]. split; [pset|]. intros c [<-|[<-|[]]]; (split; [cs|pset]).
    + split; [now right|]. split; [pset|]. intros c [].
  - split; [cs|pset].
  - split; [cs|pset].
Qed.

Theorem C13_conf_round_trip : forall L c, reads_versions L -> proper_conf c ->
  conf_load L empty_conf (conf_dump c) = Some c.
Proof. exact conf_round. Qed.
Print Assumptions C13_conf_round_trip.

Theorem C13_same_decisions : forall L N c c', reads_versions L -> proper_conf c ->
  conf_load L empty_conf (conf_dump c) = Some c' ->
  forall role action m, decide N c' role action m = decide N c role action m.
Proof.
  intros L N c c' HL Hc H role action m. rewrite (conf_round L c HL Hc) in H. now injection H as <-.
Qed.
Print Assumptions C13_same_decisions.

Example C13_ex : conf_load ex_strtod empty_conf (conf_dump ex_conf1) = Some ex_conf1.
Proof. vm_compute. reflexivity. Qed.

(** ** C65 *)
(** The document restricts the permission to local connections; written as an
    object instead of a list the restriction is dropped, with two keys in one
    object the second one is. *)
Definition doc_object : string :=
  "{""Version"":1,""Policies"":[{""Id"":""P"",""Statements"":[{""Effect"":""Allow"",""Actions"":[""A""],""Conditions"":{""Bool"":{""Connection:IsLocal"":[""true""]}}}]}],""Roles"":[{""Id"":""R"",""Policies"":[""P""]}],""Config"":{}}".
Definition doc_two : string :=
  "{""Version"":1,""Policies"":[{""Id"":""P"",""Statements"":[{""Effect"":""Allow"",""Actions"":[""A""],""Conditions"":[{""StringEquals"":{""k"":[""v""]},""Bool"":{""Connection:IsLocal"":[""true""]}}]}]}],""Roles"":[{""Id"":""R"",""Policies"":[""P""]}],""Config"":{}}".
(** The statement of such a document. *)
Definition first_statement (L : strtod_t) (text : string) : option json :=
  match parse L text with
  | Some root =>
      match get_item root "Policies" with
      | Some (JArr (p :: _)) => match get_item p "Statements" with Some (JArr (s :: _)) => Some s | _ => None end
      | _ => None
      end
  | None => None
  end.

Theorem C65_restriction_dropped_refuted :
  (exists L text c j N, conf_load L empty_conf text = Some c /\ first_statement L text = Some j /\
     written j = [("Bool", "Connection:IsLocal", [JStr "true"])] /\
     decide N c (Some "R") "A" [("Connection:IsLocal", "false")] = true) /\
  (exists L text c j N, conf_load L empty_conf text = Some c /\ first_statement L text = Some j /\
     written j = [("StringEquals", "k", [JStr "v"]); ("Bool", "Connection:IsLocal", [JStr "true"])] /\
     decide N c (Some "R") "A" [("k", "v"); ("Connection:IsLocal", "false")] = true).
Proof.
  split.
  - exists ex_strtod, doc_object. do 2 eexists. exists nolib.
    split; [vm_compute; reflexivity|]. split; [vm_compute; reflexivity|]. split; vm_compute; reflexivity.
  - exists ex_strtod, doc_two. do 2 eexists. exists nolib.
    split; [vm_compute; reflexivity|]. split; [vm_compute; reflexivity|]. split; vm_compute; reflexivity.
Qed.
Print Assumptions C65_restriction_dropped_refuted.

Theorem C65_restrictions_kept_partial : forall j s, statement_from_json j = Some s -> plain_conditions j ->
  Forall2 enforces (s_conds s) (written j).
Proof. exact statement_enforces. Qed.
Print Assumptions C65_restrictions_kept_partial.

Example C65_ex : exists j s, statement_from_json j = Some s /\ plain_conditions j /\ length (s_conds s) = 2.
Proof.
  exists (JObj [("effect", JStr "Allow"); ("Actions", JArr [JStr "A"; JStr "A"]);
    ("conditions", JArr [JObj [("Bool", JObj [("k", JArr [JStr "true"])])]; JObj [("NumericEquals", JObj [("n", JArr [JStr "1"; JStr "2"])])]])]).
  eexists. split; [vm_compute; reflexivity|]. split; [|reflexivity].
  eexists. split; [reflexivity|]. repeat constructor; repeat eexists.
Qed.

(** ** C66 *)
(** Version 0 was never written by any release, yet it loads, without the
    fingerprints of the users. *)
Definition doc_v0 : string :=
  "{""Version"":0,""Users"":[{""Username"":""bob"",""Fingerprints"":[{""Fingerprint"":""aa""}]}]}".
Theorem C66_unknown_version_refuted : exists L text s', state_load L 0 empty_state text = (s', true) /\
  (exists root v, parse L text = Some root /\ get_item root "Version" = Some (JNum v) /\ v <> 1%Z /\ v <> 2%Z) /\
  map u_fps (st_users s') = [[]].
Proof.
  exists ex_strtod, doc_v0. eexists. split; [vm_compute; reflexivity|]. split; [|reflexivity].
  do 2 eexists. split; [vm_compute; reflexivity|]. split; [vm_compute; reflexivity|]. split; discriminate.
Qed.
Print Assumptions C66_unknown_version_refuted.

Theorem C66_newer_version_partial : forall L id s text s', state_load L id s text = (s', true) ->
  exists root v, parse L text = Some root /\ get_item root "Version" = Some (JNum v) /\ (v <= 2)%Z.
Proof. exact load_needs_version. Qed.
Print Assumptions C66_newer_version_partial.

Theorem C66_refused_load_changes_nothing : forall L id s text,
  snd (state_load L id s text) = false -> fst (state_load L id s text) = s.
Proof. exact load_false_unchanged. Qed.
Print Assumptions C66_refused_load_changes_nothing.

Theorem C66_version_1_fingerprint : forall id j u, user_from_json id j 1 = Some u ->
  map fp_val (u_fps u) = match as_str (get_item j "Fingerprint") with Some f => [f] | None => [] end.
Proof. intros id j u H. rewrite (v1_fps_gen id j u H). now destruct (as_str (get_item j "Fingerprint")). Qed.
Print Assumptions C66_version_1_fingerprint.

Example C66_ex : snd (state_load ex_strtod 0 ex_state "{""Version"":3,""Users"":[]}") = false.
Proof. vm_compute. reflexivity. Qed.
Example C66_ex_v1 : exists u, user_from_json 3 (JObj [("Username", JStr "bob"); ("Fingerprint", JStr "aa")]) 1 = Some u
  /\ map fp_val (u_fps u) = ["aa"].
Proof. eexists. split; vm_compute; reflexivity. Qed.

(** ** C67 *)
Definition doc_upper : string :=
  "{""Version"":2,""Users"":[{""Username"":""Bob"",""Role"":""Owner""},{""Username"":""eve""}]}".
Theorem C67_user_lost_refuted : exists L text s' root us, parse L text = Some root /\
  get_item root "Users" = Some (JArr us) /\ state_load L 0 empty_state text = (s', true) /\
  length (st_users s') < length us.
Proof.
  exists ex_strtod, doc_upper. do 3 eexists.
  split; [vm_compute; reflexivity|]. split; [vm_compute; reflexivity|]. split; [vm_compute; reflexivity|].
  vm_compute. auto.
Qed.
Print Assumptions C67_user_lost_refuted.

(** Nothing is lost of a document whose user names are valid. *)
Theorem C67_users_kept_partial : forall L id text s' root us v, parse L text = Some root ->
  get_item root "Users" = Some (JArr us) -> get_item root "Version" = Some (JNum v) ->
  (forall j, In j us -> exists n, get_item j "Username" = Some (JStr n) /\ valid_name n) ->
  state_load L id empty_state text = (s', true) ->
  map (fun u => Some (JStr (u_name u))) (st_users s') = map (fun j => get_item j "Username") us.
Proof. exact users_kept. Qed.
Print Assumptions C67_users_kept_partial.

Example C67_ex : exists s', state_load ex_strtod 0 empty_state (state_dump ex_state) = (s', true)
  /\ map u_name (st_users s') = ["alice"; "bob"].
Proof. eexists. split; vm_compute; reflexivity. Qed.
