(** Properties C19-C22 and C68-C70: password authentication. *)
From Coq Require Import String Ascii List Bool Arith NArith ZArith Lia.
From Verif Require Import PwAuthModel PwAuthSpec PwAuthProofs SpakeModel SpakeProofs.
Import ListNotations.
Open Scope string_scope.

(** A platform for the examples: the key is the password, its confirmation a
    32 byte string. *)
Definition a32 := "aaaaaaaaaaaaaaaaaaaaaaaaaaaaaaaa".
Definition b32 := "bbbbbbbbbbbbbbbbbbbbbbbbbbbbbbbb".
Definition ex_crypto : crypto :=
  {| calculate_key := fun x => (match x_password x with Some p => p | None => "dummy" end, true);
     confirmation := fun k => if String.eqb k "pwA" then a32 else b32 |}.

(** Alice authenticates on connection 0. *)
Definition ex_login : list op :=
  [Connect 0 "client" "device"; InitListener; NextRequest; Step1 0 (BRequest "alice" "T");
   SetPassword 0 (Some "pwA") 7; Step2 0 (Some a32)].

(** C19: however guesses arrive, a period of T ms sees at most 10 + T/1000
    rejected proofs. *)
Theorem C19_guesses_rate_limited : forall C pre seg s0 o0 s1 o1,
  run C init pre = Some (s0, o0) -> run C s0 seg = Some (s1, o1) ->
  (N.of_nat (count is_rejected_proof o1) <= 10 + elapsed seg / 1000)%N.
Proof. exact guesses_bounded. Qed.
Print Assumptions C19_guesses_rate_limited.

(** The rejected proofs are the answers 401. *)
Theorem C19_rejected_iff_401 : forall C h s l,
  run C init h = Some (s, l) -> count (has_code 401) l = count is_rejected_proof l.
Proof. intros C h s l. apply run_401. Qed.
Print Assumptions C19_rejected_iff_401.

(** A proof answered 429 was not evaluated: the answer does not depend on it. *)
Theorem C19_refused_not_evaluated : forall C s c d s' o r,
  step C s (Step2 c d) = Some (s', o) -> In (Answer r 429) o ->
  o = [Answer r 429] /\ st_conns s' = st_conns s /\ st_tokens s' = st_tokens s /\
  forall d', exists s'', step C s (Step2 c d') = Some (s'', [Answer r 429]).
Proof. exact refused_unseen. Qed.
Print Assumptions C19_refused_not_evaluated.

(** After a quiet second (and the refill timer having run if it was due) proofs are
    evaluated again. *)
Theorem C19_not_locked_out : forall C l s o c d s' o' r,
  run C init l = Some (s, o) ->
  let s1 := with_now s (st_now s + 1000)%N in
  let s2 := match step C s1 TokenTimer with Some (t, _) => t | None => s1 end in
  step C s2 (Step2 c d) = Some (s', o') -> ~ In (Answer r 429) o'.
Proof. exact not_locked_out. Qed.
Print Assumptions C19_not_locked_out.

Definition ex_guesses := (ex_login ++ repeat (Step2 0 (Some b32)) 12)%list.
Example C19_ex : exists s o, run ex_crypto init ex_guesses = Some (s, o)
  /\ count is_rejected_proof o = 10 /\ In (Answer 13 429) o
  /\ exists s' o', run ex_crypto s [Tick 1000; TokenTimer; Step2 0 (Some b32)] = Some (s', o')
  /\ count is_rejected_proof o' = 1.
Proof.
  eexists _, _. split; [vm_compute; reflexivity|]. split; [vm_compute; reflexivity|].
  split; [vm_compute; repeat (first [left; reflexivity|right])|]. eexists _, _. split; vm_compute; reflexivity.
Qed.

(** C21: a connection is authenticated only after its client presented the
    confirmation of the latest key computed on this connection from the password the
    application set for a request made on this connection. *)
Theorem C21_only_by_proof : forall C h s l c,
  run C init h = Some (s, l) -> is_password_authenticated s c = true ->
  exists x k ok, proved_key C c x k ok l /\ calculate_key C x = (k, ok) /\ exchange_origin h c x.
Proof. exact authenticated_proved. Qed.
Print Assumptions C21_only_by_proof.

Example C21_ex : exists s l, run ex_crypto init ex_login = Some (s, l)
  /\ is_password_authenticated s 0 = true /\ get_username s 0 = UOk "alice".
Proof. eexists _, _. split; [vm_compute; reflexivity|]. split; vm_compute; reflexivity. Qed.

(** C20: authenticated as alice, then a first step for bob, whose password the
    client does not know: the connection is now reported as authenticated bob. *)
Definition ex_steal : list op :=
  (ex_login ++ [NextRequest; Step1 0 (BRequest "bob" "T"); SetPassword 2 (Some "pwB") 8])%list.

Theorem C20_identity_refuted : exists h s l u,
  run ex_crypto init h = Some (s, l) /\ is_password_authenticated s 0 = true /\
  get_username s 0 = UOk u /\ ~ proved_as ex_crypto 0 u l.
Proof.
  exists ex_steal. eexists _, _, "bob".
  split; [vm_compute; reflexivity|]. split; [vm_compute; reflexivity|]. split; [vm_compute; reflexivity|].
  intros (x & k & (l1 & l2 & l3 & E & _) & U).
  repeat (destruct l1 as [|? l1]; simpl in E; [first [discriminate | inversion E; subst; discriminate | idtac]|inversion E; clear E; subst;
    match goal with H : _ = (_ ++ _)%list |- _ => rename H into E | H : [] = _ |- _ => idtac end]).
  all: try (inversion E; subst; simpl in *;
     repeat (destruct l2 as [|? l2]; simpl in *; try discriminate;
        match goal with H : _ = _ |- _ => inversion H; subst; clear H end; try discriminate)).
Qed.
Print Assumptions C20_identity_refuted.

(** Missing in the partial statement: key exchanges after the proof, and failed ones. *)
Theorem C20_identity_partial : forall C h s l c u,
  run C init h = Some (s, l) -> is_password_authenticated s c = true -> get_username s c = UOk u ->
  (forall l1 d l2, l = (l1 ++ Checked c d true :: l2)%list -> no_exchange c l2) ->
  (forall x k, ~ In (Exchanged c x k false) l) ->
  proved_as C c u l.
Proof. exact authenticated_identity. Qed.
Print Assumptions C20_identity_partial.

Example C20_ex : exists s l, run ex_crypto init ex_login = Some (s, l)
  /\ is_password_authenticated s 0 = true /\ get_username s 0 = UOk "alice"
  /\ (forall l1 d l2, l = (l1 ++ Checked 0 d true :: l2)%list -> no_exchange 0 l2)
  /\ (forall x k, ~ In (Exchanged 0 x k false) l).
Proof.
  eexists _, _. split; [vm_compute; reflexivity|]. split; [vm_compute; reflexivity|].
  split; [vm_compute; reflexivity|]. split.
  - intros l1 d l2 E.
    do 5 (destruct l1 as [|? l1]; [first [discriminate|idtac]|injection E as _ E]).
    + inversion E; subst. intros x k ok [I|[]]; discriminate.
    + destruct l1 as [|? l1]; [discriminate|injection E as _ E; destruct l1; discriminate].
  - intros x k I. simpl in I. repeat (destruct I as [I|I]; [discriminate|]). contradiction.
Qed.

(** C22: a CoAP request has been answered exactly once unless the application or the
    listener still holds its unanswered request object, and then not at all. *)
Theorem C22_answered_exactly_once : forall C h s l r, run C init h = Some (s, l) ->
  (r < requests_in h /\ ~ outstanding s r -> count (answers_request r) l = 1) /\
  (outstanding s r \/ requests_in h <= r -> count (answers_request r) l = 0).
Proof. exact answered_once. Qed.
Print Assumptions C22_answered_exactly_once.

(** Setting a password answers it; setting it again is refused without effect. *)
Theorem C22_set_password : forall C h s l r pw rnd,
  run C init (h ++ [SetPassword r pw rnd]) = Some (s, l) ->
  count (answers_request r) l = 1 /\
  forall pw' rnd', step C s (SetPassword r pw' rnd') = Some (s, [Returned EcInvalidState]).
Proof. exact set_password_answers. Qed.
Print Assumptions C22_set_password.

(** Freeing the object answers it if it was not answered. *)
Theorem C22_free : forall C h s l r rnd,
  run C init (h ++ [FreeRequest r rnd]) = Some (s, l) -> count (answers_request r) l = 1.
Proof. exact free_request_answers. Qed.
Print Assumptions C22_free.

(** After the listener is stopped every request not held by the application is answered. *)
Theorem C22_stop : forall C h s l r rnd,
  run C init (h ++ [StopListener rnd]) = Some (s, l) -> r < requests_in h ->
  (forall q, In q (st_app s) -> rq_id q <> r) -> count (answers_request r) l = 1.
Proof. exact stop_answers. Qed.
Print Assumptions C22_stop.

Example C22_ex : exists s l, run ex_crypto init
    (ex_login ++ [Step1 0 (BRequest "bob" "T"); Step1 0 (BRequest "eve" "T"); NextRequest; StopListener (fun _ => 0)])%list = Some (s, l)
  /\ outstanding s 2 /\ ~ outstanding s 3 /\ count (answers_request 3) l = 1.
Proof.
  eexists _, _. split; [vm_compute; reflexivity|]. split; [|split].
  - eexists. split; [right; left; reflexivity|]. split; reflexivity.
  - intros (q & I & E & _). simpl in I. destruct I as [<-|[<-|[]]]; discriminate.
  - vm_compute; reflexivity.
Qed.

(** C68: the key is bound to the fingerprints of both ends, to the client's share and to the
    password: two exchanges end in the same key only if all of these agree, or else two
    different inputs of the hash with the same value are at hand. *)
Theorem C68_key_bound_to_inputs : forall E H, curve_laws E -> forall x1 x2 k,
  short (x_cfp x1) -> short (x_dfp x1) -> short (x_cfp x2) -> short (x_dfp x2) ->
  (forall p, short (encode_point E p)) ->
  calculate_key (spake_crypto E H) x1 = (k, true) ->
  calculate_key (spake_crypto E H) x2 = (k, true) ->
  (exists a b, a <> b /\ H a = H b) \/
  (x_cfp x1 = x_cfp x2 /\ x_dfp x1 = x_dfp x2 /\
   decode_point E (x_T x1) = decode_point E (x_T x2) /\
   password_scalar H (x_password x1) (x_rnd x1) = password_scalar H (x_password x2) (x_rnd x2)).
Proof. exact key_binds. Qed.
Print Assumptions C68_key_bound_to_inputs.

(** What is hashed determines every component. *)
Theorem C68_transcript_injective : forall E, curve_laws E -> forall cfp dfp T S K w cfp' dfp' T' S' K' w',
  short cfp -> short dfp -> short cfp' -> short dfp' ->
  (forall p, short (encode_point E p)) ->
  transcript E cfp dfp T S K w = transcript E cfp' dfp' T' S' K' w' ->
  cfp = cfp' /\ dfp = dfp' /\ T = T' /\ S = S' /\ K = K' /\ w = w'.
Proof. exact transcript_inj. Qed.
Print Assumptions C68_transcript_injective.

(** The integers modulo 5. *)
Inductive z5 := Z0' | Z1' | Z2' | Z3' | Z4'.
Definition z5n (a : z5) := match a with Z0' => 0 | Z1' => 1 | Z2' => 2 | Z3' => 3 | Z4' => 4 end.
Definition nz5 (n : nat) := match n mod 5 with 0 => Z0' | 1 => Z1' | 2 => Z2' | 3 => Z3' | _ => Z4' end.
Definition ex_curve : curve :=
  {| point := z5; padd := fun a b => nz5 (z5n a + z5n b); pneg := fun a => nz5 (5 - z5n a); pzero := Z0';
     generator := Z2'; const_M := Z3'; const_N := Z4'; order := 5;
     encode_point := fun p => String (ascii_of_nat (65 + z5n p)) "";
     decode_point := fun s => match s with String a "" =>
        let n := nat_of_ascii a in if Nat.leb 65 n && Nat.leb n 69 then Some (nz5 (n - 65)) else None | _ => None end |}.
Example C68_ex_curve : curve_laws ex_curve.
Proof.
  constructor.
  - intros [] []; reflexivity.
  - intros [] [] []; reflexivity.
  - intros []; reflexivity.
  - intros []; reflexivity.
  - discriminate.
  - reflexivity.
  - intros []; reflexivity.
Qed.
Definition ex_hash (s : string) : string :=
  string_of_list_ascii (repeat Ascii.zero 31 ++ [ascii_of_nat (String.length s mod 8)])%list.
Example C68_ex : exists k, calculate_key (spake_crypto ex_curve ex_hash)
  {| x_user := "u"; x_T := "B"; x_cfp := "c"; x_dfp := "d"; x_password := Some "p"; x_rnd := 3; x_old := "" |} = (k, true)
  /\ short "c" /\ forall p, short (encode_point ex_curve p).
Proof.
  eexists. split; [vm_compute; reflexivity|]. split; [reflexivity|]. intros p. reflexivity.
Qed.

(** C69: a client which knows the password the application sets is let in, as the user it
    named, as long as the guess limit is not exhausted. *)
Theorem C69_right_password_accepted : forall E H, curve_laws E -> (forall s, String.length (H s) = 32) ->
  forall s c p r x pw rnd user,
  st_conns s c = Some p -> st_listening s = true -> st_tokens s <> 0%N ->
  find_app s r = Some {| rq_id := r; rq_conn := c; rq_user := user;
      rq_T := encode_point E (client_share E x (bytes_to_nat (H pw))); rq_handled := false |} ->
  let w := bytes_to_nat (H pw) in
  let share := device_share E (device_secret rnd) w in
  let proof := client_proof E H (pc_cfp p) (pc_dfp p) x w share in
  exists s' xch k r',
    run (spake_crypto E H) s [SetPassword r (Some pw) rnd; Step2 c (Some proof)] =
      Some (s', [Exchanged c xch k true; Answer r 201; Returned EcOk; Checked c proof true; Answer r' 201])
    /\ is_password_authenticated s' c = true
    /\ (user <> "" -> get_username s' c = UOk user).
Proof. exact right_password_accepted. Qed.
Print Assumptions C69_right_password_accepted.

Example C69_ex : (forall s, String.length (ex_hash s) = 32) /\
  exists s l p, run (spake_crypto ex_curve ex_hash) init
    [Connect 0 "c" "d"; InitListener; NextRequest; Step1 0 (BRequest "alice" "C")] = Some (s, l)
  /\ st_conns s 0 = Some p /\ st_listening s = true /\ st_tokens s <> 0%N
  /\ find_app s 0 = Some {| rq_id := 0; rq_conn := 0; rq_user := "alice";
       rq_T := encode_point ex_curve (client_share ex_curve 2 (bytes_to_nat (ex_hash "p"))); rq_handled := false |}.
Proof.
  split; [intros; reflexivity|].
  eexists _, _, _. split; [vm_compute; reflexivity|]. split; [reflexivity|]. split; [reflexivity|].
  split; [discriminate|]. vm_compute. reflexivity.
Qed.

(** C70: asking for the username of a connection without any exchange dereferences NULL. *)
Theorem C70_username_refuted : exists h s l,
  run ex_crypto init h = Some (s, l) /\ get_username s 0 = UUndefined.
Proof. exists [Connect 0 "c" "d"]. eexists _, _. split; vm_compute; reflexivity. Qed.
Print Assumptions C70_username_refuted.

(** Missing in the partial statement: connections which are not authenticated. *)
Theorem C70_username_partial : forall C h s l c,
  run C init h = Some (s, l) -> is_password_authenticated s c = true -> get_username s c <> UUndefined.
Proof. exact username_defined. Qed.
Print Assumptions C70_username_partial.
