(** The lock discipline of the API. *)
From Coq Require Import List Bool Arith String.
From Verif Require Import LockModel LockSpec LockCheck LockCode LockRun LockThreads.
Import ListNotations.
Open Scope string_scope.

(** The SDK, and the SDK whose users call only some functions. *)
Definition sdk_with (fs : list string) : program := {| code := functions; api := fs; callbacks := core_callbacks; listeners := listener_callbacks |}.
Definition sdk : program := sdk_with api_functions.
Definition without (bad : list string) : list string := filter (fun f => negb (existsb (String.eqb f) bad)) api_functions.
(** The three functions which may return with the lock of the device. *)
Definition keeps_lock : list string := ["nabto_device_stream_init_listener"; "nabto_device_stream_init_listener_ephemeral"; "nabto_device_virtual_stream_read_all"].
(** The functions which use state of the device without its lock. *)
Definition without_lock : list string := ["nabto_device_new"; "nabto_device_stop"; "nabto_device_free"; "nabto_device_get_app_name"; "nabto_device_get_app_version"; "nabto_device_ice_servers_request_new"; "nabto_device_listener_new"].

Lemma leave : forall f ch t, choose sdk 30 ch (Call f) = Some (t, Norm, []) -> exec sdk (Call f) t Norm. Proof. intros. eapply choose_exec; eauto. Qed.
(** When the port is in use, or when memory runs out, nabto_device_stream_init_listener returns and the lock of the device stays locked; so does the ephemeral variant. *)
Theorem C35_stream_listener_refuted : forall f, f = "nabto_device_stream_init_listener" \/ f = "nabto_device_stream_init_listener_ephemeral" ->
  exists t, exec sdk (Call f) t Norm /\ held [] t = [Core].
Proof. intros f [-> | ->]; (eexists; split; [apply leave with (ch := [false; false; true]); vm_compute; reflexivity|vm_compute; reflexivity]). Qed.
(** So does nabto_device_virtual_stream_read_all when a read is in progress. *)
Theorem C35_read_all_refuted : exists t, exec sdk (Call "nabto_device_virtual_stream_read_all") t Norm /\ held [] t = [Core].
Proof. eexists. split; [apply leave with (ch := [true; true]); vm_compute; reflexivity|vm_compute; reflexivity]. Qed.
(** thread_event_queue_stop_blocking keeps the lock of the event queue when the queue is stopped already. *)
Theorem C35_stop_queue_refuted : exists t, exec sdk (Call "thread_event_queue_stop_blocking") t Norm /\ held [] t = [EvQ].
Proof. eexists. split; [apply leave with (ch := [true]); vm_compute; reflexivity|vm_compute; reflexivity]. Qed.
(** After such a call a thread has a mutex m and ends, or takes m again. It then stays so, and whoever takes m waits for ever. *)
Theorem C35_then_stuck : forall (m : lock * nat) (s s' : list thread) (th : thread),
  In th s -> In m (has th) -> todo th = [] \/ (exists t, todo th = (ALock (fst m), snd m) :: t) -> steps s s' ->
  In th s' /\ forall s1 th1 s2 t th2, s' = (s1 ++ th1 :: s2)%list -> todo th1 = (ALock (fst m), snd m) :: t -> ~ move (s1 ++ s2) th1 th2.
Proof.
  intros [l i] s s' th I H W S. cbn [fst snd] in *.
  assert (K : forall s1 th1 s2 t th2, In th (s1 ++ th1 :: s2) -> todo th1 = (ALock l, i) :: t -> ~ move (s1 ++ s2) th1 th2).
  { intros s1 th1 s2 t th2 X T M. apply in_app_or in X. cbn [In] in X. inversion M; subst; cbn [todo has] in *; try congruence; [|destruct H0; subst; congruence]. inversion T; subst.
    destruct X as [X|[X|X]]; [apply (H0 th); auto; apply in_or_app; auto|subst th; contradiction|apply (H0 th); auto; apply in_or_app; auto]. }
  assert (J : In th s').
  { induction S as [|s s1 s2 th1 th2 S IH M]; [exact I|]. specialize (IH I). pose proof IH as X. apply in_app_or in X. cbn [In] in X. destruct X as [X|[X|X]]; [apply in_or_app; auto| |apply in_or_app; right; right; auto].
    subst th1. exfalso. destruct W as [W|[t W]]; [inversion M; subst; discriminate W|apply (K _ _ _ _ _ IH W M)]. }
  split; [exact J|]. intros s1 th1 s2 t th2 -> T. apply (K _ _ _ _ _ J T).
Qed.
Print Assumptions C35_then_stuck.

Lemma good_cb : forallb (call_ok (sdk_with (without keeps_lock)) false 20 [Core]) core_callbacks = true. Proof. vm_compute. reflexivity. Qed.
Lemma good_api : forallb (call_ok (sdk_with (without keeps_lock)) false 20 []) (without keeps_lock) = true. Proof. vm_compute. reflexivity. Qed.
Lemma good_threads : forallb (call_ok (sdk_with (without keeps_lock)) false 20 []) threads = true. Proof. vm_compute. reflexivity. Qed.
Lemma good_call : forall f t e, In f (without keeps_lock) \/ In f threads -> exec (sdk_with (without keeps_lock)) (Call f) t e -> orderly [] t /\ (e = Norm -> held [] t = []).
Proof.
  intros f t e F E. apply (check_sound (sdk_with (without keeps_lock)) false 20 good_cb good_api 20 [] f t e); [|exact E].
  destruct F as [F|F]; [pose proof good_api as G|pose proof good_threads as G]; rewrite forallb_forall in G; apply G; exact F.
Qed.
(** Every other function of the API returns with no lock held, on every path; so do the threads of the SDK, whose callbacks of users call those functions. *)
Theorem C35_release_partial : forall f t, In f (without keeps_lock) \/ In f threads -> exec (sdk_with (without keeps_lock)) (Call f) t Norm -> held [] t = [].
Proof. intros f t F E. exact (proj2 (good_call f t Norm F E) eq_refl). Qed.
Print Assumptions C35_release_partial.
(** A callback of the user, a wait and a join do not happen with locks: callbacks and joins happen without any, a wait with its own mutex alone. *)
Theorem C35_user_partial : forall f t e, In f (without keeps_lock) \/ In f threads -> exec (sdk_with (without keeps_lock)) (Call f) t e ->
  forall t1 t2, (t = t1 ++ AUser :: t2 \/ t = t1 ++ AJoin :: t2 -> held [] t1 = [])%list /\ forall l, t = (t1 ++ AWait l :: t2)%list -> held [] t1 = [l].
Proof.
  intros f t e F E t1 t2. pose proof (proj1 (good_call f t e F E)) as O. split.
  - intros [X|X]; exact (O _ _ _ X ltac:(discriminate)).
  - intros l X. exact (O _ _ _ X ltac:(discriminate)).
Qed.
Print Assumptions C35_user_partial.
(** And a lock is released only by who has it. *)
Theorem C35_unlock_partial : forall f t e, In f (without keeps_lock) \/ In f threads -> exec (sdk_with (without keeps_lock)) (Call f) t e ->
  forall t1 l t2, t = (t1 ++ AUnlock l :: t2)%list -> In l (held [] t1).
Proof. intros f t e F E t1 l t2 X. exact (proj1 (good_call f t e F E) _ _ _ X ltac:(discriminate)). Qed.
Print Assumptions C35_unlock_partial.
(** Callbacks of the core are called with the lock of the device and leave it locked. *)
Theorem C35_callbacks : forall f t, In f core_callbacks -> exec (sdk_with (without keeps_lock)) (Call f) t Norm -> held [Core] t = [Core].
Proof.
  intros f t F E. apply (check_sound (sdk_with (without keeps_lock)) false 20 good_cb good_api 20 [Core] f t Norm); [|exact E|reflexivity]. pose proof good_cb as G. rewrite forallb_forall in G. apply G. exact F.
Qed.
Print Assumptions C35_callbacks.

(** * Order and deadlock *)
(** Locks are taken in one order: device, future, future queue, event queue; and none twice. *)
Theorem C84_order_partial : forall f t e, In f (without keeps_lock) \/ In f threads -> exec (sdk_with (without keeps_lock)) (Call f) t e ->
  forall t1 l t2, t = (t1 ++ ALock l :: t2)%list -> forall l', In l' (held [] t1) -> rank l' < rank l.
Proof. intros f t e F E t1 l t2 X. exact (proj1 (good_call f t e F E) _ _ _ X ltac:(discriminate)). Qed.
Print Assumptions C84_order_partial.
(** A thread which runs calls of the API one after the other, or one of the threads of the SDK. Which mutex of its kind a lock takes is arbitrary. *)
Definition runs (th : thread) : Prop := has th = [] /\
  (some (sdk_with (without keeps_lock)) (without keeps_lock) (map fst (todo th)) Norm \/ exists f, In f threads /\ exec (sdk_with (without keeps_lock)) (Call f) (map fst (todo th)) Norm).
Lemma held_app : forall a b h, held h (a ++ b) = held (held h a) b. Proof. intros. apply fold_left_app. Qed.
Lemma orderly_app : forall a b h, orderly h a -> orderly (held h a) b -> orderly h (a ++ b).
Proof.
  intros a b h A B t1 x t2 E N. revert h A B t1 E. induction a as [|y a IH]; intros h A B t1 E; [apply (B t1 x t2 E N)|].
  destruct t1 as [|z t1]; inversion E; subst; [apply (A [] x a eq_refl N)|]. apply (IH (held1 h z)); [apply (orderly_tail _ _ _ A)|exact B|assumption].
Qed.
Lemma some_good : forall fs t e, some (sdk_with (without keeps_lock)) fs t e -> fs = without keeps_lock -> orderly [] t /\ (e = Norm -> held [] t = []).
Proof.
  intros fs t e S. induction S as [fs|fs f t F E|fs f t t' e F E S IH]; intros ->.
  - split; [intros t1 a t2 E; destruct t1; discriminate|reflexivity].
  - destruct (good_call f t CutOff (or_introl F) E) as [O H]. split; [exact O|discriminate].
  - destruct (good_call f t Norm (or_introl F) E) as [O H]. specialize (H eq_refl). destruct (IH eq_refl) as [O' H']. split; [apply orderly_app; [exact O|rewrite H; exact O']|]. intros Z. rewrite held_app, H. auto.
Qed.
(** Any number of threads which run so, in any interleaving: no mutex has two owners, and as long as a thread is neither at its end nor joins another, some thread can go on. *)
Theorem C84_no_deadlock_partial : forall s s', Forall runs s -> steps s s' -> NoDup (flat_map has s') /\ (can_go s' \/ Forall at_rest s').
Proof.
  intros s s' R S. apply (no_deadlock s s'); [|exact S]. eapply Forall_impl; [|exact R]. intros th [H [T|(f & F & E)]]; split; auto.
  - destruct (some_good _ _ _ T eq_refl) as [O D]. auto.
  - destruct (good_call f _ _ (or_intror F) E) as [O D]. auto.
Qed.
Print Assumptions C84_no_deadlock_partial.

(** * The state of the device *)
(** nabto_device_listener_new adds to the list of the listeners of the device, and nabto_device_ice_servers_request_new uses the CoAP client of the device, without the lock. *)
Theorem C85_refuted : (exists t1 t2, exec sdk (Call "nabto_device_listener_new") (t1 ++ ATouch :: t2) Norm /\ held [] t1 = []) /\
  (exists t1 t2, exec sdk (Call "nabto_device_ice_servers_request_new") (t1 ++ ATouch :: t2) Norm /\ held [] t1 = []).
Proof.
  split.
  - exists [], [ALock Core; AUnlock Core]. split; [apply leave with (ch := [false]); vm_compute; reflexivity|reflexivity].
  - exists [], []. split; [apply leave with (ch := [true]); vm_compute; reflexivity|reflexivity].
Qed.
Print Assumptions C85_refuted.
(** nabto_device_stop goes through that list without the lock. *)
Theorem C85_stop_refuted : exists t1 t2, exec sdk (Call "nabto_device_stop") (t1 ++ ATouch :: t2) Norm /\ held [] t1 = [].
Proof. eexists [], _. split; [apply leave with (ch := [false; false; false; true; true]); vm_compute; reflexivity|reflexivity]. Qed.
Print Assumptions C85_stop_refuted.
Definition careful : list string := without (keeps_lock ++ without_lock).
Lemma strict_cb : forallb (call_ok (sdk_with careful) true 20 [Core]) core_callbacks = true. Proof. vm_compute. reflexivity. Qed.
Lemma strict_api : forallb (call_ok (sdk_with careful) true 20 []) careful = true. Proof. vm_compute. reflexivity. Qed.
Lemma strict_threads : forallb (call_ok (sdk_with careful) true 20 []) threads = true. Proof. vm_compute. reflexivity. Qed.
(** Every other function of the API uses the core and the lists of the device only with the lock of the device; so do the threads of the SDK. *)
Theorem C85_core_locked_partial : forall f t e, In f careful \/ In f threads -> exec (sdk_with careful) (Call f) t e -> forall t1 t2, t = (t1 ++ ATouch :: t2)%list -> In Core (held [] t1).
Proof.
  intros f t e F E t1 t2 X. assert (C : call_ok (sdk_with careful) true 20 [] f = true) by (destruct F as [F|F]; [pose proof strict_api as G|pose proof strict_threads as G]; rewrite forallb_forall in G; apply G; exact F).
  pose proof (check_sound (sdk_with careful) true 20 strict_cb strict_api 20 [] f t e C E) as [A _]. exact (A _ _ _ X).
Qed.
Print Assumptions C85_core_locked_partial.
(** And inside callbacks of the core, which have it, it stays locked while the core is used. *)
Theorem C85_callbacks_partial : forall f t e, In f core_callbacks -> exec (sdk_with careful) (Call f) t e -> forall t1 t2, t = (t1 ++ ATouch :: t2)%list -> In Core (held [Core] t1).
Proof.
  intros f t e F E t1 t2 X. assert (C : call_ok (sdk_with careful) true 20 [Core] f = true) by (pose proof strict_cb as G; rewrite forallb_forall in G; apply G; exact F).
  pose proof (check_sound (sdk_with careful) true 20 strict_cb strict_api 20 [Core] f t e C E) as [A _]. exact (A _ _ _ X).
Qed.
Print Assumptions C85_callbacks_partial.

(** * Examples *)
Lemma leave_good : forall f ch t, choose (sdk_with (without keeps_lock)) 30 ch (Call f) = Some (t, Norm, []) -> exec (sdk_with (without keeps_lock)) (Call f) t Norm. Proof. intros. eapply choose_exec; eauto. Qed.
(** 166 of the 169 functions are covered by C35 and C84, 159 by C85. *)
Example C35_ex_counts : (List.length api_functions, List.length (without keeps_lock), List.length careful, List.length functions) = (169, 166, 159, 235). Proof. vm_compute. reflexivity. Qed.
(** A read of a stream: the lock of the future, then that of the device. *)
Example C35_ex_read : exec (sdk_with (without keeps_lock)) (Call "nabto_device_stream_read_some") [ALock Fut; AUnlock Fut; ALock Core; ATouch; AUnlock Core] Norm.
Proof. apply leave_good with (ch := [false]). vm_compute. reflexivity. Qed.
(** Three threads: the event thread runs events, a user waits for a future, another reads a stream. *)
Definition waiter : thread := {| todo := [(ALock Fut, 7); (AWait Fut, 7); (AUnlock Fut, 7)]; has := [] |}.
Definition reader : thread := {| todo := [(ALock Fut, 7); (AUnlock Fut, 7); (ALock Core, 0); (ATouch, 0); (AUnlock Core, 0)]; has := [] |}.
Definition worker : thread := {| todo := [(ALock EvQ, 0); (AUnlock EvQ, 0); (ALock Core, 0); (ATouch, 0); (AUnlock Core, 0)]; has := [] |}.
Lemma one_call : forall f t, In f (without keeps_lock) -> exec (sdk_with (without keeps_lock)) (Call f) t Norm -> some (sdk_with (without keeps_lock)) (without keeps_lock) t Norm.
Proof. intros f t F E. rewrite <- (app_nil_r t). eapply s_cons; [exact F|exact E|constructor]. Qed.
Lemma is_good : forall f, existsb (String.eqb f) (without keeps_lock) = true -> In f (without keeps_lock).
Proof. intros f E. apply existsb_exists in E. destruct E as (x & I & X). apply String.eqb_eq in X. subst x. exact I. Qed.
Example C84_ex_threads : Forall runs [waiter; reader; worker].
Proof.
  apply Forall_forall. intros th [<- |[<- |[<- |[]]]]; (split; [reflexivity|]).
  - left. apply one_call with (f := "nabto_device_future_wait"); [apply is_good; vm_compute; reflexivity|]. apply leave_good with (ch := [true]). vm_compute. reflexivity.
  - left. apply one_call with (f := "nabto_device_stream_read_some"); [apply is_good; vm_compute; reflexivity|]. apply leave_good with (ch := [false]). vm_compute. reflexivity.
  - right. exists "queue_thread". split; [right; left; reflexivity|]. apply leave_good with (ch := [true; true; true; false]). vm_compute. reflexivity.
Qed.
(** The first has the future, the second waits for it, the third has the device: the first can go on. *)
Example C84_ex_steps : steps [waiter; reader; worker]
  [{| todo := [(AWait Fut, 7); (AUnlock Fut, 7)]; has := [(Fut, 7)] |}; reader; {| todo := [(ATouch, 0); (AUnlock Core, 0)]; has := [(Core, 0)] |}].
Proof.
  assert (N : forall m s, forallb (fun th => match has th with [] => true | _ => false end) s = true -> free m s) by (intros m s E th I; rewrite forallb_forall in E; specialize (E th I); destruct (has th); [intros []|discriminate]).
  eapply (s_move _ [] [reader; _] waiter); [|constructor; [|intros []]].
  2:{ intros th [<- |[<- |[]]]; cbn; [intros []|intros [E|[]]; discriminate]. }
  eapply (s_move _ [waiter; reader] []); [|constructor; [apply N; reflexivity|intros []]].
  eapply (s_move _ [waiter; reader] []); [|eapply (m_unlock _ EvQ 0 _ [(EvQ, 0)])].
  eapply (s_move _ [waiter; reader] [] worker); [constructor|]. constructor; [apply N; reflexivity|intros []].
Qed.
(** A thread which has called nabto_device_stream_init_listener for a port in use and calls the API again is stuck. *)
Example C35_ex_stuck : forall s', steps [{| todo := [(ALock Core, 0); (ATouch, 0); (AUnlock Core, 0)]; has := [(Core, 0)] |}; reader] s' -> In {| todo := [(ALock Core, 0); (ATouch, 0); (AUnlock Core, 0)]; has := [(Core, 0)] |} s'.
Proof. intros s' S. eapply (C35_then_stuck (Core, 0)); [|left; reflexivity|right; eexists; reflexivity|exact S]. left. reflexivity. Qed.
Example C85_ex_read : exec (sdk_with careful) (Call "nabto_device_stream_read_some") [ALock Fut; AUnlock Fut; ALock Core; ATouch; AUnlock Core] Norm /\ In "nabto_device_stream_read_some" careful.
Proof. split; [eapply choose_exec with (n := 30) (ch := [false]); vm_compute; reflexivity|]. assert (E : existsb (String.eqb "nabto_device_stream_read_some") careful = true) by (vm_compute; reflexivity). apply existsb_exists in E. destruct E as (x & I & X). apply String.eqb_eq in X. subst x. exact I. Qed.
