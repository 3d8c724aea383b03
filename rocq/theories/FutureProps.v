(** Properties C31 and C32: futures. *)
From Coq Require Import List Bool Arith Lia.
From Verif Require Import FutureModel FutureSpec FutureProofs.
Import ListNotations.

(** ** C31 *)

(** Used as documented, nothing is undefined, and the callbacks which are called are the ones which are due, each once,
    in the order in which they became due, with the result of the operation and the data of set_callback. What
    is due and not called yet is in the hands of the queue thread. *)
Theorem C31_callbacks_once : forall h, obeys init fresh h ->
  exists s t rest, run init h = Some (s, t) /\ due fresh t = calls t ++ rest /\
    (s_queue s = [] -> s_thr s = QIdle \/ s_thr s = QDone -> rest = []).
Proof.
  intros h O. destruct (run_inv h init fresh inv_init O) as (s & t & R & I & P).
  exists s, t, (pending s (final fresh t)). split; [exact R|]. split; [exact P|].
  intros Q T. unfold pending. rewrite Q. destruct T as [-> | ->]; reflexivity.
Qed.
Print Assumptions C31_callbacks_once.

(** The queue thread calls all of them when it is let run, also when it has been told to stop. *)
Theorem C31_callbacks_all : forall h s t, obeys init fresh h -> run init h = Some (s, t) -> s_thr s <> QDone ->
  exists n s' t', run init (h ++ repeat QStep n) = Some (s', t ++ t') /\ calls (t ++ t') = due fresh t.
Proof.
  intros h s t O R ND. destruct (run_inv h init fresh inv_init O) as (s0 & t0 & R0 & I & P).
  rewrite R in R0. injection R0 as <- <-. change (pending init fresh ++ due fresh t) with (due fresh t) in P.
  destruct (drain (left s) s (final fresh t) (le_n _) I ND) as [O1 D].
  destruct (run_inv _ _ _ I O1) as (s' & t' & R' & I' & P').
  exists (left s), s', t'. rewrite run_app, R, R'. split; [reflexivity|].
  destruct (D s' t' R') as [D1 D2]. rewrite D1, D2, !app_nil_r in P'.
  rewrite P, P'. unfold calls. rewrite flat_map_app. reflexivity.
Qed.
Print Assumptions C31_callbacks_all.

(** Nothing is due when the queue thread returns. *)
Theorem C31_nothing_lost_at_stop : forall h o s t, obeys init fresh (h ++ [o]) -> run init (h ++ [o]) = Some (s, t) ->
  (forall s0 t0, run init h = Some (s0, t0) -> s_thr s0 <> QDone) -> s_thr s = QDone ->
  calls t = due fresh t.
Proof.
  intros h o s t O R ND T. destruct (run_inv _ init fresh inv_init O) as (s0 & t0 & R0 & I & P).
  rewrite R in R0. injection R0 as <- <-. rewrite run_app in R.
  destruct (run init h) as [[s1 t1]|] eqn:R1; [|discriminate]. specialize (ND s1 t1 eq_refl).
  cbn [run] in R. destruct (step s1 o) as [[s2 l]|] eqn:S; [|discriminate]. injection R as <- <-.
  assert (Q : s_queue s2 = []).
  { destruct o as [f|f ec|f c d|f|u f|u f|u|f| | ]; cbn [step] in S;
      try (destruct (f_freed _); [discriminate|]).
    - injection S as <- <-. contradiction.
    - unfold resolve, queue_post in S. destruct (f_cb _); [destruct (existsb _ _); [discriminate|]|]; injection S as <- <-; contradiction.
    - unfold set_callback, queue_post in S. destruct (f_ready _); [destruct (existsb _ _); [discriminate|]|]; injection S as <- <-; contradiction.
    - injection S as <- <-. contradiction.
    - destruct (f_ready _); injection S as <- <-; contradiction.
    - destruct (f_ready _); injection S as <- <-; contradiction.
    - destruct (get_waiter u (s_wait s1)) as [[w l']|]; [destruct (f_freed _); [discriminate|]|]; injection S as <- <-; contradiction.
    - injection S as <- <-. contradiction.
    - destruct (s_thr s1) as [|f|f c| ] eqn:T1.
      + destruct (s_queue s1) as [|f q] eqn:Q1.
        * injection S as <- <-. destruct (s_stop s1); exact Q1.
        * destruct (f_freed _); [discriminate|]. injection S as <- <-. discriminate.
      + destruct (f_freed _); [discriminate|]. injection S as <- <-. cbn in T. destruct (f_cb _); discriminate.
      + destruct (f_freed _); [discriminate|]. injection S as <- <-. discriminate.
      + contradiction.
    - injection S as <- <-. contradiction. }
  unfold pending in P. rewrite T, Q in P. cbn in P. rewrite app_nil_r in P. symmetry. exact P.
Qed.
Print Assumptions C31_nothing_lost_at_stop.

(** The error code is the result of the last operation, NOT_RESOLVED as long as there is none; for every history, also
    ones in which futures are misused. *)
Theorem C31_error_code : forall h s t p f l q, run init h = Some (s, t) -> t = p ++ (ErrorCode f, l) :: q ->
  l = [Code (code_of (result f None p))].
Proof.
  intros h s t p f l q R E. destruct (run_split _ _ _ _ _ _ _ R E) as (h1 & h2 & s1 & s2 & _ & R1 & S & _).
  destruct (good_at _ _ _ f R1) as [G1 G2]. cbn [fst snd step] in S.
  destruct (f_freed _); [discriminate|]. injection S as _ <-. unfold error_code. rewrite G1, G2.
  destruct (result f None p); reflexivity.
Qed.
Print Assumptions C31_error_code.

(** Why a callback must be set once: set again before it has been called, the list of the queue is corrupted. *)
Theorem C31_two_callbacks_refuted : exists h1 f c1 d1 c2 d2,
  obeys init fresh (h1 ++ [SetCb f c1 d1]) /\ run init (h1 ++ [SetCb f c1 d1]) <> None /\
  run init (h1 ++ [SetCb f c1 d1; SetCb f c2 d2]) = None.
Proof. exists [Reset 0; Resolve 0 5], 0, 1, 2, 3, 4. vm_compute. repeat split; auto. discriminate. Qed.
Print Assumptions C31_two_callbacks_refuted.

Example C31_ex : let h := [Reset 0; Reset 1; SetCb 0 7 70; Resolve 1 3; SetCb 1 8 80; Resolve 0 0; QStop; QStep; QStep; QStep;
    Reset 1; ErrorCode 1; QStep; QStep; QStep; QStep; Free 0] in
  obeys init fresh h /\
  exists s t, run init h = Some (s, t) /\ calls t = [(1, 8, 3, 80); (0, 7, 0, 70)] /\ due fresh t = calls t /\ s_thr s = QDone.
Proof. cbv zeta. split; [vm_compute; intuition discriminate|]. eexists _, _. split; [vm_compute; reflexivity|]. vm_compute. auto. Qed.

(** ** C32 *)

(** A wait may come back with OK when the future is not resolved: a spurious wake up is taken for the
    result. *)
Theorem C32_wait_refuted : exists h s t p q f th,
  obeys init fresh h /\ run init h = Some (s, t) /\ t = p ++ (Wake th, [Ret th 0]) :: q /\ In (Wait th f, []) p /\
  result f None p = None.
Proof.
  eexists [Reset 0; Wait 9 0; Wake 9], _, _, [(Reset 0, []); (Wait 9 0, [])], [], 0, 9.
  split; [vm_compute; intuition discriminate|]. split; [vm_compute; reflexivity|].
  split; [reflexivity|]. split; [right; left; reflexivity|reflexivity].
Qed.
Print Assumptions C32_wait_refuted.

(** Without spurious wake ups a wait returns the result of the operation: whenever it returns and the
    future is resolved it gives its result. Missing: returns before the future is resolved. *)
Theorem C32_wait_partial : forall h s t p o l q th ec, run init h = Some (s, t) -> t = p ++ (o, l) :: q ->
  In (Ret th ec) l ->
  exists f, (o = Wait th f \/ o = TimedWait th f \/
             (exists s1 w rest, o = Wake th /\ (exists h1, run init h1 = Some (s1, p)) /\
                get_waiter th (s_wait s1) = Some (w, rest) /\ w_fut w = f)) /\
    forall r, result f None p = Some r -> ec = r.
Proof.
  intros h s t p o l q th ec R E I. destruct (run_split _ _ _ _ _ _ _ R E) as (h1 & h2 & s1 & s2 & _ & R1 & S & _).
  cbn [fst snd] in S. destruct o as [f|f e|f c d|f|u f|u f|u|f| | ]; cbn [step] in S.
  - destruct (f_freed _); [discriminate|]. injection S as _ <-. destruct I.
  - destruct (f_freed _); [discriminate|]. destruct (resolve s1 f e); [|discriminate]. injection S as _ <-. destruct I.
  - destruct (f_freed _); [discriminate|]. destruct (set_callback s1 f c d); [|discriminate]. injection S as _ <-. destruct I.
  - destruct (f_freed _); [discriminate|]. injection S as _ <-. destruct I as [I|[]]; discriminate.
  - destruct (f_freed _); [discriminate|]. destruct (good_at _ _ _ f R1) as [G1 G2].
    destruct (f_ready _); injection S as _ <-; [|destruct I]. destruct I as [I|[]]. injection I as -> <-.
    exists f. split; [left; reflexivity|]. intros r RE. rewrite RE in G2. exact G2.
  - destruct (f_freed _); [discriminate|]. destruct (good_at _ _ _ f R1) as [G1 G2].
    destruct (f_ready _); injection S as _ <-; [|destruct I]. destruct I as [I|[]]. injection I as -> <-.
    exists f. split; [right; left; reflexivity|]. intros r RE. rewrite RE in G2. exact G2.
  - destruct (get_waiter u (s_wait s1)) as [[w rest]|] eqn:GW; [|injection S as _ <-; destruct I].
    destruct (f_freed _); [discriminate|]. injection S as _ <-. destruct I as [I|[]]. injection I as -> <-.
    exists (w_fut w). split.
    + right. right. exists s1, w, rest. repeat split; auto. exists h1. exact R1.
    + intros r RE. destruct (good_at _ _ _ (w_fut w) R1) as [G1 G2]. unfold wait_result. rewrite G1, G2, RE.
      destruct (w_timed w); reflexivity.
  - destruct (f_freed _); [discriminate|]. injection S as _ <-. destruct I.
  - destruct (s_thr s1) as [|f|f c| ].
    + destruct (s_queue s1); [|destruct (f_freed _); [discriminate|]]; injection S as _ <-; destruct I.
    + destruct (f_freed _); [discriminate|]. injection S as _ <-. destruct I.
    + destruct (f_freed _); [discriminate|]. injection S as _ <-. destruct I as [I|[]]; discriminate.
    + injection S as _ <-. destruct I.
  - injection S as _ <-. destruct I.
Qed.
Print Assumptions C32_wait_partial.

(** A timed wait gives the result, or NOT_RESOLVED when there is none, whatever wakes it up. *)
Theorem C32_timed_wait : forall h1 s1 t1 th s2 l w rest, run init h1 = Some (s1, t1) ->
  get_waiter th (s_wait s1) = Some (w, rest) -> w_timed w = true -> step s1 (Wake th) = Some (s2, l) ->
  l = [Ret th (code_of (result (w_fut w) None t1))].
Proof.
  intros h1 s1 t1 th s2 l w rest R G T S. cbn [step] in S. rewrite G in S.
  destruct (f_freed _); [discriminate|]. injection S as _ <-.
  destruct (good_at _ _ _ (w_fut w) R) as [G1 G2]. unfold wait_result. rewrite T, G1, G2.
  destruct (result (w_fut w) None t1); reflexivity.
Qed.
Print Assumptions C32_timed_wait.

(** A thread which waits alone for a future without callback is woken when it is resolved. *)
Theorem C32_woken_partial : forall f h s t w, calm f init h -> run init h = Some (s, t) ->
  In w (s_wait s) -> w_fut w = f -> result f None t <> None -> w_signal w = true.
Proof.
  intros f h s t w C R I F N. destruct (run_lone _ _ _ _ _ (lone_init f) C R) as (_ & _ & L).
  apply L; auto. destruct (good_at _ _ _ f R) as [G _]. rewrite G. destruct (result f None t); congruence.
Qed.
Print Assumptions C32_woken_partial.

(** Of two threads which wait for the same future one is never woken; nor is a thread which waits for a
    future that has a callback, even when the callback has been called. *)
Theorem C32_woken_refuted : 
  (exists h s t w, obeys init fresh h /\ run init h = Some (s, t) /\ In w (s_wait s) /\ w_signal w = false /\
     result (w_fut w) None t = Some 3 /\ ~ (exists c d, In (SetCb (w_fut w) c d) h)) /\
  (exists h s t w, obeys init fresh h /\ run init h = Some (s, t) /\ s_wait s = [w] /\ w_signal w = false /\
     result (w_fut w) None t = Some 3 /\ calls t = due fresh t).
Proof.
  split.
  - eexists [Reset 0; Wait 8 0; Wait 9 0; Resolve 0 3], _, _, {| w_thread := 9; w_fut := 0; w_timed := false; w_signal := false |}.
    split; [vm_compute; intuition discriminate|]. split; [vm_compute; reflexivity|].
    split; [right; left; reflexivity|]. split; [reflexivity|]. split; [reflexivity|].
    intros (c & d & H). cbn in H. repeat destruct H as [H|H]; try discriminate. exact H.
  - eexists [Reset 0; Wait 8 0; SetCb 0 1 2; Resolve 0 3; QStep; QStep; QStep], _, _, {| w_thread := 8; w_fut := 0; w_timed := false; w_signal := false |}.
    split; [vm_compute; intuition discriminate|]. split; [vm_compute; reflexivity|].
    split; [reflexivity|]. split; [reflexivity|]. split; reflexivity.
Qed.
Print Assumptions C32_woken_refuted.

Example C32_ex : let h := [Reset 0; Wait 9 0; TimedWait 4 1; Resolve 0 3; Wake 9; Wake 4] in
  calm 0 init h /\ exists s t, run init h = Some (s, t) /\ map snd t = [[]; []; []; []; [Ret 9 3]; [Ret 4 not_resolved]].
Proof. split; [vm_compute; intuition discriminate|]. eexists _, _. split; vm_compute; reflexivity. Qed.
