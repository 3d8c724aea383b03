(** Virtual CoAP requests: the requests of the client against the history. *)
From Coq Require Import List Bool Arith Lia Ascii String.
From Verif Require Import VcoModel VcoSpec VcoProofs VcoHist.
Import ListNotations.
Local Open Scope list_scope.

Definition freedb (n : nat) (l : list op) : bool := existsb (fun v => match v with Free m => Nat.eqb m n | _ => false end) l.
Definition closedb (l : list op) : bool := existsb (fun v => match v with ConnFree => true | _ => false end) l.
Definition paths (l : list op) : list (list ascii) := flat_map (fun v => match v with New p true => [p] | _ => [] end) l.
Lemma freedb_snoc n l v : freedb n (l ++ [v]) = freedb n l || match v with Free m => Nat.eqb m n | _ => false end.
Proof. unfold freedb. rewrite existsb_app. cbn [existsb]. now rewrite orb_false_r. Qed.
Lemma closedb_snoc l v : closedb (l ++ [v]) = closedb l || match v with ConnFree => true | _ => false end.
Proof. unfold closedb. rewrite existsb_app. cbn [existsb]. now rewrite orb_false_r. Qed.
Lemma freedb_in n l : freedb n l = true <-> In (Free n) l.
Proof.
  unfold freedb. rewrite existsb_exists. split.
  - intros (v & H & E). destruct v; try discriminate. apply Nat.eqb_eq in E. now subst.
  - intros H. exists (Free n). split; [exact H|]. apply Nat.eqb_refl.
Qed.
Lemma closedb_in l : closedb l = true <-> In ConnFree l.
Proof. unfold closedb. rewrite existsb_exists. split; [intros (v & H & E); destruct v; try discriminate; exact H | intros H; exists ConnFree; auto]. Qed.
Lemma format_snoc n l v : format_of n (l ++ [v]) = match v with SetFormat m f => if Nat.eqb m n then f else format_of n l | _ => format_of n l end.
Proof. unfold format_of. rewrite fold_left_app. reflexivity. Qed.
Lemma payload_snoc n l v : payload_of n (l ++ [v]) = match v with SetPayload m d true => if Nat.eqb m n then d else payload_of n l | _ => payload_of n l end.
Proof. unfold payload_of. rewrite fold_left_app. reflexivity. Qed.
Lemma execs_snoc l v : execs (l ++ [v]) = execs l ++ match v with Execute n _ _ _ => [n] | _ => [] end.
Proof. unfold execs. rewrite flat_map_app. cbn [flat_map]. now rewrite app_nil_r. Qed.
Lemma paths_snoc l v : paths (l ++ [v]) = paths l ++ match v with New p true => [p] | _ => [] end.
Proof. unfold paths. rewrite flat_map_app. cbn [flat_map]. now rewrite app_nil_r. Qed.

Definition ApiP (l : list op) (n : nat) (a : api) : Prop :=
  live a = negb (freedb n l) /\ (exists p, nth_error (paths l) n = Some p /\ segments p = Some (segs a)) /\ fmt a = format_of n l /\
  match pay a with Some p => p = payload_of n l /\ size a = List.length p | None => size a = List.length (payload_of n l) end.
Record ApiI (l : list op) (s : st) (o : list out) : Prop := {
  A_conn : conn s = negb (closedb l);
  A_len : List.length (paths l) = List.length (apis s);
  A_created : forall n, In (Created n) o <-> n < List.length (apis s);
  A_api : forall n a, nth_error (apis s) n = Some a -> ApiP l n a;
  A_none : forall n, List.length (apis s) <= n -> freedb n l = false /\ format_of n l = 0 /\ payload_of n l = [] /\ ~ In n (execs l)
}.
(** The values of a request which a step does not change. *)
Definition same_api (a a' : api) : Prop := live a' = live a /\ segs a' = segs a /\ fmt a' = fmt a /\ pay a' = pay a /\ size a' = size a.
Lemma ApiP_same l l' n a a' : same_api a a' -> freedb n l' = freedb n l -> paths l' = paths l -> format_of n l' = format_of n l -> payload_of n l' = payload_of n l -> ApiP l n a -> ApiP l' n a'.
Proof. intros (E1 & E2 & E3 & E4 & E5) F1 F2 F3 F4 P. unfold ApiP. rewrite E1, E2, E3, E4, E5, F1, F2, F3, F4. exact P. Qed.
Lemma api_frame l v s s' o o' : ApiI l s o -> conn s' = conn s -> (v <> ConnFree) ->
  List.length (apis s') = List.length (apis s) -> (forall n a', nth_error (apis s') n = Some a' -> exists a, nth_error (apis s) n = Some a /\ same_api a a') ->
  (forall n, In (Created n) o' -> False) ->
  match v with New _ true | SetPayload _ _ _ | SetFormat _ _ | Free _ => False | Execute n _ _ _ => n < List.length (apis s) | _ => True end ->
  ApiI (l ++ [v]) s' (o ++ o').
Proof.
  intros [I1 I2 I3 I4 I5] Hc Nc Hl Hn Ho Hv.
  assert (F : forall n, freedb n (l ++ [v]) = freedb n l) by (intros n; rewrite freedb_snoc; destruct v; try contradiction; now rewrite orb_false_r).
  assert (P : paths (l ++ [v]) = paths l) by (rewrite paths_snoc; destruct v as [? []| | | | | | | | | | | | | |]; try contradiction; now rewrite app_nil_r).
  assert (M : forall n, format_of n (l ++ [v]) = format_of n l) by (intros n; rewrite format_snoc; destruct v; try contradiction; reflexivity).
  assert (Y : forall n, payload_of n (l ++ [v]) = payload_of n l) by (intros n; rewrite payload_snoc; destruct v; try contradiction; reflexivity).
  constructor.
  - rewrite Hc, I1, closedb_snoc. destruct v; try congruence; now rewrite orb_false_r.
  - rewrite P, Hl. exact I2.
  - intros n. rewrite in_app_iff, I3, Hl. split; [intros [X|X]; [exact X|destruct (Ho _ X)]|auto].
  - intros n a' E. destruct (Hn _ _ E) as (a & Ea & Sa). eapply ApiP_same; eauto.
  - intros n Hle. rewrite Hl in Hle. rewrite F, M, Y, execs_snoc. destruct (I5 n Hle) as (J1 & J2 & J3 & J4). repeat split; auto. rewrite in_app_iff. intros [X|X]; [auto|].
    destruct v; try contradiction. destruct X as [X|[]]. lia.
Qed.
Lemma same_refl a : same_api a a.
Proof. repeat split. Qed.
Lemma same_upd f s n : (forall a, same_api a (f a)) -> forall m a', nth_error (upd n f (apis s)) m = Some a' -> exists a, nth_error (apis s) m = Some a /\ same_api a a'.
Proof.
  intros F m a'. rewrite nth_upd. destruct (Nat.eqb m n); [|intros E; exists a'; split; [exact E|apply same_refl]].
  destruct (nth_error (apis s) m) as [a|]; cbn [option_map]; [|discriminate]. intros E. injection E as <-. exists a. auto.
Qed.
Lemma nth_lt {A} (l : list A) n x : nth_error l n = Some x -> n < List.length l.
Proof. intros H. apply nth_error_Some. congruence. Qed.
Lemma ApiI_init : ApiI [] init [].
Proof.
  constructor; cbn; auto.
  - intros n. split; [tauto|lia].
  - intros n a H. destruct n; discriminate.
Qed.
Lemma answer_same k g c s s' o : answer k g c s s' o -> conn s' = conn s /\ List.length (apis s') = List.length (apis s) /\ (forall n a', nth_error (apis s') n = Some a' -> exists a, nth_error (apis s) n = Some a /\ same_api a a') /\ (forall n, In (Created n) o -> False).
Proof.
  intros (H1 & H2 & [(E & H3 & ->) | (a & f & E & H3 & H4 & H5 & H6 & ->)]).
  - rewrite H3. split; [exact H1|]. split; [reflexivity|]. split; [intros n a' X; exists a'; split; [exact X|apply same_refl]|]. intros n [X|[]]; discriminate.
  - rewrite H6, len_upd. split; [exact H1|]. split; [reflexivity|]. split; [apply same_upd; repeat split|]. intros n [X|[X|[]]]; discriminate.
Qed.
Lemma api_step l v s o s' o' : ApiI l s o -> Does v s s' o' -> ApiI (l ++ [v]) s' (o ++ o').
Proof.
  intros I H.
  assert (SAME : apis s' = apis s -> forall n a', nth_error (apis s') n = Some a' -> exists a, nth_error (apis s) n = Some a /\ same_api a a') by (intros E n a' X; rewrite E in X; exists a'; split; [exact X|apply same_refl]).
  destruct v as [p a|n d al|n f|n f al found|n|n|n|n|k x|k d a|k f|k|k x m a|k|]; cbn [Does] in H.
  - destruct H as (H1 & H2 & H3 & [(-> & H4 & ->) | (g & -> & G & H4 & ->)]).
    + apply (api_frame l (New p false) s s'); auto; [discriminate | now rewrite H4 | intros n [X|[]]; discriminate].
    + destruct I as [I1 I2 I3 I4 I5]. constructor.
      * rewrite H2, I1, closedb_snoc. now rewrite orb_false_r.
      * rewrite paths_snoc, H4, !app_length, I2. reflexivity.
      * intros n. rewrite in_app_iff, I3, H4, app_length. cbn [In List.length]. split; [intros [X|[X|[]]]; [lia|injection X as <-; lia]|]. intros X. destruct (Nat.eq_dec n (List.length (apis s))) as [-> | N]; [right; left; reflexivity|left; lia].
      * intros n a' E. rewrite H4, nth_snoc in E. destruct (Nat.eqb_spec n (List.length (apis s))) as [-> | N].
        -- injection E as <-. unfold ApiP. destruct (I5 (List.length (apis s)) (Nat.le_refl _)) as (J1 & J2 & J3 & J4).
           rewrite freedb_snoc, format_snoc, payload_snoc, paths_snoc, J1, J2, J3. cbn [newapi live segs fmt pay size]. repeat split. exists p. rewrite nth_snoc, I2, Nat.eqb_refl. auto.
        -- destruct (I4 _ _ E) as (K1 & (q & K2 & K3) & K4 & K5). unfold ApiP. rewrite freedb_snoc, format_snoc, payload_snoc, paths_snoc, orb_false_r. repeat split; auto.
           exists q. split; [|exact K3]. rewrite nth_snoc. rewrite I2. rewrite (proj2 (Nat.eqb_neq n _)) by auto. exact K2.
      * intros n Hle. rewrite H4, app_length in Hle. cbn [List.length] in Hle. rewrite freedb_snoc, format_snoc, payload_snoc, execs_snoc, orb_false_r, app_nil_r. apply I5. lia.
  - destruct H as (a & Ea & El & H2 & H3 & H4).
    assert (L : List.length (apis s') = List.length (apis s)) by (destruct H4 as [(_ & -> & _) | (_ & -> & _)]; apply len_upd).
    destruct I as [I1 I2 I3 I4 I5]. constructor.
    + rewrite H2, I1, closedb_snoc. now rewrite orb_false_r.
    + rewrite paths_snoc, app_nil_r, L. exact I2.
    + intros m. rewrite in_app_iff, I3, L. split; [intros [X|X]; [exact X|]|auto]. destruct H4 as [(_ & _ & ->) | (_ & _ & ->)]; destruct X as [X|[]]; discriminate.
    + intros m a' E. destruct H4 as [(-> & H4 & ->) | (-> & H4 & ->)]; rewrite H4, nth_upd in E.
      * destruct (Nat.eqb_spec m n) as [-> | N].
        -- rewrite Ea in E. injection E as <-. destruct (I4 _ _ Ea) as (K1 & K2 & K4 & K5). unfold ApiP. rewrite freedb_snoc, format_snoc, payload_snoc, paths_snoc, orb_false_r, app_nil_r, Nat.eqb_refl. repeat split; auto.
        -- destruct (I4 _ _ E) as (K1 & K2 & K4 & K5). unfold ApiP. rewrite freedb_snoc, format_snoc, payload_snoc, paths_snoc, orb_false_r, app_nil_r, (proj2 (Nat.eqb_neq n m)) by auto. repeat split; auto.
      * destruct (Nat.eqb_spec m n) as [-> | N].
        -- rewrite Ea in E. injection E as <-. destruct (I4 _ _ Ea) as (K1 & K2 & K4 & K5). unfold ApiP. rewrite freedb_snoc, format_snoc, payload_snoc, paths_snoc, orb_false_r, app_nil_r. repeat split; auto.
           cbn [set_pay pay size]. destruct (pay a) as [q|]; [|exact K5]. destruct K5 as [-> K5]. exact K5.
        -- destruct (I4 _ _ E) as (K1 & K2 & K4 & K5). unfold ApiP. rewrite freedb_snoc, format_snoc, payload_snoc, paths_snoc, orb_false_r, app_nil_r. repeat split; auto.
    + intros m Hle. rewrite L in Hle. rewrite freedb_snoc, format_snoc, payload_snoc, execs_snoc, orb_false_r, app_nil_r. destruct (I5 m Hle) as (J1 & J2 & J3 & J4). repeat split; auto.
      destruct al; [|exact J3]. rewrite (proj2 (Nat.eqb_neq n m)); [exact J3|]. apply nth_lt in Ea. lia.
  - destruct H as (a & Ea & El & H2 & H3 & H4 & ->).
    assert (L : List.length (apis s') = List.length (apis s)) by (rewrite H4; apply len_upd).
    destruct I as [I1 I2 I3 I4 I5]. constructor.
    + rewrite H2, I1, closedb_snoc. now rewrite orb_false_r.
    + rewrite paths_snoc, app_nil_r, L. exact I2.
    + intros m. rewrite in_app_iff, I3, L. split; [intros [X|[X|[]]]; [exact X|discriminate]|auto].
    + intros m a' E. rewrite H4, nth_upd in E. destruct (Nat.eqb_spec m n) as [-> | N].
      * rewrite Ea in E. injection E as <-. destruct (I4 _ _ Ea) as (K1 & K2 & K4 & K5). unfold ApiP. rewrite freedb_snoc, format_snoc, payload_snoc, paths_snoc, orb_false_r, app_nil_r, Nat.eqb_refl. repeat split; auto.
      * destruct (I4 _ _ E) as (K1 & K2 & K4 & K5). unfold ApiP. rewrite freedb_snoc, format_snoc, payload_snoc, paths_snoc, orb_false_r, app_nil_r, (proj2 (Nat.eqb_neq n m)) by auto. repeat split; auto.
    + intros m Hle. rewrite L in Hle. rewrite freedb_snoc, format_snoc, payload_snoc, execs_snoc, orb_false_r, app_nil_r. destruct (I5 m Hle) as (J1 & J2 & J3 & J4). repeat split; auto.
      rewrite (proj2 (Nat.eqb_neq n m)); [exact J2|]. apply nth_lt in Ea. lia.
  - destruct H as (a & Ea & El & H1 & H2 & H3). pose proof (nth_lt _ _ _ Ea) as Lt.
    destruct H3 as [(-> & H3 & H4 & ->) | (q & -> & Q & [(-> & H3 & H4 & ->) | (-> & H3 & H4 & ->)])].
    + apply (api_frame l _ s s'); auto; [discriminate | now rewrite H4, len_upd | rewrite H4; apply same_upd; repeat split | intros m [X|[]]; discriminate].
    + apply (api_frame l _ s s'); auto; [discriminate | now rewrite H4, len_upd | rewrite H4; apply same_upd; repeat split | intros m [X|[X|[]]]; discriminate].
    + apply (api_frame l _ s s'); auto; [discriminate | now rewrite H4, len_upd | rewrite H4; apply same_upd; repeat split | intros m [X|[X|[]]]; discriminate].
  - destruct H as (a & Ea & El & H2 & H3 & H4).
    assert (L : List.length (apis s') = List.length (apis s)) by (rewrite H3; apply len_upd).
    destruct I as [I1 I2 I3 I4 I5]. constructor.
    + rewrite H2, I1, closedb_snoc. now rewrite orb_false_r.
    + rewrite paths_snoc, app_nil_r, L. exact I2.
    + intros m. rewrite in_app_iff, I3, L. split; [intros [X|X]; [exact X|]|auto]. destruct H4 as [(_ & _ & ->) | (k & c & _ & _ & _ & [(_ & _ & ->) | (_ & _ & ->)])]; try destruct X as [X|[]]; try discriminate; destruct X.
    + intros m a' E. rewrite H3, nth_upd in E. destruct (Nat.eqb_spec m n) as [-> | N].
      * rewrite Ea in E. injection E as <-. destruct (I4 _ _ Ea) as (K1 & K2 & K4 & K5). unfold ApiP. rewrite freedb_snoc, format_snoc, payload_snoc, paths_snoc, app_nil_r, Nat.eqb_refl, orb_true_r. repeat split; auto.
      * destruct (I4 _ _ E) as (K1 & K2 & K4 & K5). unfold ApiP. rewrite freedb_snoc, format_snoc, payload_snoc, paths_snoc, app_nil_r, (proj2 (Nat.eqb_neq n m)), orb_false_r by auto. repeat split; auto.
    + intros m Hle. rewrite L in Hle. rewrite freedb_snoc, format_snoc, payload_snoc, execs_snoc, app_nil_r. destruct (I5 m Hle) as (J1 & J2 & J3 & J4). repeat split; auto.
      rewrite (proj2 (Nat.eqb_neq n m)), orb_false_r; [exact J1|]. apply nth_lt in Ea. lia.
  - destruct H as (a & Ea & El & -> & H). apply (api_frame l _ s s); auto; [discriminate|]. intros m X. destruct H as [(_ & ->) | (k & c & _ & _ & _ & _ & _ & ->)]; destruct X as [X|[]]; try discriminate. destruct (rready c); discriminate.
  - destruct H as (a & Ea & El & -> & H). apply (api_frame l _ s s); auto; [discriminate|]. intros m X. destruct H as [(_ & ->) | (k & c & _ & _ & _ & _ & _ & ->)]; destruct X as [X|[]]; try discriminate. destruct (rready c); discriminate.
  - destruct H as (a & Ea & El & -> & H). apply (api_frame l _ s s); auto; [discriminate|]. intros m X. destruct H as [(_ & ->) | (k & c & _ & _ & _ & _ & _ & ->)]; destruct X as [X|[]]; try discriminate. destruct (rready c), (rpay c); discriminate.
  - destruct H as (c & E & Eg & Es & Hc & H1 & H2 & ->). apply (api_frame l _ s s'); auto; [discriminate | now rewrite H1 | intros m [X|[]]; discriminate].
  - destruct H as (c & E & Eg & Es & Hc & H). destruct a; destruct H as (H1 & H2 & ->); (apply (api_frame l _ s s'); auto; [discriminate | now rewrite H1 | intros m [X|[]]; discriminate]).
  - destruct H as (c & E & Eg & Es & Hc & H1 & H2 & ->). apply (api_frame l _ s s'); auto; [discriminate | now rewrite H1 | intros m [X|[]]; discriminate].
  - destruct H as (c & E & Eg & Es & Hc & H). destruct (closed c).
    + destruct H as [-> ->]. apply (api_frame l _ s s); auto; [discriminate | intros m [X|[]]; discriminate].
    + apply answer_same in H. destruct H as (K1 & K2 & K3 & K4). apply (api_frame l _ s s'); auto. discriminate.
  - destruct H as (c & E & Eg & Es & Hc & H). apply answer_same in H. destruct H as (K1 & K2 & K3 & K4). apply (api_frame l _ s s'); auto. discriminate.
  - destruct H as (c & E & Eg & Es & Hc & H1 & H2). apply (api_frame l _ s s'); auto; [discriminate | now rewrite H1 |]. intros m X. destruct H2 as [(_ & _ & ->) | (_ & _ & ->)]; [destruct X as [X|[]]; discriminate|destruct X].
  - destruct H as (H1 & H2 & H3 & H4 & H5 & H6). destruct I as [I1 I2 I3 I4 I5]. constructor.
    + rewrite H2, closedb_snoc. now rewrite orb_true_r.
    + rewrite paths_snoc, app_nil_r, H3. exact I2.
    + intros m. rewrite in_app_iff, I3, H3. split; [intros [X|X]; [exact X|]|auto]. apply H5 in X. destruct X as (? & ? & ? & ? & X & _). discriminate.
    + intros m a E. rewrite H3 in E. destruct (I4 _ _ E) as (K1 & K2 & K4 & K5). unfold ApiP. rewrite freedb_snoc, format_snoc, payload_snoc, paths_snoc, app_nil_r, orb_false_r. repeat split; auto.
    + intros m Hle. rewrite H3 in Hle. rewrite freedb_snoc, format_snoc, payload_snoc, execs_snoc, app_nil_r, orb_false_r. apply I5. exact Hle.
Qed.
Lemma api_inv l s o : run init l = (s, o) -> dead s = false -> ApiI l s o.
Proof. revert l s o. apply fine_ind; [exact ApiI_init|]. intros l v s o s' o' _ _ I _ _ H. now apply (api_step l v s). Qed.

(** What is handed over. *)
Lemma sends_payload l n a p : ApiP l n a -> sends a = Some p -> p = payload_of n l.
Proof.
  intros (_ & _ & _ & K) H. unfold sends in H. destruct (pay a) as [q|].
  - destruct K as [-> K]. rewrite K, Nat.leb_refl in H. injection H as <-. apply firstn_all.
  - destruct (Nat.eqb_spec (size a) 0) as [E|E]; [|discriminate]. injection H as <-. symmetry. apply length_zero_iff_nil. congruence.
Qed.
Definition HandI (l : list op) (s : st) (o : list out) : Prop :=
  forall k g d f, In (Handed k g d f) o -> exists l1 n fu l2 p, l = l1 ++ Execute n fu true true :: l2 /\ In (Executed n k) o /\ path_of l1 n = Some p /\ segments p = Some g /\ d = payload_of n l1 /\ f = format_of n l1.
Lemma hand_inv l s o : run init l = (s, o) -> dead s = false -> HandI l s o.
Proof.
  revert l s o. apply fine_ind; [intros k g d f []|]. intros l v s o s' o' R D I _ _ H k g d f X. pose proof (api_inv _ _ _ R D) as A.
  apply in_app_or in X. destruct X as [X|X].
  - destruct (I _ _ _ _ X) as (l1 & n & fu & l2 & p & -> & H1 & H2). exists l1, n, fu, (l2 ++ [v]), p. split; [now rewrite <- app_assoc|]. split; [apply in_or_app; now left|exact H2].
  - destruct v as [p a|n e al|n e|n fu al found|n|n|n|n|j x|j e a|j e|j|j x m a|j|]; cbn [Does] in H.
    + destruct H as (_ & _ & _ & [(_ & _ & ->) | (? & _ & _ & _ & ->)]); destruct X as [X|[]]; discriminate.
    + destruct H as (? & _ & _ & _ & _ & [(_ & _ & ->) | (_ & _ & ->)]); destruct X as [X|[]]; discriminate.
    + destruct H as (? & _ & _ & _ & _ & _ & ->); destruct X as [X|[]]; discriminate.
    + destruct H as (a & Ea & El & H1 & H2 & [(_ & _ & _ & ->) | (q & -> & Q & [(-> & _ & _ & ->) | (_ & _ & _ & ->)])]); [destruct X as [X|[]]; discriminate| |destruct X as [X|[X|[]]]; discriminate].
      destruct X as [X|[X|[]]]; [discriminate|]. injection X as <- <- <- <-. destruct (A_api _ _ _ A _ _ Ea) as (K1 & (p & K2 & K3) & K4 & K5).
      exists l, n, fu, [], p. split; [reflexivity|]. split; [apply in_or_app; right; left; reflexivity|]. repeat split; auto. eapply sends_payload; [|exact Q]. eapply A_api; eauto.
    + destruct H as (? & _ & _ & _ & _ & [(_ & _ & ->) | (? & ? & _ & _ & _ & [(_ & _ & ->) | (_ & _ & ->)])]); try destruct X as [X|[]]; try discriminate; destruct X.
    + destruct H as (? & _ & _ & _ & [(_ & ->) | (? & c & _ & _ & _ & _ & _ & ->)]); destruct X as [X|[]]; try discriminate. destruct (rready c); discriminate.
    + destruct H as (? & _ & _ & _ & [(_ & ->) | (? & c & _ & _ & _ & _ & _ & ->)]); destruct X as [X|[]]; try discriminate. destruct (rready c); discriminate.
    + destruct H as (? & _ & _ & _ & [(_ & ->) | (? & c & _ & _ & _ & _ & _ & ->)]); destruct X as [X|[]]; try discriminate. destruct (rready c), (rpay c); discriminate.
    + destruct H as (? & _ & _ & _ & _ & _ & _ & ->); destruct X as [X|[]]; discriminate.
    + destruct H as (? & _ & _ & _ & _ & H). destruct a; destruct H as (_ & _ & ->); destruct X as [X|[]]; discriminate.
    + destruct H as (? & _ & _ & _ & _ & _ & _ & ->); destruct X as [X|[]]; discriminate.
    + destruct H as (c & _ & _ & _ & _ & H). destruct (closed c); [destruct H as [_ ->]; destruct X as [X|[]]; discriminate|]. destruct H as (_ & _ & [(_ & _ & ->) | (? & ? & _ & _ & _ & _ & _ & ->)]); [destruct X as [X|[]]|destruct X as [X|[X|[]]]]; discriminate.
    + destruct H as (c & _ & _ & _ & _ & H). destruct H as (_ & _ & [(_ & _ & ->) | (? & ? & _ & _ & _ & _ & _ & ->)]); [destruct X as [X|[]]|destruct X as [X|[X|[]]]]; discriminate.
    + destruct H as (c & _ & _ & _ & _ & _ & [(_ & _ & ->) | (_ & _ & ->)]); [destruct X as [X|[]]; discriminate|destruct X].
    + destruct H as (_ & _ & _ & _ & H & _). apply H in X. destruct X as (? & ? & ? & ? & X & _). discriminate.
Qed.
