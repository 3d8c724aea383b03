(** Virtual CoAP requests: what a step does which is not undefined. *)
From Coq Require Import List Bool Arith Lia Ascii String.
From Verif Require Import VcoModel VcoSpec VcoProofs.
Import ListNotations.
Local Open Scope list_scope.

Lemma upd_id {A} (f : A -> A) l : forall n, (forall x, f x = x) -> upd n f l = l.
Proof. induction l as [|x l IH]; intros [|n] H; cbn [upd]; auto; [now rewrite H | now rewrite IH]. Qed.
Lemma upd_upd {A} (f g : A -> A) l : forall n, upd n f (upd n g l) = upd n (fun x => f (g x)) l.
Proof. induction l as [|x l IH]; intros [|n]; cbn [upd]; auto. now rewrite IH. Qed.
Lemma set_ready_stopped a : set_ready Stopped a = a.
Proof. destruct a; reflexivity. Qed.

(** A resolution which is not undefined. *)
Definition resolve_st (e : err) (k : nat) (c : creq) (s : st) : st :=
  if resolved c then s else set_apis (upd (who c) (set_ready e) (apis s)) (set_cores (upd k set_resolved (cores s)) s).
Lemma resolve_fine e k s c s' o : nth_error (cores s) k = Some c -> dead s = false -> resolve e k s = (s', o) -> dead s' = false ->
  s' = resolve_st e k c s /\
  ((resolved c = true /\ o = []) \/ exists a f, nth_error (apis s) (who c) = Some a /\ live a = true /\ fut a = Some f /\ resolved c = false /\ o = [Resolved k f e]).
Proof.
  intros E D H D'. unfold resolve, resolve_st in *. rewrite E in H. destruct (resolved c) eqn:Er.
  - injection H as <- <-. split; [reflexivity|]. left. split; reflexivity.
  - destruct (nth_error (apis s) (who c)) as [a|] eqn:Ea.
    + destruct (live a) eqn:El.
      * destruct (fut a) as [f|] eqn:Ef.
        -- injection H as <- <-. split; [reflexivity|]. right. exists a, f. repeat split; auto.
        -- unfold die in H. injection H as <- <-. discriminate.
      * unfold die in H. injection H as <- <-. discriminate.
    + unfold die in H. injection H as <- <-. discriminate.
Qed.

(** Closing the connection. *)
Definition shut (c : creq) : creq := if gone c then c else set_resolved (set_closed c).
Lemma close_fine n : forall k s s' o, dead s = false -> k + n = List.length (cores s) -> close_all n k s = (s', o) -> dead s' = false ->
  conn s' = conn s /\ lost s' = lost s /\ apis s' = apis s /\ List.length (cores s') = List.length (cores s) /\
  (forall j, nth_error (cores s') j = if Nat.ltb j k then nth_error (cores s) j else option_map shut (nth_error (cores s) j)) /\
  (forall x, In x o <-> exists j c a f, x = Resolved j f Stopped /\ k <= j /\ nth_error (cores s) j = Some c /\ gone c = false /\ resolved c = false /\ nth_error (apis s) (who c) = Some a /\ fut a = Some f /\ live a = true) /\
  (forall j c, k <= j -> nth_error (cores s) j = Some c -> gone c = false -> resolved c = false -> exists a f, nth_error (apis s) (who c) = Some a /\ live a = true /\ fut a = Some f).
Proof.
  induction n as [|n IH]; intros k s s' o D L H D'; cbn [close_all] in H.
  - injection H as <- <-. split; [reflexivity|]. split; [reflexivity|]. split; [reflexivity|]. split; [reflexivity|]. split; [|split].
    + intros j. destruct (Nat.ltb_spec j k); [reflexivity|]. rewrite (proj2 (nth_error_None (cores s) j)) by lia. reflexivity.
    + intros x. split; [intros []|]. intros (j & c & a & f & _ & Hk & E & _). assert (j < List.length (cores s)) by (apply nth_error_Some; congruence). lia.
    + intros j c Hj E. assert (j < List.length (cores s)) by (apply nth_error_Some; congruence). lia.
  - destruct (nth_error (cores s) k) as [c|] eqn:E; [|apply nth_error_None in E; lia].
    destruct (gone c) eqn:Eg.
    + destruct (IH (S k) s s' o D ltac:(lia) H D') as (A1 & A2 & A3 & A4 & A5 & A6 & A7).
      split; [exact A1|]. split; [exact A2|]. split; [exact A3|]. split; [exact A4|]. split; [|split].
      * intros j. rewrite A5. destruct (Nat.ltb_spec j (S k)), (Nat.ltb_spec j k); auto; try lia.
        assert (j = k) by lia. subst j. rewrite E. cbn [option_map]. unfold shut. rewrite Eg. reflexivity.
      * intros x. rewrite A6. split; intros (j & c' & a & f & H1 & H2 & H3 & H4 & H5).
        -- exists j, c', a, f. repeat split; try tauto. lia.
        -- exists j, c', a, f. repeat split; try tauto. assert (j <> k) by congruence. lia.
      * intros j c' Hj E' G'. apply (A7 j); auto. assert (j <> k) by congruence. lia.
    + set (s0 := set_cores (upd k set_closed (cores s)) s) in *.
      assert (E0 : nth_error (cores s0) k = Some (set_closed c)) by (cbn [s0 set_cores cores]; rewrite nth_upd, Nat.eqb_refl, E; reflexivity).
      destruct (resolve Stopped k s0) as [s1 o1] eqn:Er.
      destruct (dead s1) eqn:D1; [injection H as <- <-; congruence|].
      destruct (resolve_fine Stopped k s0 (set_closed c) s1 o1 E0 D Er D1) as [S1 O1].
      destruct (close_all n (S k) s1) as [s2 o2] eqn:Ec. injection H as <- <-.
      assert (Es : conn s1 = conn s /\ lost s1 = lost s /\ apis s1 = apis s /\ forall j, nth_error (cores s1) j = if Nat.eqb j k then option_map shut (nth_error (cores s) j) else nth_error (cores s) j).
      { subst s1. unfold resolve_st. change (resolved (set_closed c)) with (resolved c). change (who (set_closed c)) with (who c). destruct (resolved c) eqn:Erc.
        - split; [reflexivity|]. split; [reflexivity|]. split; [reflexivity|]. intros j. cbn [s0 set_cores cores]. rewrite nth_upd. destruct (Nat.eqb_spec j k) as [-> | N]; [|reflexivity].
          rewrite E. cbn [option_map]. unfold shut. rewrite Eg. destruct c; cbn in *; subst; reflexivity.
        - split; [reflexivity|]. split; [reflexivity|]. split; [cbn [set_apis apis s0 set_cores]; apply upd_id, set_ready_stopped|].
          intros j. cbn [s0 set_apis set_cores cores]. rewrite upd_upd, nth_upd. destruct (Nat.eqb_spec j k) as [-> | N]; [|reflexivity].
          rewrite E. cbn [option_map]. unfold shut. rewrite Eg. reflexivity. }
      destruct Es as (Z1 & Z2 & Z3 & Z4).
      assert (L1 : List.length (cores s1) = List.length (cores s)).
      { subst s1. unfold resolve_st. destruct (resolved (set_closed c)); cbn [s0 set_apis set_cores cores]; now rewrite ?len_upd. }
      destruct (IH (S k) s1 s2 o2 D1 ltac:(lia) Ec D') as (A1 & A2 & A3 & A4 & A5 & A6 & A7).
      split; [congruence|]. split; [congruence|]. split; [congruence|]. split; [congruence|]. split; [|split].
      * intros j. rewrite A5, Z4. destruct (Nat.ltb_spec j (S k)), (Nat.ltb_spec j k), (Nat.eqb_spec j k); auto; lia.
      * intros x. rewrite in_app_iff, A6. split.
        -- intros [Hx | (j & c' & a & f & H1 & H2 & H3 & H4 & H5)].
           ++ destruct O1 as [[_ O1] | (a & f & P1 & P2 & P3 & P4 & P5)]; subst o1; [destruct Hx|]. destruct Hx as [<- | []].
              exists k, c, a, f. repeat split; auto.
           ++ exists j, c', a, f. rewrite Z4 in H3. rewrite (proj2 (Nat.eqb_neq j k)) in H3 by lia. rewrite Z3 in H5. repeat split; try tauto. lia.
        -- intros (j & c' & a & f & H1 & H2 & H3 & H4 & H5 & H6 & H7 & H8). destruct (Nat.eq_dec j k) as [-> | N].
           ++ left. assert (c' = c) by congruence. subst c'. destruct O1 as [[O1 _] | (a' & f' & P1 & P2 & P3 & P4 & P5)]; [cbn in O1; congruence|].
              cbn [s0 set_cores apis set_closed who] in P1. assert (a' = a) by congruence. subst a'. assert (f' = f) by congruence. subst. left. reflexivity.
           ++ right. exists j, c', a, f. rewrite Z4, (proj2 (Nat.eqb_neq j k)) by congruence. rewrite Z3. repeat split; auto. lia.
      * intros j c' Hj E' G' R'. destruct (Nat.eq_dec j k) as [-> | N].
        -- assert (c' = c) by congruence. subst c'. destruct O1 as [[O1 _] | (a' & f' & P1 & P2 & P3 & P4 & P5)]; [cbn in O1; congruence|].
           exists a', f'. repeat split; auto.
        -- rewrite <- Z3. apply (A7 j); auto; [lia|]. rewrite Z4, (proj2 (Nat.eqb_neq j k)) by congruence. exact E'.
Qed.

(** * The steps *)
Definition newcore (n : nat) (found : bool) : creq := {| who := n; resolved := false; rready := false; cfreed := false; sfreed := negb found; closed := false; gone := false; rpay := None; rsize := 0; rfmt := 0; rcode := 0 |}.
Definition newapi (g : list (list ascii)) : api := {| live := true; segs := g; pay := None; size := 0; fmt := 0; core := None; fut := None; ready := false |}.
Definition set_fmt (f : nat) (a : api) : api := {| live := live a; segs := segs a; pay := pay a; size := size a; fmt := f; core := core a; fut := fut a; ready := ready a |}.
(** The payload which a request sends. *)
Definition sends (a : api) : option (list nat) := match pay a with Some p => if Nat.leb (size a) (List.length p) then Some (firstn (size a) p) else None | None => if Nat.eqb (size a) 0 then Some [] else None end.
Definition answer (k : nat) (g : creq -> creq) (c : creq) (s s' : st) (o : list out) : Prop :=
  conn s' = conn s /\ cores s' = upd k (fun c => set_resolved (g c)) (cores s) /\
  ((resolved c = true /\ apis s' = apis s /\ o = [Result Ok]) \/
   exists a f, resolved c = false /\ nth_error (apis s) (who c) = Some a /\ live a = true /\ fut a = Some f /\ apis s' = upd (who c) (set_ready Ok) (apis s) /\ o = [Resolved k f Ok; Result Ok]).
Definition error_payload (m : option (list nat)) (a : bool) (c : creq) : option (list nat) := match m with None => rpay c | Some m => if a then Some m else None end.
Definition error_size (m : option (list nat)) (c : creq) : nat := match m with None => rsize c | Some m => List.length m end.
Definition Does (v : op) (s s' : st) (o : list out) : Prop :=
  match v with
  | New p a => conn s = true /\ conn s' = conn s /\ cores s' = cores s /\
               ((a = false /\ apis s' = apis s /\ o = [Result OutOfMemory]) \/ exists g, a = true /\ segments p = Some g /\ apis s' = apis s ++ [newapi g] /\ o = [Created (List.length (apis s))])
  | SetPayload n d al => exists a, nth_error (apis s) n = Some a /\ live a = true /\ conn s' = conn s /\ cores s' = cores s /\
               ((al = true /\ apis s' = upd n (set_pay (Some d) (List.length d)) (apis s) /\ o = [Result Ok]) \/ (al = false /\ apis s' = upd n (set_pay None (size a)) (apis s) /\ o = [Result OutOfMemory]))
  | SetFormat n f => exists a, nth_error (apis s) n = Some a /\ live a = true /\ conn s' = conn s /\ cores s' = cores s /\ apis s' = upd n (set_fmt f) (apis s) /\ o = [Result Ok]
  | Execute n f al found => exists a, nth_error (apis s) n = Some a /\ live a = true /\ conn s = true /\ conn s' = conn s /\
      ((al = false /\ cores s' = cores s /\ apis s' = upd n (set_exec None f) (apis s) /\ o = [Failed f OutOfMemory]) \/
       exists p, al = true /\ sends a = Some p /\
        ((found = true /\ cores s' = cores s ++ [newcore n true] /\ apis s' = upd n (set_exec (Some (List.length (cores s))) f) (apis s) /\ o = [Executed n (List.length (cores s)); Handed (List.length (cores s)) (segs a) p (fmt a)]) \/
         (found = false /\ cores s' = cores s ++ [set_resolved (set_resp not_found (Some not_found_text) (List.length not_found_text) 0 true (newcore n false))] /\
          apis s' = upd n (fun x => set_ready Ok (set_exec (Some (List.length (cores s))) f x)) (apis s) /\ o = [Executed n (List.length (cores s)); Resolved (List.length (cores s)) f Ok])))
  | Free n => exists a, nth_error (apis s) n = Some a /\ live a = true /\ conn s' = conn s /\ apis s' = upd n set_dead (apis s) /\
      ((core a = None /\ cores s' = cores s /\ o = []) \/
       exists k c, core a = Some k /\ nth_error (cores s) k = Some c /\ gone c = false /\
         ((sfreed c = true /\ cores s' = upd k (fun c => set_gone (set_cfreed c)) (cores s) /\ o = [Freed k]) \/ (sfreed c = false /\ cores s' = upd k set_cfreed (cores s) /\ o = [])))
  | GetCode n | GetFormat n | GetPayload n => exists a, nth_error (apis s) n = Some a /\ live a = true /\ s' = s /\
      ((ready a = false /\ o = [Result InvalidState]) \/
       exists k c, ready a = true /\ conn s = true /\ core a = Some k /\ nth_error (cores s) k = Some c /\ gone c = false /\
         o = [if rready c then match v with GetCode _ => GotCode (rcode c) | GetFormat _ => GotFormat (rfmt c) | _ => match rpay c with Some p => GotPayload p (rsize c) | None => Result Unknown end end else Result InvalidState])
  | RCode k _ | RPayload k _ _ | RFormat k _ | RReady k | RError k _ _ _ | RFree k =>
      exists c, nth_error (cores s) k = Some c /\ gone c = false /\ sfreed c = false /\ conn s' = conn s /\
      match v with
      | RCode _ x => apis s' = apis s /\ cores s' = upd k (set_resp x (rpay c) (rsize c) (rfmt c) (rready c)) (cores s) /\ o = [Result Ok]
      | RPayload _ d true => apis s' = apis s /\ cores s' = upd k (set_resp (rcode c) (Some d) (List.length d) (rfmt c) (rready c)) (cores s) /\ o = [Result Ok]
      | RPayload _ d false => apis s' = apis s /\ cores s' = upd k (set_resp (rcode c) None (rsize c) (rfmt c) (rready c)) (cores s) /\ o = [Result OutOfMemory]
      | RFormat _ f => apis s' = apis s /\ cores s' = upd k (set_resp (rcode c) (rpay c) (rsize c) f (rready c)) (cores s) /\ o = [Result Ok]
      | RReady _ => if closed c then s' = s /\ o = [Result Ok] else answer k (set_resp (rcode c) (rpay c) (rsize c) (rfmt c) true) c s s' o
      | RError _ x m a => answer k (set_resp x (error_payload m a c) (error_size m c) (rfmt c) true) c s s' o
      | RFree _ => apis s' = apis s /\ ((cfreed c = true /\ cores s' = upd k (fun c => set_gone (set_sfreed c)) (cores s) /\ o = [Freed k]) \/ (cfreed c = false /\ cores s' = upd k set_sfreed (cores s) /\ o = []))
      | _ => False
      end
  | ConnFree => conn s = true /\ conn s' = false /\ apis s' = apis s /\ cores s' = map shut (cores s) /\
      (forall x, In x o <-> exists j c a f, x = Resolved j f Stopped /\ nth_error (cores s) j = Some c /\ gone c = false /\ resolved c = false /\ nth_error (apis s) (who c) = Some a /\ fut a = Some f /\ live a = true) /\
      (forall j c, nth_error (cores s) j = Some c -> gone c = false -> resolved c = false -> exists a f, nth_error (apis s) (who c) = Some a /\ live a = true /\ fut a = Some f)
  end.

Lemma nth_ext' {A} (l1 l2 : list A) : (forall n, nth_error l1 n = nth_error l2 n) -> l1 = l2.
Proof.
  revert l2. induction l1 as [|x l1 IH]; intros [|y l2] H; auto; [specialize (H 0); discriminate | specialize (H 0); discriminate |].
  f_equal; [specialize (H 0); cbn in H; congruence|]. apply IH. intros n. exact (H (S n)).
Qed.
Lemma answer_fine g k c s s' o : nth_error (cores s) k = Some c -> who (g c) = who c -> resolved (g c) = resolved c -> dead s = false -> forall s1 o1,
  resolve Ok k (set_cores (upd k g (cores s)) s) = (s1, o1) -> s' = s1 -> o = o1 ++ [Result Ok] -> dead s' = false -> answer k g c s s' o.
Proof.
  intros E W Er D s1 o1 H -> -> D'.
  assert (E0 : nth_error (cores (set_cores (upd k g (cores s)) s)) k = Some (g c)) by (cbn [set_cores cores]; rewrite nth_upd, Nat.eqb_refl, E; reflexivity).
  destruct (resolve_fine Ok k _ (g c) s1 o1 E0 D H D') as [S1 O1]. subst s1. unfold resolve_st, answer. rewrite W, Er in *. destruct (resolved c) eqn:Ec.
  - split; [reflexivity|]. split.
    + cbn [set_cores cores]. apply nth_ext'. intros j. rewrite !nth_upd. destruct (Nat.eqb_spec j k) as [-> | N]; [|reflexivity]. rewrite E. cbn [option_map].
      f_equal. destruct (g c); cbn in *; subst; reflexivity.
    + left. destruct O1 as [[_ ->] | (a & f & _ & _ & _ & H4 & _)]; [|congruence]. repeat split.
  - split; [reflexivity|]. split; [cbn [set_apis set_cores cores]; now rewrite upd_upd|]. right.
    destruct O1 as [[H4 _] | (a & f & H1 & H2 & H3 & H4 & ->)]; [congruence|]. exists a, f. repeat split; auto.
Qed.
Lemma die_dead s s' o : die s = (s', o) -> dead s' = false -> False.
Proof. unfold die. intros H D. injection H as <- <-. discriminate. Qed.
Ltac dies := match goal with H : die _ = (?s', _), D : dead ?s' = false |- _ => destruct (die_dead _ _ _ H D) end.
Lemma does s v s' o : dead s = false -> step s v = (s', o) -> dead s' = false -> Does v s s' o.
Proof.
  intros D H D'. unfold step in H. rewrite D in H.
  assert (OA : forall n f, on_api n s f = (s', o) -> exists a, nth_error (apis s) n = Some a /\ live a = true /\ f a = (s', o)).
  { intros n f Hf. unfold on_api in Hf. destruct (nth_error (apis s) n) as [a|]; [|dies]. destruct (live a) eqn:El; [|dies]. exists a. auto. }
  assert (OC : forall k f, on_core k s f = (s', o) -> exists c, nth_error (cores s) k = Some c /\ gone c = false /\ sfreed c = false /\ f c = (s', o)).
  { intros k f Hf. unfold on_core in Hf. destruct (nth_error (cores s) k) as [c|]; [|dies]. destruct (gone c) eqn:Eg; cbn [orb] in Hf; [dies|]. destruct (sfreed c) eqn:Es; [dies|]. exists c. auto. }
  assert (GT : forall n f, on_api n s (fun a => getting a s f) = (s', o) -> exists a, nth_error (apis s) n = Some a /\ live a = true /\ s' = s /\
      ((ready a = false /\ o = [Result InvalidState]) \/
       exists k c, ready a = true /\ conn s = true /\ core a = Some k /\ nth_error (cores s) k = Some c /\ gone c = false /\ o = [if rready c then f c else Result InvalidState])).
  { intros n f Hf. destruct (OA _ _ Hf) as (a & Ea & El & Hg). exists a. split; [exact Ea|]. split; [exact El|]. unfold getting in Hg.
    destruct (ready a) eqn:Er; cbn [negb] in Hg; [|injection Hg as <- <-; split; [reflexivity|]; left; auto].
    destruct (conn s) eqn:Ecn; cbn [negb] in Hg; [|dies]. destruct (core a) as [k|] eqn:Ec; [|dies]. destruct (nth_error (cores s) k) as [c|] eqn:Ek; [|dies].
    destruct (gone c) eqn:Eg; [dies|]. injection Hg as <- <-. split; [reflexivity|]. right. exists k, c. repeat split; auto. }
  destruct v as [p a|n d a|n f|n f al found|n|n|n|n|k x|k d a|k f|k|k x m a|k|]; cbn [Does].
  - destruct (conn s) eqn:Ec; [|dies]. unfold new_req in H. destruct a; cbn [negb] in H.
    + destruct (segments p) as [g|] eqn:Eg; [|dies]. injection H as <- <-. repeat split; auto. right. exists g. auto.
    + injection H as <- <-. repeat split; auto.
  - destruct (OA _ _ H) as (y & Ey & El & Hy). exists y. unfold set_payload in Hy. destruct a; injection Hy as <- <-; repeat split; auto.
  - destruct (OA _ _ H) as (y & Ey & El & Hy). exists y. unfold set_format in Hy. injection Hy as <- <-. repeat split; auto.
  - destruct (OA _ _ H) as (y & Ey & El & Hy). exists y. destruct (conn s) eqn:Ec; [|dies]. split; [exact Ey|]. split; [exact El|]. split; [reflexivity|]. unfold execute in Hy.
    destruct al; cbn [negb] in Hy; [|injection Hy as <- <-; split; [exact Ec|]; left; auto].
    fold (sends y) in Hy. destruct (sends y) as [p|] eqn:Ep; [|dies]. destruct found; cbn [negb] in Hy.
    + injection Hy as <- <-. split; [exact Ec|]. right. exists p. repeat split; auto.
    + fold (newcore n false) in Hy.
      match type of Hy with context [resolve Ok ?k ?s2] => destruct (resolve Ok k s2) as [s3 o3] eqn:Er; injection Hy as <- <-;
        assert (E2 : nth_error (cores s2) k = Some (set_resp not_found (Some not_found_text) (List.length not_found_text) 0 true (newcore n false)))
      end.
      { cbn [set_cores set_apis cores]. rewrite nth_upd, Nat.eqb_refl, nth_snoc, Nat.eqb_refl. reflexivity. }
      destruct (resolve_fine Ok _ _ _ _ _ E2 D Er D') as [S3 O3]. subst s3. unfold resolve_st in *. cbn [set_resp resolved newcore who] in *.
      split; [exact Ec|]. right. exists p. split; [reflexivity|]. split; [reflexivity|]. right. split; [reflexivity|]. split; [|split].
      * cbn [set_apis set_cores cores]. apply nth_ext'. intros j. rewrite upd_upd, nth_upd, !nth_snoc. destruct (Nat.eqb_spec j (List.length (cores s))) as [-> | N]; reflexivity.
      * cbn [set_apis set_cores apis]. now rewrite upd_upd.
      * destruct O3 as [[O3 _] | (a & f' & H1 & H2 & H3 & H4 & ->)]; [discriminate|]. cbn [set_apis set_cores apis] in H1. rewrite nth_upd, Nat.eqb_refl, Ey in H1. cbn [option_map] in H1.
        injection H1 as <-. cbn [set_exec fut] in H3. injection H3 as <-. reflexivity.
  - destruct (OA _ _ H) as (y & Ey & El & Hy). exists y. unfold req_free in Hy. destruct (core y) as [k|] eqn:Ec; [|injection Hy as <- <-; repeat split; auto].
    destruct (nth_error (cores s) k) as [c|] eqn:Ek; [|dies]. destruct (gone c) eqn:Eg; [dies|]. unfold client_free in Hy. split; [exact Ey|]. split; [exact El|].
    destruct (sfreed c) eqn:Es; [unfold do_free in Hy|]; injection Hy as <- <-; (split; [reflexivity|]; split; [reflexivity|]; right; exists k, c; repeat split; auto).
    left. repeat split; auto. cbn [set_cores set_apis cores]. now rewrite upd_upd.
  - exact (GT _ _ H).
  - exact (GT _ _ H).
  - exact (GT _ _ H).
  - destruct (OC _ _ H) as (c & Ek & Eg & Es & Hc). exists c. unfold resp_code in Hc. injection Hc as <- <-. repeat split; auto.
  - destruct (OC _ _ H) as (c & Ek & Eg & Es & Hc). exists c. unfold resp_payload in Hc. destruct a; injection Hc as <- <-; repeat split; auto.
  - destruct (OC _ _ H) as (c & Ek & Eg & Es & Hc). exists c. unfold resp_format in Hc. injection Hc as <- <-. repeat split; auto.
  - destruct (OC _ _ H) as (c & Ek & Eg & Es & Hc). exists c. split; [exact Ek|]. split; [exact Eg|]. split; [exact Es|]. unfold resp_ready in Hc.
    destruct (closed c) eqn:Ecl; [injection Hc as <- <-; repeat split; auto|].
    destruct (resolve Ok k _) as [s1 o1] eqn:Er. injection Hc as <- <-.
    assert (AN : answer k (set_resp (rcode c) (rpay c) (rsize c) (rfmt c) true) c s s1 (o1 ++ [Result Ok])) by (eapply answer_fine; eauto).
    split; [apply AN|exact AN].
  - destruct (OC _ _ H) as (c & Ek & Eg & Es & Hc). exists c. split; [exact Ek|]. split; [exact Eg|]. split; [exact Es|]. unfold resp_error in Hc.
    destruct (resolve Ok k _) as [s1 o1] eqn:Er. injection Hc as <- <-.
    assert (AN : answer k (set_resp x (error_payload m a c) (error_size m c) (rfmt c) true) c (leak (is_some m && is_some (rpay c)) s) s1 (o1 ++ [Result Ok])).
    { eapply answer_fine; eauto; reflexivity. }
    split; [apply AN|exact AN].
  - destruct (OC _ _ H) as (c & Ek & Eg & Es & Hc). exists c. split; [exact Ek|]. split; [exact Eg|]. split; [exact Es|]. unfold server_free in Hc.
    destruct (cfreed c) eqn:Ecf; [unfold do_free in Hc|]; injection Hc as <- <-; (split; [reflexivity|]; split; [reflexivity|]).
    + left. repeat split; auto. cbn [set_cores cores]. now rewrite upd_upd.
    + right. repeat split; auto.
  - unfold conn_free in H. destruct (conn s) eqn:Ec; cbn [negb] in H; [|dies]. destruct (close_all _ 0 s) as [s1 o1] eqn:Ea. injection H as <- <-. cbn [dead] in D'.
    destruct (close_fine _ _ _ _ _ D (Nat.add_0_l _) Ea D') as (A1 & A2 & A3 & A4 & A5 & A6 & A7). cbn [conn apis cores].
    split; [reflexivity|]. split; [reflexivity|]. split; [exact A3|]. split; [|split].
    + apply nth_ext'. intros j. rewrite A5. cbn [Nat.ltb Nat.leb]. rewrite nth_error_map. reflexivity.
    + intros x. rewrite A6. split; intros (j & c & a & f & B); exists j, c, a, f; [tauto|]. repeat split; try tauto. lia.
    + intros j c Hj. apply (A7 j); auto. lia.
Qed.
Lemma dead_mono s v : dead s = true -> step s v = (s, []).
Proof. intros D. unfold step. now rewrite D. Qed.
Lemma crash_dead l : forall s o, run init l = (s, o) -> (In Crash o <-> dead s = true).
Proof.
  assert (RD : forall e k s s' o, resolve e k s = (s', o) -> dead s = false -> (In Crash o <-> dead s' = true)).
  { intros e k s s' o H D. unfold resolve in H. destruct (nth_error (cores s) k) as [c|]; [|injection H as <- <-; cbn; tauto]. destruct (resolved c); [injection H as <- <-; rewrite D; cbn; split; [tauto|discriminate]|].
    destruct (nth_error (apis s) (who c)) as [a|]; [|injection H as <- <-; cbn; tauto]. destruct (live a); [|injection H as <- <-; cbn; tauto]. destruct (fut a); injection H as <- <-; [|cbn; tauto].
    cbn. rewrite D. split; [intros [X|[]]; discriminate | discriminate]. }
  assert (CA : forall n k s s' o, close_all n k s = (s', o) -> dead s = false -> (In Crash o <-> dead s' = true)).
  { induction n as [|n IH]; intros k s s' o H D; cbn [close_all] in H; [injection H as <- <-; rewrite D; cbn; split; [tauto|discriminate]|].
    destruct (nth_error (cores s) k) as [c|]; [|injection H as <- <-; rewrite D; cbn; split; [tauto|discriminate]]. destruct (gone c); [eapply IH; eauto|].
    destruct (resolve Stopped k _) as [s1 o1] eqn:Er. pose proof (RD _ _ _ _ _ Er D) as R1. destruct (dead s1) eqn:D1; [injection H as <- <-; now rewrite D1|].
    destruct (close_all n (S k) s1) as [s2 o2] eqn:E2. injection H as <- <-. specialize (IH _ _ _ _ E2 D1). rewrite in_app_iff. split; [intros [X | X]; [apply R1 in X; discriminate | now apply IH]|]. intros X. right. now apply IH. }
  assert (ST : forall s v s' o, dead s = false -> step s v = (s', o) -> (In Crash o <-> dead s' = true)).
  { intros s v s' o D H. unfold step in H. rewrite D in H.
    assert (DI : forall s' o, die s = (s', o) -> (In Crash o <-> dead s' = true)) by (intros a b X; injection X as <- <-; cbn; tauto).
    assert (QT : forall s1 o1, dead s1 = false -> ~ In Crash o1 -> (s1, o1) = (s', o) -> (In Crash o <-> dead s' = true)) by (intros s1 o1 X Y Z; injection Z as <- <-; rewrite X; split; [tauto|discriminate]).
    assert (GT : forall a f, (forall c, f c <> Crash) -> getting a s f = (s', o) -> (In Crash o <-> dead s' = true)).
    { intros a f NF X. unfold getting in X. destruct (negb (ready a)); [eapply QT; [| |exact X]; [exact D | intros [Y|[]]; discriminate]|]. destruct (negb (conn s)); [eapply DI; eauto|].
      destruct (core a) as [k|]; [|eapply DI; eauto]. destruct (nth_error (cores s) k) as [c|]; [|eapply DI; eauto]. destruct (gone c); [eapply DI; eauto|].
      eapply QT; [| |exact X]; [exact D|]. intros [Y|[]]. destruct (rready c); [exact (NF _ Y) | discriminate]. }
    assert (NR : forall e, ~ In Crash [Result e]) by (intros e [Y|[]]; discriminate).
    destruct v as [p a|n d a|n f|n f al found|n|n|n|n|k x|k d a|k f|k|k x m a|k|];
      try (unfold on_api in H; destruct (nth_error (apis s) n) as [y|]; [|eapply DI; eauto]; destruct (live y); [|eapply DI; eauto]);
      try (unfold on_core in H; destruct (nth_error (cores s) k) as [y|] eqn:Ek; [|eapply DI; eauto]; destruct (gone y || sfreed y); [eapply DI; eauto|]).
    - destruct (conn s); [|eapply DI; eauto]. unfold new_req in H. destruct (negb a); [eapply QT; [| |exact H]; auto|]. destruct (segments p); [|eapply DI; eauto]. eapply QT; [| |exact H]; [exact D|]. intros [Y|[]]; discriminate.
    - unfold set_payload in H. destruct a; (eapply QT; [| |exact H]; [exact D|auto]).
    - eapply QT; [| |exact H]; [exact D|auto].
    - destruct (conn s); [|eapply DI; eauto]. unfold execute in H. destruct (negb al); [eapply QT; [| |exact H]; [exact D|]; intros [Y|[]]; discriminate|].
      destruct (match pay y with Some p => _ | None => _ end) as [p|]; [|eapply DI; eauto]. destruct found; [eapply QT; [| |exact H]; [exact D|]; intros [Y|[Y|[]]]; discriminate|].
      destruct (resolve Ok _ _) as [s3 o3] eqn:Er. injection H as <- <-. pose proof (RD _ _ _ _ _ Er D) as R1. cbn [In]. split; [intros [Y|Y]; [discriminate|tauto]|tauto].
    - unfold req_free in H. destruct (core y) as [k|]; [|eapply QT; [| |exact H]; [exact D|]; intros []]. destruct (nth_error (cores s) k) as [c|]; [|eapply DI; eauto]. destruct (gone c); [eapply DI; eauto|].
      unfold client_free in H. destruct (sfreed c); [unfold do_free in H|]; (eapply QT; [| |exact H]; [exact D|]); [intros [Y|[]]; discriminate | intros []].
    - eapply GT; [|exact H]. intros c; cbv beta; try destruct (rpay c); discriminate.
    - eapply GT; [|exact H]. intros c; cbv beta; try destruct (rpay c); discriminate.
    - eapply GT; [|exact H]. intros c; cbv beta; try destruct (rpay c); discriminate.
    - eapply QT; [| |exact H]; [exact D|auto].
    - unfold resp_payload in H. destruct a; (eapply QT; [| |exact H]; [exact D|auto]).
    - eapply QT; [| |exact H]; [exact D|auto].
    - unfold resp_ready in H. destruct (closed y); [eapply QT; [| |exact H]; [exact D|auto]|]. destruct (resolve Ok _ _) as [s3 o3] eqn:Er. injection H as <- <-. pose proof (RD _ _ _ _ _ Er D) as R1. rewrite in_app_iff. cbn [In]. split; [intros [Y|[Y|[]]]; [tauto|discriminate]|tauto].
    - unfold resp_error in H. destruct (resolve Ok _ _) as [s3 o3] eqn:Er. injection H as <- <-. pose proof (RD _ _ _ _ _ Er D) as R1. rewrite in_app_iff. cbn [In]. split; [intros [Y|[Y|[]]]; [tauto|discriminate]|tauto].
    - unfold server_free in H. destruct (cfreed y); [unfold do_free in H|]; (eapply QT; [| |exact H]; [exact D|]); [intros [Y|[]]; discriminate | intros []].
    - unfold conn_free in H. destruct (negb (conn s)); [eapply DI; eauto|]. destruct (close_all _ 0 s) as [s1 o1] eqn:Ea. injection H as <- <-. cbn [dead]. eapply CA; eauto. }
  induction l as [|v l IH] using rev_ind; intros s o H.
  - injection H as <- <-. cbn. split; [tauto|discriminate].
  - rewrite run_snoc in H. destruct (run init l) as [s1 o1]. specialize (IH _ _ eq_refl). destruct (step s1 v) as [s2 o2] eqn:E2. injection H as <- <-. rewrite in_app_iff. destruct (dead s1) eqn:D1.
    + rewrite (dead_mono _ _ D1) in E2. injection E2 as <- <-. tauto.
    + rewrite <- (ST _ _ _ _ D1 E2). split; [intros [X|X]; [apply IH in X; discriminate|exact X]|auto].
Qed.
(** A history which is not undefined comes from one which is not, by a step which is not. *)
Lemma fine_ind (P : list op -> st -> list out -> Prop) :
  P [] init [] -> (forall l v s o s' o', run init l = (s, o) -> dead s = false -> P l s o -> step s v = (s', o') -> dead s' = false -> Does v s s' o' -> P (l ++ [v]) s' (o ++ o')) ->
  forall l s o, run init l = (s, o) -> dead s = false -> P l s o.
Proof.
  intros P0 PS l. induction l as [|v l IH] using rev_ind; intros s o H D; [injection H as <- <-; exact P0|].
  rewrite run_snoc in H. destruct (run init l) as [s1 o1] eqn:E1. destruct (step s1 v) as [s2 o2] eqn:E2. injection H as <- <-.
  assert (D1 : dead s1 = false) by (destruct (dead s1) eqn:X; [rewrite (dead_mono _ _ X) in E2; injection E2 as <- <-; congruence|reflexivity]).
  apply (PS l v s1 o1 s2 o2); auto. now apply does.
Qed.
