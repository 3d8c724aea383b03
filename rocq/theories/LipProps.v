(** * C105: the local addresses of a device *)
From Coq Require Import List Bool NArith Arith Lia.
From Verif Require Import LipModel LipSpec.
Import ListNotations.

Lemma any_usable : forall a ip, a = Name ip -> (any ip = false <-> usable a ip).
Proof.
  intros a ip ->. unfold any, usable. split.
  - intros H. split; [reflexivity|]. induction ip as [|b ip IH]; [discriminate|]. cbn in H. destruct (N.eqb_spec b 0) as [E|E].
    + destruct (IH H) as (x & X & Y). exists x. split; [now right|exact Y].
    + exists b. split; [now left|exact E].
  - intros (_ & b & H & E). destruct (forallb _ ip) eqn:F; [|reflexivity]. rewrite forallb_forall in F. specialize (F b H). apply N.eqb_eq in F. contradiction.
Qed.

(** One family: nothing, or its address at the next place. *)
Lemma one_ok : forall f a fd pre x post, exists calls,
  ((forall ip, ~ usable a ip) /\ one f a fd (pre ++ x :: post) (length pre) = (Some (pre ++ x :: post), length pre, calls) \/
   exists ip, usable a ip /\ one f a fd (pre ++ x :: post) (length pre) = (Some (pre ++ Some (f, ip) :: post), S (length pre), calls)) /\
  opened calls = closed calls /\ NoDup (opened calls) /\ (forall n, In n (opened calls) -> n = fd).
Proof.
  intros f a fd pre x post.
  assert (S1 : forall l, skipn (S (length l)) (l ++ x :: post) = post) by (induction l as [|y l IH]; [reflexivity|exact IH]).
  destruct a as [ | | |ip].
  - exists []. split; [left; split; [intros ip (X & _); discriminate|reflexivity]|]. repeat split; [constructor|intros n []].
  - exists [Socket f fd; Connect fd; Close fd]. split; [left; split; [intros ip (X & _); discriminate|reflexivity]|]. repeat split; [repeat constructor; intros []|intros n [X|[]]; congruence].
  - exists [Socket f fd; Connect fd; GetName fd; Close fd]. split; [left; split; [intros ip (X & _); discriminate|reflexivity]|]. repeat split; [repeat constructor; intros []|intros n [X|[]]; congruence].
  - exists [Socket f fd; Connect fd; GetName fd; Close fd]. split.
    + pose proof (any_usable (Name ip) ip eq_refl) as U. cbn [one]. destruct (any ip).
      * left. split; [|reflexivity]. intros ip' X. assert (ip' = ip) by (destruct X as (X & _); congruence). subst. apply U in X. discriminate.
      * right. exists ip. split; [now apply U|]. replace (Nat.ltb (length pre) (length (pre ++ x :: post))) with true by (symmetry; apply Nat.ltb_lt; rewrite app_length; cbn; lia).
        rewrite S1, firstn_app, Nat.sub_diag, firstn_O, app_nil_r, firstn_all. reflexivity.
    + repeat split; [repeat constructor; intros []|intros n [X|[]]; congruence].
Qed.

(** Whatever the system answers and whatever room there is: the addresses found, IPv4
    before IPv6, fill the beginning of the array as far as there is room; the result is
    their number, the rest of the array is as before, nothing is written outside, and
    every socket opened is closed, once. *)
Theorem C105_addresses : forall arr a4 a6 fd4 fd6, fd4 <> fd6 -> exists found calls,
  get_local_ips arr a4 a6 fd4 fd6 = (Some (map Some found ++ skipn (length found) arr), length found, calls) /\
  (length found <= length arr)%nat /\ opened calls = closed calls /\ NoDup (opened calls) /\
  (forall ip, In (V4, ip) found <-> usable a4 ip /\ (1 <= length arr)%nat) /\
  (forall ip, In (V6, ip) found <-> usable a6 ip /\ (2 <= length arr \/ (1 <= length arr /\ forall ip', ~ usable a4 ip'))%nat) /\
  (exists n m, map fst found = repeat V4 n ++ repeat V6 m /\ n <= 1 /\ m <= 1)%nat.
Proof.
  intros arr a4 a6 fd4 fd6 Hfd. unfold get_local_ips. destruct arr as [|x arr].
  { exists [], []. split; [reflexivity|]. cbn [length]. split; [lia|]. split; [reflexivity|]. split; [constructor|].
    split; [intros ip; split; [intros []|intros (_ & X); lia]|]. split; [intros ip; split; [intros []|intros (_ & X); lia]|]. exists 0%nat, 0%nat. split; [reflexivity|lia]. }
  cbn [length Nat.ltb Nat.leb].
  destruct (one_ok V4 a4 fd4 [] x arr) as (c4 & R4 & O4 & D4 & F4). cbn [app length] in R4.
  assert (ND : forall c6, opened c6 = closed c6 -> NoDup (opened c6) -> (forall n, In n (opened c6) -> n = fd6) -> opened (c4 ++ c6) = closed (c4 ++ c6) /\ NoDup (opened (c4 ++ c6))).
  { intros c6 O6 D6 F6. unfold opened, closed in *. rewrite !flat_map_app, O4, O6. split; [reflexivity|]. rewrite <- O4, <- O6.
    assert (G : forall a b : list nat, NoDup a -> NoDup b -> (forall n, In n a -> ~ In n b) -> NoDup (a ++ b)).
    { induction a as [|y a IH]; intros b Da Db H; [exact Db|]. inversion Da; subst. cbn. constructor; [intros X; apply in_app_or in X; destruct X as [X|X]; [contradiction|now apply (H y (or_introl eq_refl))]|].
      apply IH; auto. intros n Hn. apply H. now right. }
    apply G; auto. intros n X Y. apply F4 in X. apply F6 in Y. congruence. }
  destruct R4 as [(N4 & ->)|(ip4 & U4 & ->)].
  - cbn [Nat.add Nat.ltb Nat.leb]. destruct (one_ok V6 a6 fd6 [] x arr) as (c6 & R6 & O6 & D6 & F6). cbn [app length] in R6. destruct (ND c6 O6 D6 F6) as [ND1 ND2].
    destruct R6 as [(N6 & ->)|(ip6 & U6 & ->)].
    + exists [], (c4 ++ c6). split; [reflexivity|]. split; [cbn; lia|]. split; [exact ND1|]. split; [exact ND2|].
      split; [intros ip; split; [intros []|intros (X & _); now apply N4 in X]|]. split; [intros ip; split; [intros []|intros (X & _); now apply N6 in X]|]. exists 0%nat, 0%nat. split; [reflexivity|lia].
    + exists [(V6, ip6)], (c4 ++ c6). split; [reflexivity|]. split; [cbn; lia|]. split; [exact ND1|]. split; [exact ND2|].
      split; [intros ip; split; [intros [X|[]]; discriminate|intros (X & _); now apply N4 in X]|]. split.
      * intros ip. split; [intros [X|[]]; injection X as <-; split; [exact U6|right; split; [lia|exact N4]]|]. intros (X & _). left. destruct X as (X & _), U6 as (Y & _). congruence.
      * exists 0%nat, 1%nat. split; [reflexivity|lia].
  - destruct arr as [|y arr].
    + cbn [length Nat.add Nat.ltb Nat.leb]. exists [(V4, ip4)], c4. split; [reflexivity|]. split; [cbn; lia|]. split; [exact O4|]. split; [exact D4|]. split.
      * intros ip. split; [intros [X|[]]; injection X as <-; split; [exact U4|lia]|]. intros (X & _). left. destruct X as (X & _), U4 as (Y & _). congruence.
      * split; [|exists 1%nat, 0%nat; split; [reflexivity|lia]]. intros ip. split; [intros [X|[]]; discriminate|]. intros (_ & [X|(_ & X)]); [cbn in X; lia|now apply X in U4].
    + cbn [length Nat.add Nat.ltb Nat.leb]. destruct (one_ok V6 a6 fd6 [Some (V4, ip4)] y arr) as (c6 & R6 & O6 & D6 & F6). cbn [app length] in R6. destruct (ND c6 O6 D6 F6) as [ND1 ND2].
      destruct R6 as [(N6 & ->)|(ip6 & U6 & ->)].
      * exists [(V4, ip4)], (c4 ++ c6). split; [reflexivity|]. split; [cbn; lia|]. split; [exact ND1|]. split; [exact ND2|]. split.
        -- intros ip. split; [intros [X|[]]; injection X as <-; split; [exact U4|lia]|]. intros (X & _). left. destruct X as (X & _), U4 as (Y & _). congruence.
        -- split; [|exists 1%nat, 0%nat; split; [reflexivity|lia]]. intros ip. split; [intros [X|[]]; discriminate|intros (X & _); now apply N6 in X].
      * exists [(V4, ip4); (V6, ip6)], (c4 ++ c6). split; [reflexivity|]. split; [cbn; lia|]. split; [exact ND1|]. split; [exact ND2|]. split.
        -- intros ip. split; [intros [X|[X|[]]]; [injection X as <-; split; [exact U4|lia]|discriminate]|]. intros (X & _). left. destruct X as (X & _), U4 as (Y & _). congruence.
        -- split; [|exists 1%nat, 1%nat; split; [reflexivity|lia]].
           intros ip. split; [intros [X|[X|[]]]; [discriminate|injection X as <-; split; [exact U6|left; cbn; lia]]|]. intros (X & _). right. left. destruct X as (X & _), U6 as (Y & _). congruence.
Qed.
Print Assumptions C105_addresses.

(** Not so: a host with an address in its local network tells it.  Without a default
    route, as in a network of its own, it tells none. *)
Theorem C105_local_network_refuted : exists h arr, h_v4 h = [[192; 168; 1; 7]%N] /\ length arr = 2%nat /\
  snd (fst (get_local_ips arr (from (h_route4 h)) (from (h_route6 h)) 3 4)) = 0%nat.
Proof. exists {| h_v4 := [[192; 168; 1; 7]%N]; h_v6 := []; h_route4 := None; h_route6 := None |}, [None; None]. repeat split; reflexivity. Qed.
Print Assumptions C105_local_network_refuted.

(** Not so: a host with two addresses in two networks tells both of them. *)
Theorem C105_two_networks_refuted : exists h arr, h_v4 h = [[192; 168; 1; 7]; [10; 0; 0; 5]]%N /\ In (h_route4 h) (map Some (h_v4 h)) /\ length arr = 4%nat /\
  fst (fst (get_local_ips arr (from (h_route4 h)) (from (h_route6 h)) 3 4)) = Some [Some (V4, [192; 168; 1; 7]%N); None; None; None].
Proof. exists {| h_v4 := [[192; 168; 1; 7]; [10; 0; 0; 5]]%N; h_v6 := []; h_route4 := Some [192; 168; 1; 7]%N; h_route6 := None |}, [None; None; None; None]. repeat split; cbn; auto. Qed.
Print Assumptions C105_two_networks_refuted.

Example C105_ex : get_local_ips [None; None; None] (Name [10; 0; 0; 5]%N) (Name [254; 128; 0; 1]%N) 3 4 =
  (Some [Some (V4, [10; 0; 0; 5]%N); Some (V6, [254; 128; 0; 1]%N); None], 2%nat, [Socket V4 3; Connect 3; GetName 3; Close 3; Socket V6 4; Connect 4; GetName 4; Close 4]) /\
  get_local_ips [None] (Name [0; 0; 0; 0]%N) (Name [254; 128; 0; 1]%N) 3 4 =
  (Some [Some (V6, [254; 128; 0; 1]%N)], 1%nat, [Socket V4 3; Connect 3; GetName 3; Close 3; Socket V6 4; Connect 4; GetName 4; Close 4]).
Proof. split; reflexivity. Qed.
