(** Lemmas for C95: the two passes of the encoder, and decoding what it wrote. *)
From Coq Require Import String Ascii List Bool Arith NArith Lia.
From Verif Require Import IamPolicyModel IamStateModel IrdModel IrdSpec.
Import ListNotations.
Open Scope list_scope.
Open Scope N_scope.

(** ** The two passes *)

Definition flat (l : list call) : list N := flat_map (fun k => concat (pieces k)) l.

Lemma len_app {A} (a b : list A) : len (a ++ b) = len a + len b.
Proof. unfold len. rewrite app_length. lia. Qed.

Lemma flat_app a b : flat (a ++ b) = flat a ++ flat b.
Proof. apply flat_map_app. Qed.

Lemma pieces_null l : forall n b r, fst (do_pieces l (mkenc None n b) r) = mkenc None (n + len (concat l)) b.
Proof.
  induction l as [|x l IH]; intros n b r; cbn [do_pieces concat].
  - cbn. rewrite N.add_0_r. reflexivity.
  - unfold append. cbn [left need buf]. destruct (N.eqb_spec (n + len x) 0) as [Z|Z].
    + rewrite IH. rewrite len_app. f_equal. lia.
    + rewrite IH. rewrite len_app. f_equal. lia.
Qed.

Lemma tolerant_null l : forall n b r, fst (tolerant l (mkenc None n b) r) = mkenc None (n + len (flat l)) b.
Proof.
  induction l as [|k l IH]; intros n b r; cbn [tolerant].
  - cbn. rewrite N.add_0_r. reflexivity.
  - destruct (do_call k (mkenc None n b)) as [e1 r1] eqn:D.
    assert (X : e1 = mkenc None (n + len (concat (pieces k))) b) by (change e1 with (fst (e1, r1)); rewrite <- D; apply pieces_null).
    subst e1. rewrite IH. change (flat (k :: l)) with (concat (pieces k) ++ flat l). rewrite len_app. f_equal. lia.
Qed.

Lemma size l : extra (fst (tolerant l enc_null true)) = len (flat l).
Proof. unfold enc_null. rewrite tolerant_null. reflexivity. Qed.

Lemma pieces_buf l : forall n b, len (concat l) <= n ->
  do_pieces l (mkenc (Some n) 0 b) true = (mkenc (Some (n - len (concat l))) 0 (b ++ concat l), true).
Proof.
  induction l as [|x l IH]; intros n b H; cbn [do_pieces concat] in *.
  - cbn. rewrite N.sub_0_r, app_nil_r. reflexivity.
  - rewrite len_app in H. unfold append. cbn [left need buf]. destruct (N.leb_spec (len x) n) as [Z|Z]; [|lia].
    rewrite IH by lia. rewrite len_app, app_assoc. do 3 f_equal. lia.
Qed.

Lemma tolerant_buf l : forall n b, len (flat l) <= n ->
  tolerant l (mkenc (Some n) 0 b) true = (mkenc (Some (n - len (flat l))) 0 (b ++ flat l), true).
Proof.
  induction l as [|k l IH]; intros n b H; cbn [tolerant].
  - cbn. rewrite N.sub_0_r, app_nil_r. reflexivity.
  - change (flat (k :: l)) with (concat (pieces k) ++ flat l) in *. rewrite len_app in H.
    unfold do_call. rewrite pieces_buf by lia. rewrite IH by lia. rewrite len_app, app_assoc. do 3 f_equal. lia.
Qed.

Lemma padded_full b : padded (len b) b = b.
Proof. unfold padded. rewrite N.sub_diag. cbn. apply app_nil_r. Qed.

Lemma payload l : padded (len (flat l)) (buf (fst (tolerant l (enc_buf (len (flat l))) true))) = flat l.
Proof. unfold enc_buf. rewrite tolerant_buf by lia. cbn [fst buf app]. apply padded_full. Qed.

Lemma send_eq m l none : send m l none = if m_buf m then reply m (flat l) else none.
Proof. unfold send. rewrite size, payload. reflexivity. Qed.

(** ** Numbers and texts *)

Lemma number_be k : forall n acc r, number k acc (be k n ++ r) = Some (acc * 256 ^ N.of_nat k + n mod 256 ^ N.of_nat k, r).
Proof.
  induction k as [|k IH]; intros n acc r.
  - cbn [be number app]. change (N.of_nat 0) with 0. rewrite N.pow_0_r, N.mod_1_r, N.mul_1_r, N.add_0_r. reflexivity.
  - cbn [be number app]. rewrite IH. f_equal. f_equal.
    rewrite Nnat.Nat2N.inj_succ, N.pow_succ_r'. set (P := 256 ^ N.of_nat k).
    assert (P <> 0) by (apply N.pow_nonzero; discriminate).
    rewrite (N.mul_comm 256 P). rewrite (N.mod_mul_r n P 256) by (discriminate || assumption). nia.
Qed.

Lemma text_bytes s : forall r, text (List.length (bytes_of s)) (bytes_of s ++ r) = Some (s, r).
Proof.
  induction s as [|c s IH]; intros r; cbn [bytes_of List.length text app]; [reflexivity|].
  rewrite IH, ascii_N_embedding. reflexivity.
Qed.

Lemma head_pos mj n : (1 <= List.length (head mj n))%nat.
Proof. unfold head. repeat match goal with |- context [if ?b then _ else _] => destruct b end; cbn [List.length]; lia. Qed.

(** The head of a number below 2^64: its first byte and its argument. *)
Lemma head_parse mj n r : n < 2 ^ 64 -> (mj = 0 \/ mj = 3) ->
  exists x t, head mj n = x :: t /\ argument x (t ++ r) = Some (n, r) /\ x / 32 = mj /\ x <> 159 /\ x <> 191 /\ x <> 244 /\ x <> 245 /\ x <> 255.
Proof.
  intros H M. unfold head.
  assert (A : forall a, a < 32 -> (mj * 32 + a) / 32 = mj /\ (mj * 32 + a) mod 32 = a).
  { intros a L. rewrite N.div_add_l by discriminate. rewrite (N.div_small a 32) by exact L. split; [lia|].
    rewrite N.add_comm, N.mod_add by discriminate. apply N.mod_small. exact L. }
  destruct (N.ltb_spec n 24) as [L|L].
  { destruct (A n) as [A1 A2]; [lia|]. exists (mj * 32 + n), []. unfold argument. rewrite A2. cbn [app].
    destruct (N.ltb_spec n 24); [|lia]. repeat split; try lia; try exact A1; destruct M; subst; lia. }
  assert (G : forall a k, 24 <= a < 32 -> n mod 256 ^ N.of_nat k = n -> argument (mj * 32 + a) (be k n ++ r) = number k 0 (be k n ++ r) ->
    exists x t, (mj * 32 + a) :: be k n = x :: t /\ argument x (t ++ r) = Some (n, r) /\ x / 32 = mj /\ x <> 159 /\ x <> 191 /\ x <> 244 /\ x <> 245 /\ x <> 255).
  { intros a k La Lk E. exists (mj * 32 + a), (be k n). destruct (A a) as [A1 _]; [lia|].
    split; [reflexivity|]. split; [rewrite E, number_be, Lk; reflexivity|]. split; [exact A1|]. destruct M; subst; lia. }
  destruct (N.leb_spec n 255); [apply (G 24 1%nat); [lia|apply N.mod_small; cbn; lia|unfold argument; destruct (A 24) as [_ ->]; [lia|reflexivity]]|].
  destruct (N.leb_spec n 65535); [apply (G 25 2%nat); [lia|apply N.mod_small; cbn; lia|unfold argument; destruct (A 25) as [_ ->]; [lia|reflexivity]]|].
  destruct (N.leb_spec n 4294967295); [apply (G 26 4%nat); [lia|apply N.mod_small; cbn; lia|unfold argument; destruct (A 26) as [_ ->]; [lia|reflexivity]]|].
  apply (G 27 8%nat); [lia|apply N.mod_small; exact H|unfold argument; destruct (A 27) as [_ ->]; [lia|reflexivity]].
Qed.

(** ** Values *)

Fixpoint emit (v : value) : list call :=
  match v with
  | VUint n => [KUint n]
  | VText s => [KText s]
  | VBool b => [KBool b]
  | VArray l => [KArray] ++ flat_map emit l ++ [KClose]
  | VMap l => [KMap] ++ flat_map (fun p => KText (fst p) :: emit (snd p)) l ++ [KClose]
  end.

Fixpoint uok (v : value) : Prop :=
  match v with
  | VUint n => n < 2 ^ 64
  | VText _ | VBool _ => True
  | VArray l => fold_right (fun v P => uok v /\ P) True l
  | VMap l => fold_right (fun p P => uok (snd p) /\ P) True l
  end.

Definition value_ind' (P : value -> Prop) (hu : forall n, P (VUint n)) (ht : forall s, P (VText s)) (hb : forall b, P (VBool b))
  (ha : forall l, Forall P l -> P (VArray l)) (hm : forall l, Forall (fun p => P (snd p)) l -> P (VMap l)) : forall v, P v :=
  fix F v := match v with
  | VUint n => hu n
  | VText s => ht s
  | VBool b => hb b
  | VArray l => ha l ((fix G (l : list value) : Forall P l := match l with [] => Forall_nil _ | x :: l' => Forall_cons x (F x) (G l') end) l)
  | VMap l => hm l ((fix G (l : list (string * value)) : Forall (fun p => P (snd p)) l := match l with [] => Forall_nil _ | x :: l' => Forall_cons x (F (snd x)) (G l') end) l)
  end.

Definition bytes (v : value) : list N := flat (emit v).
Definition items (l : list value) : list N := flat_map bytes l.
Definition pairs (l : list (string * value)) : list N := flat_map (fun p => bytes (VText (fst p)) ++ bytes (snd p)) l.

Lemma flat_flat_map {A} (f : A -> list call) l : flat (flat_map f l) = flat_map (fun x => flat (f x)) l.
Proof. induction l as [|x l IH]; cbn [flat_map]; [reflexivity|]. rewrite flat_app, IH. reflexivity. Qed.

Lemma bytes_array l : bytes (VArray l) = 159 :: items l ++ [255].
Proof. unfold bytes. cbn [emit]. rewrite !flat_app, flat_flat_map. reflexivity. Qed.
Lemma bytes_text s : bytes (VText s) = head 3 (len (bytes_of s)) ++ bytes_of s.
Proof. unfold bytes, flat. cbn [emit flat_map pieces concat]. rewrite !app_nil_r. reflexivity. Qed.
Lemma bytes_uint n : bytes (VUint n) = head 0 n.
Proof. unfold bytes, flat. cbn [emit flat_map pieces concat]. rewrite !app_nil_r. reflexivity. Qed.
Lemma bytes_map l : bytes (VMap l) = 191 :: pairs l ++ [255].
Proof.
  unfold bytes. cbn [emit]. rewrite !flat_app, flat_flat_map. change (flat [KMap]) with [191]. change (flat [KClose]) with [255].
  cbn [app]. do 2 f_equal. unfold pairs. apply flat_map_ext. intros [k v]. cbn [fst snd].
  change (KText k :: emit v) with ([KText k] ++ emit v). rewrite flat_app. reflexivity.
Qed.

Lemma bytes_start v : uok v -> N.of_nat (List.length (bytes v)) < 2 ^ 64 -> exists x t, bytes v = x :: t /\ x <> 255.
Proof.
  intros U L. destruct v as [n|s|b|l|l].
  - rewrite bytes_uint. destruct (head_parse 0 n [] U (or_introl eq_refl)) as (x & t & -> & _ & _ & _ & _ & _ & _ & X). eauto.
  - rewrite bytes_text in *. rewrite app_length in L.
    destruct (head_parse 3 (len (bytes_of s)) [] ltac:(unfold len; lia) (or_intror eq_refl)) as (x & t & -> & _ & _ & _ & _ & _ & _ & X).
    exists x, (t ++ bytes_of s). split; [reflexivity|exact X].
  - exists (if b then 245 else 244), []. destruct b; split; (reflexivity || discriminate).
  - rewrite bytes_array. eexists _, _. split; [reflexivity|discriminate].
  - rewrite bytes_map. eexists _, _. split; [reflexivity|discriminate].
Qed.

Definition decodes (v : value) : Prop := forall f r, uok v -> N.of_nat (List.length (bytes v)) < 2 ^ 64 ->
  (List.length (bytes v) <= f)%nat -> parse f (bytes v ++ r) = Some (v, r).

Lemma decodes_text s : decodes (VText s).
Proof.
  intros f r _ L F. rewrite bytes_text in *. rewrite app_length in *.
  pose proof (head_pos 3 (len (bytes_of s))) as HP.
  destruct (head_parse 3 (len (bytes_of s)) (bytes_of s ++ r) ltac:(unfold len; lia) (or_intror eq_refl)) as (x & t & E & A & D & X1 & X2 & X3 & X4 & _).
  rewrite <- app_assoc, E. cbn [app]. destruct f as [|f]; [lia|]. cbn [parse].
  rewrite (proj2 (N.eqb_neq _ _) X1), (proj2 (N.eqb_neq _ _) X2), (proj2 (N.eqb_neq _ _) X3), (proj2 (N.eqb_neq _ _) X4), D, A.
  cbn [N.eqb Pos.eqb]. unfold len. rewrite Nnat.Nat2N.id, text_bytes. reflexivity.
Qed.

Lemma decodes_items l : Forall decodes l -> forall f r, fold_right (fun v P => uok v /\ P) True l ->
  N.of_nat (List.length (items l)) < 2 ^ 64 -> (List.length (items l) < f)%nat -> parse_items f (items l ++ 255 :: r) = Some (l, r).
Proof.
  induction 1 as [|v l D _ IH]; intros f r U L F.
  - cbn [items flat_map app]. destruct f as [|f]; [cbn in F; lia|]. reflexivity.
  - change (items (v :: l)) with (bytes v ++ items l) in *. destruct U as [U1 U2]. rewrite app_length in *.
    destruct (bytes_start v U1 ltac:(lia)) as (x & t & E & X). destruct f as [|f]; [lia|].
    assert (S1 : (1 <= List.length (bytes v))%nat) by (rewrite E; cbn; lia).
    pose proof (D f (items l ++ 255 :: r) U1 ltac:(lia) ltac:(lia)) as P. rewrite <- app_assoc.
    rewrite E in *. cbn [app] in *. cbn [parse_items]. rewrite (proj2 (N.eqb_neq _ _) X), P, IH by (assumption || lia). reflexivity.
Qed.

Lemma decodes_pairs l : Forall (fun p => decodes (snd p)) l -> forall f r, fold_right (fun p P => uok (snd p) /\ P) True l ->
  N.of_nat (List.length (pairs l)) < 2 ^ 64 -> (List.length (pairs l) < f)%nat -> parse_pairs f (pairs l ++ 255 :: r) = Some (l, r).
Proof.
  induction 1 as [|[k v] l D _ IH]; intros f r U L F.
  - cbn [pairs flat_map app]. destruct f as [|f]; [cbn in F; lia|]. reflexivity.
  - change (pairs ((k, v) :: l)) with ((bytes (VText k) ++ bytes v) ++ pairs l) in *. destruct U as [U1 U2]. rewrite !app_length in *. cbn [snd] in *.
    destruct (bytes_start (VText k) I ltac:(lia)) as (x & t & E & X). destruct f as [|f]; [lia|].
    assert (S1 : (1 <= List.length (bytes (VText k)))%nat) by (rewrite E; cbn; lia).
    pose proof (decodes_text k f (bytes v ++ pairs l ++ 255 :: r) I ltac:(lia) ltac:(lia)) as P.
    pose proof (D f (pairs l ++ 255 :: r) U1 ltac:(lia) ltac:(lia)) as Q. rewrite <- !app_assoc.
    rewrite E in *. cbn [app] in *. cbn [parse_pairs]. rewrite (proj2 (N.eqb_neq _ _) X), P, Q, IH by (assumption || lia). reflexivity.
Qed.

Lemma decodes_all v : decodes v.
Proof.
  induction v as [n|s|b|l IH|l IH] using value_ind'.
  - intros f r U L F. rewrite bytes_uint in *. pose proof (head_pos 0 n) as HP.
    destruct (head_parse 0 n r U (or_introl eq_refl)) as (x & t & E & A & D & X1 & X2 & X3 & X4 & _).
    rewrite E in *. cbn [app List.length] in *. destruct f as [|f]; [lia|]. cbn [parse].
    rewrite (proj2 (N.eqb_neq _ _) X1), (proj2 (N.eqb_neq _ _) X2), (proj2 (N.eqb_neq _ _) X3), (proj2 (N.eqb_neq _ _) X4), D, A. reflexivity.
  - apply decodes_text.
  - intros f r _ _ F. destruct f as [|f]; [destruct b; cbn in F; lia|]. destruct b; reflexivity.
  - intros f r U L F. rewrite bytes_array in *. cbn [List.length] in *. rewrite app_length in *. cbn [List.length] in *.
    destruct f as [|f]; [lia|]. cbn [app]. rewrite <- app_assoc. cbn [app parse N.eqb Pos.eqb].
    rewrite decodes_items by (assumption || lia). reflexivity.
  - intros f r U L F. rewrite bytes_map in *. cbn [List.length] in *. rewrite app_length in *. cbn [List.length] in *.
    destruct f as [|f]; [lia|]. cbn [app]. rewrite <- app_assoc. cbn [app parse N.eqb Pos.eqb].
    rewrite decodes_pairs by (assumption || lia). reflexivity.
Qed.

Lemma decode_bytes v : uok v -> len (bytes v) < 2 ^ 64 -> decode (bytes v) = Some v.
Proof.
  intros U L. unfold decode. pose proof (decodes_all v (List.length (bytes v)) [] U L (le_n _)) as P. rewrite app_nil_r in P. rewrite P. reflexivity.
Qed.

(** ** The maps *)

Definition ot (k : string) (o : option string) : list (string * value) := match o with Some s => [(k, VText s)] | None => [] end.
Definition pcalls (l : list (string * value)) : list call := flat_map (fun p => KText (fst p) :: emit (snd p)) l.

Lemma pcalls_app a b : pcalls (a ++ b) = pcalls a ++ pcalls b.
Proof. apply flat_map_app. Qed.
Lemma pcalls_ot k o : pcalls (ot k o) = opt_text k o.
Proof. destruct o; reflexivity. Qed.
Lemma emit_texts l : flat_map emit (map VText l) = map KText l.
Proof. induction l as [|x l IH]; cbn; [reflexivity|]. rewrite IH. reflexivity. Qed.

Lemma uok_texts l : fold_right (fun v P => uok v /\ P) True (map VText l).
Proof. induction l; cbn; auto. Qed.
Lemma uok_app a b : fold_right (fun p P => uok (snd p) /\ P) True (a : list (string * value)) -> fold_right (fun p P => uok (snd p) /\ P) True b ->
  fold_right (fun p P => uok (snd p) /\ P) True (a ++ b).
Proof. induction a as [|p a IH]; cbn; [auto|]. intros [H1 H2] H3. auto. Qed.
Lemma uok_ot k o : fold_right (fun p P => uok (snd p) /\ P) True (ot k o).
Proof. destruct o; cbn; auto. Qed.

Definition fp_value (f : fprint) : value := VMap (("Fingerprint"%string, VText (fp_val f)) :: ot "Name" (fp_name f)).
Definition fcm_pairs (u : user) : list (string * value) :=
  match u_fcm_token u, u_fcm_project u with
  | None, None => []
  | t, p => [("Fcm"%string, VMap (ot "Token" t ++ ot "ProjectId" p))]
  end.
Definition user_pairs (u : user) : list (string * value) :=
  [("Username"%string, VText (u_name u))] ++ ot "DisplayName" (u_display u) ++ ot "Role" (u_role u) ++
  [("Fingerprints"%string, VArray (map fp_value (u_fps u)))] ++ ot "Fingerprint" (last_fp (u_fps u) None) ++
  ot "Sct" (u_sct u) ++ fcm_pairs u ++
  [("NotificationCategories"%string, VArray (map VText (u_cats u)))] ++ ot "OauthSubject" (u_oauth u).

Lemma emit_fps l : flat_map emit (map fp_value l) =
  flat_map (fun f => [KMap; KText "Fingerprint"; KText (fp_val f)] ++ opt_text "Name" (fp_name f) ++ [KClose]) l.
Proof.
  induction l as [|f l IH]; [reflexivity|]. cbn [map flat_map]. rewrite IH. f_equal. unfold fp_value. cbn [emit].
  change (flat_map (fun p : string * value => KText (fst p) :: emit (snd p))) with pcalls.
  change (("Fingerprint"%string, VText (fp_val f)) :: ot "Name" (fp_name f)) with ([("Fingerprint"%string, VText (fp_val f))] ++ ot "Name" (fp_name f)).
  rewrite pcalls_app, pcalls_ot. reflexivity.
Qed.

Lemma emit_map l : emit (VMap l) = [KMap] ++ pcalls l ++ [KClose].
Proof. reflexivity. Qed.

Lemma fcm_emit u : pcalls (fcm_pairs u) =
  match u_fcm_token u, u_fcm_project u with
   | None, None => []
   | t, p => [KText "Fcm"; KMap] ++ opt_text "Token" t ++ opt_text "ProjectId" p ++ [KClose]
   end.
Proof. unfold fcm_pairs. destruct (u_fcm_token u), (u_fcm_project u); reflexivity. Qed.

Lemma user_emit u : user_calls u = emit (VMap (user_pairs u)).
Proof.
  rewrite emit_map. unfold user_pairs. rewrite !pcalls_app, !pcalls_ot, fcm_emit.
  assert (A : forall k l, pcalls [(k, VArray l)] = [KText k; KArray] ++ flat_map emit l ++ [KClose]).
  { intros k l. unfold pcalls. cbn [flat_map fst snd emit app]. rewrite app_nil_r. reflexivity. }
  rewrite !A, emit_fps, emit_texts. unfold user_calls. rewrite <- !app_assoc. reflexivity.
Qed.

Lemma user_uok u : uok (VMap (user_pairs u)).
Proof.
  change (fold_right (fun p P => uok (snd p) /\ P) True (user_pairs u)). unfold user_pairs.
  repeat apply uok_app; try apply uok_ot; try (cbn; tauto).
  - cbn. split; [|exact I]. induction (u_fps u) as [|f l IH]; cbn; [exact I|]. split; [|exact IH]. split; [exact I|]. apply uok_ot.
  - unfold fcm_pairs. destruct (u_fcm_token u), (u_fcm_project u); cbn; tauto.
  - cbn. split; [|exact I]. apply uok_texts.
Qed.

Lemma last_fp_snoc l : forall o f, last_fp (l ++ [f]) o = Some (fp_val f).
Proof. induction l as [|x l IH]; intros o f; cbn; [reflexivity|apply IH]. Qed.

Lemma last_fp_some l s : last_fp l None = Some s -> exists l' f, l = l' ++ [f] /\ fp_val f = s.
Proof.
  destruct l as [|x l _] using rev_ind; [discriminate|]. rewrite last_fp_snoc. intros H. injection H as <-. eauto.
Qed.

Lemma in_ot k v a o : In (k, v) (ot a o) -> k = a /\ exists s, o = Some s /\ v = VText s.
Proof. destruct o; cbn; [intros [H|[]]; injection H as <- <-; eauto|intros []]. Qed.

Ltac no_dup := repeat (constructor; [intros X; cbn in X; repeat (destruct X as [X|X]; [discriminate X|]); exact X|]); constructor.

Lemma user_keys u : NoDup (map fst (user_pairs u)).
Proof.
  unfold user_pairs, fcm_pairs. destruct (u_display u), (u_role u), (last_fp (u_fps u) None), (u_sct u), (u_fcm_token u), (u_fcm_project u), (u_oauth u); cbn; no_dup.
Qed.

Lemma user_entries u k v : In (k, v) (user_pairs u) -> UserEntry u k v.
Proof.
  unfold user_pairs. rewrite !in_app_iff. intros H.
  repeat (destruct H as [H|H]).
  - injection H as <- <-. constructor.
  - destruct H.
  - apply in_ot in H as (-> & s & E & ->). constructor. exact E.
  - apply in_ot in H as (-> & s & E & ->). constructor. exact E.
  - injection H as <- <-. constructor. induction (u_fps u) as [|f l IH]; cbn; constructor; [|exact IH].
    unfold FpMap, fp_value, ot. destruct (fp_name f); reflexivity.
  - destruct H.
  - apply in_ot in H as (-> & s & E & ->). apply last_fp_some in E as (l' & f & E & <-). econstructor. exact E.
  - apply in_ot in H as (-> & s & E & ->). constructor. exact E.
  - unfold fcm_pairs in H. destruct (u_fcm_token u) eqn:T, (u_fcm_project u) eqn:P; cbn in H; try (destruct H as [H|[]]; injection H as <- <-; constructor; assumption). destruct H.
  - injection H as <- <-. constructor.
  - destruct H.
  - apply in_ot in H as (-> & s & E & ->). constructor. exact E.
Qed.

Lemma user_complete u k v : UserEntry u k v -> In k (map fst (user_pairs u)).
Proof.
  intros H. unfold user_pairs, fcm_pairs. rewrite !map_app, !in_app_iff. destruct H as [|s E|s E|l E|l f E|s E|t E F|p E F|t p E F| |s E]; try rewrite E; try rewrite F; cbn; try tauto.
  rewrite last_fp_snoc. cbn. tauto.
Qed.

Lemma user_map u : len (bytes (VMap (user_pairs u))) < 2 ^ 64 -> MapOf (UserEntry u) (bytes (VMap (user_pairs u))).
Proof.
  intros L. exists (user_pairs u). split; [apply decode_bytes; [apply user_uok|exact L]|]. split; [apply user_keys|].
  split; [apply user_entries|apply user_complete].
Qed.

Definition settings_pairs (s : istate) : list (string * value) :=
  [("PasswordOpenPairing"%string, VBool (st_pw_open s)); ("PasswordInvitePairing"%string, VBool (st_pw_invite s));
   ("LocalOpenPairing"%string, VBool (st_local_open s))] ++ ot "PasswordOpenSct" (st_pw_open_sct s) ++ ot "PasswordOpenPassword" (st_pw_open_password s).

Lemma settings_emit s : settings_calls s = emit (VMap (settings_pairs s)).
Proof. unfold settings_calls, settings_pairs. destruct (st_pw_open_sct s), (st_pw_open_password s); reflexivity. Qed.

Lemma settings_map s : len (bytes (VMap (settings_pairs s))) < 2 ^ 64 -> MapOf (SettingsEntry s) (bytes (VMap (settings_pairs s))).
Proof.
  intros L. exists (settings_pairs s). split.
  { apply decode_bytes; [|exact L]. unfold settings_pairs. destruct (st_pw_open_sct s), (st_pw_open_password s); cbn; tauto. }
  split; [unfold settings_pairs; destruct (st_pw_open_sct s), (st_pw_open_password s); cbn; no_dup|]. split.
  - intros k v H. unfold settings_pairs in H. rewrite !in_app_iff in H. cbn in H.
    destruct H as [[H|[H|[H|[]]]]|[H|H]]; try (injection H as <- <-; constructor); apply in_ot in H as (-> & x & E & ->); constructor; exact E.
  - intros k v H. unfold settings_pairs. rewrite !map_app, !in_app_iff. destruct H as [| | |t E|p E]; try rewrite E; cbn; tauto.
Qed.

(** Modes of pairing. *)
Definition om (o : option bool) (s : string) : list string := match o with Some true => [s] | _ => [] end.
Definition modes (E : env) (i : iam) (c : conn) : list string :=
  om (open_possible E i c) "PasswordOpen" ++ om (local_open_possible E i c) "LocalOpen" ++
  om (invite_possible E i c) "PasswordInvite" ++ om (initial_possible E i c) "LocalInitial".
Definition pairing_pairs (E : env) (d : info) (i : iam) (c : conn) : list (string * value) :=
  [("Modes"%string, VArray (map VText (modes E i c)))] ++ ot "NabtoVersion" (n_version d) ++ ot "AppVersion" (n_app_version d) ++
  ot "AppName" (n_app_name d) ++ ot "ProductId" (n_product d) ++ ot "DeviceId" (n_device d) ++ ot "FriendlyName" (st_friendly (i_state i)).

Lemma pairing_emit E d i c l : pairing_calls E d i c = Some l -> l = emit (VMap (pairing_pairs E d i c)).
Proof.
  unfold pairing_calls, join, mode. intros H. rewrite emit_map. unfold pairing_pairs. rewrite !pcalls_app, !pcalls_ot.
  unfold pcalls. cbn [flat_map fst snd emit]. rewrite emit_texts. unfold modes, om.
  destruct (open_possible E i c) as [[|]|], (local_open_possible E i c) as [[|]|], (invite_possible E i c) as [[|]|], (initial_possible E i c) as [[|]|];
    try discriminate H; injection H as <-; cbn [map app]; rewrite ?app_nil_r, <- ?app_assoc; reflexivity.
Qed.

Lemma both_true a b : both a b = Some true -> a = Some true /\ b = Some true.
Proof. destruct a as [[|]|]; cbn; intros H; try discriminate H. auto. Qed.

Lemma modes_in E i c s : In s (modes E i c) <-> Mode E i c s.
Proof.
  unfold modes. rewrite !in_app_iff. split.
  - intros H. destruct H as [H|[H|[H|H]]].
    + destruct (open_possible E i c) as [[|]|] eqn:O; cbn in H; try tauto. destruct H as [<-|[]]. apply both_true in O as [A B].
      destruct (st_pw_open (i_state i)) eqn:X; [|discriminate B]. destruct (st_pw_open_password (i_state i)) eqn:Y; [|discriminate B].
      destruct (st_open_role (i_state i)) eqn:Z; [|discriminate B]. econstructor; eassumption.
    + destruct (local_open_possible E i c) as [[|]|] eqn:O; cbn in H; try tauto. destruct H as [<-|[]]. unfold local_open_possible in O.
      destruct (cn_local c) eqn:X; [|discriminate O]. destruct (st_local_open (i_state i)) eqn:Y; [|discriminate O]. cbn [andb] in O.
      apply both_true in O as [A B]. destruct (st_open_role (i_state i)) eqn:Z; [|discriminate B]. econstructor; eassumption.
    + destruct (invite_possible E i c) as [[|]|] eqn:O; cbn in H; try tauto. destruct H as [<-|[]]. apply both_true in O as [A B].
      injection B as B. constructor; assumption.
    + destruct (initial_possible E i c) as [[|]|] eqn:O; cbn in H; try tauto. destruct H as [<-|[]]. unfold initial_possible in O.
      destruct (cn_local c) eqn:X; [|discriminate O]. apply both_true in O as [A B]. injection B as B. apply andb_true_iff in B as [B1 B2].
      destruct (st_initial_user (i_state i)) as [n|] eqn:Y; [|discriminate B2]. destruct (find_user (users i) (Some n)) as [u|] eqn:Z; [|discriminate B2].
      unfold is_user_paired in B2. destruct (u_fps u) eqn:F; [|discriminate B2]. destruct (u_oauth u) eqn:G; [discriminate B2|]. econstructor; eassumption.
  - intros [r p A B C D|r A B C D|A B|n u A B C D F G K].
    + left. unfold open_possible. rewrite A, B, C, D. cbn. tauto.
    + right; left. unfold local_open_possible. rewrite A, B, C, D. cbn. tauto.
    + right; right; left. unfold invite_possible. rewrite A, B. cbn. tauto.
    + right; right; right. unfold initial_possible, is_user_paired. rewrite A, B, C, D, F, G, K. cbn. tauto.
Qed.

Lemma modes_nodup E i c : NoDup (modes E i c).
Proof.
  unfold modes. destruct (open_possible E i c) as [[|]|], (local_open_possible E i c) as [[|]|], (invite_possible E i c) as [[|]|], (initial_possible E i c) as [[|]|]; cbn; no_dup.
Qed.

Lemma pairing_map E d i c : len (bytes (VMap (pairing_pairs E d i c))) < 2 ^ 64 -> MapOf (PairingEntry E d i c) (bytes (VMap (pairing_pairs E d i c))).
Proof.
  intros L. exists (pairing_pairs E d i c). split.
  { apply decode_bytes; [|exact L]. change (fold_right (fun p P => uok (snd p) /\ P) True (pairing_pairs E d i c)). unfold pairing_pairs.
    repeat apply uok_app; try apply uok_ot. cbn. split; [|exact I]. apply uok_texts. }
  split; [unfold pairing_pairs; destruct (n_version d), (n_app_version d), (n_app_name d), (n_product d), (n_device d), (st_friendly (i_state i)); cbn; no_dup|]. split.
  - intros k v H. unfold pairing_pairs in H. rewrite !in_app_iff in H.
    destruct H as [[H|[]]|H]; [injection H as <- <-; constructor; [apply modes_nodup|intros s; apply modes_in]|].
    repeat (destruct H as [H|H]); apply in_ot in H as (-> & x & X & ->); constructor; exact X.
  - intros k v H. unfold pairing_pairs. rewrite !map_app, !in_app_iff. destruct H as [l A B|s X|s X|s X|s X|s X|s X]; try rewrite X; cbn; tauto.
Qed.

Lemma list_emit l : list_calls l = emit (VArray (map VText l)).
Proof. unfold list_calls. cbn [emit]. rewrite emit_texts. reflexivity. Qed.

Lemma list_decode l : len (bytes (VArray (map VText l))) < 2 ^ 64 -> decode (bytes (VArray (map VText l))) = Some (VArray (map VText l)).
Proof. intros L. apply decode_bytes; [apply uok_texts|exact L]. Qed.

Lemma list_null l : tolerant (list_calls l) enc_null true = (mkenc None (len (flat (list_calls l))) [], false).
Proof.
  destruct (tolerant (list_calls l) enc_null true) as [e r] eqn:T.
  assert (E : e = mkenc None (len (flat (list_calls l))) []) by (change e with (fst (e, r)); rewrite <- T; apply tolerant_null).
  subst e. f_equal.
  assert (G : forall a e0 r0 e1 r1, tolerant (a ++ [KClose]) e0 r0 = (e1, r1) -> left e0 = None -> r1 = false).
  { induction a as [|k a IH]; intros [le ne be0] r0 e1 r1 H Hl; cbn in Hl; subst le.
    - cbn [app tolerant] in H. unfold do_call in H. cbn [pieces do_pieces] in H. unfold append in H. cbn [left need buf] in H.
      destruct (N.eqb_spec (ne + len [255]) 0) as [Z|Z]; [unfold len in Z; cbn in Z; lia|]. injection H as _ <-. reflexivity.
    - cbn [app tolerant] in H. destruct (do_call k (mkenc None ne be0)) as [e2 r2] eqn:D.
      assert (X : e2 = mkenc None (ne + len (concat (pieces k))) be0) by (change e2 with (fst (e2, r2)); rewrite <- D; apply pieces_null).
      subst e2. eapply IH; [exact H|reflexivity]. }
  unfold list_calls in T. rewrite app_assoc in T. eapply G; [exact T|reflexivity].
Qed.

Lemma strict_null l : strict_size (list_calls l) enc_null = 0 /\ strict (list_calls l) (enc_buf 0) = (None, []).
Proof. split; reflexivity. Qed.
