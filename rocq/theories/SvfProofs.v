(** * Reading and writing the services file and the device configuration *)
From Coq Require Import String Ascii List Bool Arith NArith ZArith Lia.
From Verif Require Import JsonModel JsonProofs PerModel PerSpec PerProofs TunModel SvfModel SvfSpec.
Import ListNotations.
Open Scope string_scope.
Open Scope list_scope.
Open Scope nat_scope.

Notation "a +++ b" := (String.append a b) (at level 60, right associativity).

(** ** Arrays and the beginnings of texts *)
Lemma value_head_arr : forall L f d s l r, parse_value L f d s = Some (JArr l, r) -> exists t, s = String "[" t.
Proof.
  intros L [|f] d s l r H; [discriminate|]. cbn [parse_value] in H.
  destruct (prefix "null" s); [discriminate|]. destruct (prefix "false" s); [discriminate|].
  destruct (prefix "true" s); [discriminate|]. destruct s as [|c s]; [discriminate|].
  destruct (Ascii.eqb c dq); [destruct (parse_string s) as [[? ?]|]; discriminate|].
  destruct (Ascii.eqb c "-" || (N.leb 48 (N_of_ascii c) && N.leb (N_of_ascii c) 57))%bool;
    [destruct (parse_number L (String c s)) as [[? ?]|]; discriminate|].
  destruct (Ascii.eqb c "[") eqn:Hc; [apply eqb_head in Hc; subst c; eauto|].
  destruct (Ascii.eqb c "{"); [|discriminate].
  destruct (nesting_limit <=? d); [discriminate|]. destruct (skip_ws s); [discriminate|].
  destruct (Ascii.eqb a "}"); [discriminate|]. destruct (parse_members L f (S d) (String a s0)) as [[? ?]|]; discriminate.
Qed.

Lemma parse_more_arr : forall L t u l, strtod_sane L -> parse L t = Some (JArr l) -> parse L (t +++ u) = Some (JArr l).
Proof.
  intros L t u l HL H. unfold parse in *.
  destruct (parse_value L (S (String.length t)) 0 (skip_ws (skip_bom t))) as [[v r]|] eqn:Hv; [|discriminate].
  injection H as ->. destruct (value_head_arr _ _ _ _ _ _ Hv) as [w Hw].
  rewrite (skip_bom_app t u "[" w Hw eq_refl). change (String "[" (w +++ u)) with (String "[" w +++ u).
  rewrite <- Hw.
  rewrite (fuel_mono L (S (String.length t)) (S (String.length (t +++ u))) 0 _ (JArr l, r +++ u)); auto.
  - rewrite len_app_s. lia.
  - now apply (proj1 (more_text L HL _)).
Qed.

Lemma bracket_arr : forall L f d s v r, parse_value L f d (String "[" s) = Some (v, r) -> exists l, v = JArr l.
Proof.
  intros L [|f] d s v r H; [discriminate|]. cbn [parse_value] in H.
  change (prefix "null" (String "[" s)) with false in H. change (prefix "false" (String "[" s)) with false in H.
  change (prefix "true" (String "[" s)) with false in H. cbv iota in H.
  change (Ascii.eqb "[" dq) with false in H. change (Ascii.eqb "[" "[") with true in H.
  change (Ascii.eqb "[" "-" || (N.leb 48 (N_of_ascii "[") && N.leb (N_of_ascii "[") 57))%bool with false in H.
  cbv iota in H. destruct (nesting_limit <=? d); [discriminate|].
  destruct (skip_ws s) as [|a t]; [discriminate|]. destruct (Ascii.eqb a "]"); [injection H as <- _; eauto|].
  destruct (parse_elems L f (S d) (String a t)) as [[l ?]|]; [injection H as <- _; eauto|discriminate].
Qed.

(** What is loaded of a printed array is all of it. *)
Lemma parse_print_begins_arr : forall L l t', strtod_sane L -> jwf L (JArr l) -> jdepth (JArr l) <= nesting_limit ->
  begins t' (print (JArr l)) -> t' <> print (JArr l) -> parse L t' = None.
Proof.
  intros L l t' HL Hw Hd [u Hu] Hne.
  destruct (parse L t') as [v|] eqn:Hp; [exfalso|reflexivity].
  unfold parse in Hp.
  destruct (parse_value L (S (String.length t')) 0 (skip_ws (skip_bom t'))) as [[v' r]|] eqn:Hv; [|discriminate].
  injection Hp as ->.
  destruct t' as [|c t']; [discriminate|].
  assert (Hc : c = "["%char).
  { pose proof Hu as Hu'. cbn [print] in Hu'. change (String c t' +++ u) with (String c (t' +++ u)) in Hu'.
    congruence. }
  subst c.
  assert (Hb : forall x, skip_ws (skip_bom (String "[" x)) = String "[" x) by (intros [|? [|? [|? ?]]]; reflexivity).
  rewrite Hb in Hv.
  assert (Ho : closed v r).
  { destruct (bracket_arr _ _ _ _ _ _ Hv) as [m ->]. exact I. }
  pose proof (proj1 (more_text L HL _) _ _ _ _ u Hv Ho) as H1. rewrite <- Hu in H1.
  pose proof (good_all L (JArr l) (S (String.length (print (JArr l)))) 0 "" Hw) as H2.
  rewrite str_app_nil_r in H2.
  assert (Hlen : S (String.length (String "[" t')) <= S (String.length (print (JArr l)))) by (rewrite Hu, len_app_s; lia).
  rewrite (fuel_mono L _ _ 0 _ _ Hlen H1) in H2.
  assert (H3 : Some (v, r +++ u) = Some (JArr l, "")).
  { apply H2; [| exact Hd | exact I]. pose proof (jsize_print L _ Hw). lia. }
  injection H3 as _ H3. destruct r; [|discriminate]. cbn in H3. subst u. apply Hne. rewrite Hu.
  now rewrite app_nil_s.
Qed.

(** What is read of a file is the beginning of its text. *)
Lemma cstr_mono : forall t u, begins (JsonModel.cstr t) (JsonModel.cstr (t +++ u)).
Proof.
  induction t as [|c t IH]; intros u; [now exists (JsonModel.cstr u)|].
  destruct (IH u) as [w Hw]. cbn. destruct (N.eqb (N_of_ascii c) 0); [now exists ""|].
  exists w. cbn. congruence.
Qed.

Lemma read_begins : forall n t, begins (JsonModel.cstr (PerModel.take n t)) (JsonModel.cstr t).
Proof. intros n t. destruct (take_begins n t) as [u Hu]. rewrite Hu at 2. apply cstr_mono. Qed.

Lemma read_array : forall L n t js, strtod_sane L -> parse L (JsonModel.cstr (PerModel.take n t)) = Some (JArr js) ->
  parse L (JsonModel.cstr t) = Some (JArr js).
Proof. intros L n t js HL H. destruct (read_begins n t) as [u Hu]. rewrite Hu. now apply parse_more_arr. Qed.

Lemma cstr_of_no_nul : forall t n, no_nul t -> JsonModel.cstr (PerModel.take n t) = PerModel.take n t.
Proof.
  intros t n. revert t. induction n as [|n IH]; intros [|c t] H; try reflexivity. cbn.
  destruct H as [Hc H]. destruct (N.eqb (N_of_ascii c) 0) eqn:E.
  - exfalso. apply Hc. apply N.eqb_eq in E. rewrite <- (ascii_N_embedding c), E. reflexivity.
  - f_equal. now apply IH.
Qed.

(** ** Members *)
Lemma named_find : forall k l v, named k l v <-> find_member k l = Some v.
Proof.
  intros k l v. split.
  - induction 1 as [k' v l E | k' v' v l E H IH]; cbn; rewrite E; auto.
  - induction l as [|[k' v'] l IH]; cbn; [discriminate|]. destruct (eqb_nocase k k') eqn:E; intros H.
    + injection H as ->. now constructor.
    + constructor; auto.
Qed.

Lemma str_of_some : forall o x, str_of o = Some x <-> o = Some (JStr x).
Proof. intros [[]|] x; cbn; split; congruence. Qed.
Lemma num_of_some : forall o x, num_of o = Some x <-> o = Some (JNum x).
Proof. intros [[]|] x; cbn; split; congruence. Qed.

Lemma read_meta_all : forall ins l, (forall k, ins k = true) -> read_meta ins l = texts l.
Proof.
  intros ins l H. induction l as [|[k v] l IH]; [reflexivity|]. unfold texts in *. cbn.
  destruct v; cbn; rewrite ?H, IH; reflexivity.
Qed.

(** ** Services *)
Lemma service_of_definition : forall cast m i j v, service_from_json cast m i j = Some v -> definition j.
Proof.
  intros cast m i j v H. unfold service_from_json in H. destruct j; try discriminate. cbn [get_item] in H.
  destruct (str_of (find_member "Id" l)) as [a|] eqn:E1; [|discriminate].
  destruct (str_of (find_member "Type" l)) as [b|] eqn:E2; [|discriminate].
  destruct (str_of (find_member "Host" l)) as [c|] eqn:E3; [|discriminate].
  destruct (num_of (find_member "Port" l)) as [d|] eqn:E4; [|discriminate].
  apply str_of_some in E1. apply str_of_some in E2. apply str_of_some in E3. apply num_of_some in E4.
  exists l, a, b, c, d. rewrite !named_find. auto.
Qed.

Lemma service_described : forall cast m i j v, cast_fits cast -> m_new m i = true -> (forall k, m_ins m i k = true) ->
  describes j v -> service_from_json cast m i j = Some v.
Proof.
  intros cast m i j v HC Hn Hi (l & -> & H1 & H2 & H3 & H4 & H5 & H6).
  rewrite named_find in H1, H2, H3, H4. unfold service_from_json. cbn [get_item].
  rewrite H1, H2, H3, H4. cbn [str_of num_of]. rewrite Hn. f_equal. destruct v as [a b c d e]. cbn in *.
  rewrite (HC d H5). f_equal. destruct H6 as [(e' & He & ->) | [He ->]].
  - rewrite named_find in He. rewrite He. now apply read_meta_all.
  - destruct (find_member "Metadata" l) as [[]|] eqn:E; try reflexivity.
    exfalso. apply (He l0). now apply named_find.
Qed.

Lemma items_definitions : forall cast m l i vs, load_items cast m i l = Some vs -> Forall definition l.
Proof.
  intros cast m. induction l as [|j l IH]; intros i vs H; [constructor|]. cbn in H.
  destruct (service_from_json cast m i j) as [v|] eqn:E; [|discriminate].
  destruct (load_items cast m (S i) l) as [vs'|] eqn:E2; [|discriminate].
  constructor; [eapply service_of_definition; eauto | eauto].
Qed.

Lemma items_described : forall cast m js l, cast_fits cast -> (forall i, m_new m i = true) -> (forall i, m_push m i = true) ->
  (forall i k, m_ins m i k = true) -> Forall2 describes js l -> forall i, load_items cast m i js = Some l.
Proof.
  intros cast m js l HC Hn Hp Hi H. induction H as [|j v js l Hj H IH]; intros i; [reflexivity|].
  cbn [load_items]. rewrite (service_described cast m i j v); auto. rewrite IH, Hp. reflexivity.
Qed.

(** ** Printed services *)
Lemma texts_printed : forall e, texts (map (fun x : string * string => (fst x, JStr (snd x))) e) = e.
Proof. induction e as [|[k x] e IH]; [reflexivity|]. unfold texts in *. cbn. now rewrite IH. Qed.

Lemma as_json_describes : forall v, v_port v <= N.to_nat 65535 -> describes (service_as_json v) v.
Proof.
  intros v H. exists (match service_as_json v with JObj l => l | _ => [] end). split; [reflexivity|].
  unfold service_as_json. rewrite !named_find.
  repeat split; try reflexivity; [exact H|]. left. eexists. rewrite named_find. split; [reflexivity|].
  now rewrite texts_printed.
Qed.

Lemma jwf_strs : forall L e, Forall (fun x : string * string => no_nul (fst x) /\ no_nul (snd x)) e ->
  fold_right (fun kv P => (no_nul (fst kv) /\ jwf L (snd kv)) /\ P) True (map (fun x : string * string => (fst x, JStr (snd x))) e).
Proof. intros L e H. induction H as [|x e [H1 H2] H IH]; [exact I|]. cbn. auto. Qed.

Lemma depth_strs : forall e, fold_right (fun kv m => Nat.max (jdepth (snd kv)) m) 0 (map (fun x : string * string => (fst x, JStr (snd x))) e) = 0.
Proof. induction e as [|x e IH]; [reflexivity|]. cbn. rewrite IH. reflexivity. Qed.

Lemma lit_no_nul : forall s, (fix go s := match s with EmptyString => true | String c s' => (negb (Ascii.eqb c "000") && go s')%bool end) s = true -> no_nul s.
Proof.
  induction s as [|c s IH]; intros H; [exact I|]. apply andb_prop in H. destruct H as [H1 H2]. split; [|auto].
  intros ->. discriminate.
Qed.

Lemma jwf_service : forall L v, ports_readable L -> writable v -> jwf L (service_as_json v).
Proof.
  intros L v HL (H1 & H2 & H3 & H4 & H5). cbn [service_as_json jwf fold_right fst snd].
  assert (Hk : no_nul "Id" /\ no_nul "Type" /\ no_nul "Host" /\ no_nul "Port" /\ no_nul "Metadata").
  { refine (conj _ (conj _ (conj _ (conj _ _)))); apply lit_no_nul; reflexivity. }
  destruct Hk as (K1 & K2 & K3 & K4 & K5). pose proof (proj2 HL _ H4) as Hp. pose proof (jwf_strs L _ H5) as Hm.
  exact (conj (conj K1 H1) (conj (conj K2 H2) (conj (conj K3 H3) (conj (conj K4 Hp) (conj (conj K5 Hm) I))))).
Qed.

Lemma jwf_services : forall L l, ports_readable L -> Forall writable l -> jwf L (services_json l).
Proof.
  intros L l HL H. unfold services_json. cbn [jwf]. induction H as [|v l Hv H IH]; [exact I|].
  cbn [map fold_right]. split; [now apply jwf_service | exact IH].
Qed.

Lemma depth_service : forall v, jdepth (service_as_json v) = 2.
Proof. intros v. cbn [service_as_json jdepth fold_right snd]. rewrite depth_strs. reflexivity. Qed.

Lemma depth_services : forall l, jdepth (services_json l) <= nesting_limit.
Proof.
  intros l. assert (H : jdepth (services_json l) <= 3).
  { unfold services_json. cbn [jdepth]. apply le_n_S. induction l as [|v l IH]; cbn [map fold_right]; [lia|].
    rewrite depth_service. apply Nat.max_lub; [lia|exact IH]. }
  unfold nesting_limit. assert (3 <= 1000) by (apply Nat.leb_le; reflexivity). lia.
Qed.

Lemma describes_services : forall l, Forall writable l -> Forall2 describes (map service_as_json l) l.
Proof.
  intros l H. induction H as [|v l Hv H IH]; [constructor|]. constructor; [|exact IH].
  apply as_json_describes. apply Hv.
Qed.
