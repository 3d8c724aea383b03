(** * Starts with a services file *)
From Coq Require Import String Ascii List Bool Arith NArith ZArith Lia.
From Verif Require Import JsonModel JsonProofs PerModel PerSpec PerProofs PerProofs2 PerProofs6 TunModel TunProofs SvfModel SvfSpec SvfProofs SvfProofs2.
Import ListNotations.
Open Scope string_scope.
Open Scope list_scope.
Open Scope nat_scope.

Lemma load_got : forall L r mem file j, json_config_load L r mem file = Got j ->
  exists t, file = Some t /\ parse L (JsonModel.cstr (PerModel.take (r_len r) t)) = Some j.
Proof.
  intros L r mem [t|] j H; [|discriminate]. unfold json_config_load in H.
  destruct (r_size r); [|discriminate]. destruct (r_open r); [|discriminate]. destruct (r_mem r); [|discriminate].
  destruct mem; [|discriminate]. cbn [negb] in H.
  destruct (parse L (JsonModel.cstr (PerModel.take (r_len r) t))) eqn:E; [|discriminate]. injection H as <-. eauto.
Qed.

Lemma start_file : forall L cast ip f t, fst (start L cast ip f (Some t)) = Some t.
Proof. intros. unfold start. destruct (f_before f); reflexivity. Qed.

(** A start which succeeds with a file has read an array of it. *)
Lemma start_got : forall L cast ip f t file s, strtod_sane L -> start L cast ip f (Some t) = (file, Got s) ->
  exists js l, parse L (JsonModel.cstr (PerModel.take (r_len (f_read f)) t)) = Some (JArr js) /\ parse L (JsonModel.cstr t) = Some (JArr js) /\
    load_items cast (f_mem f) 0 js = Some l /\ give_services ip (f_regs f) 0 l TunModel.init = (s, true).
Proof.
  intros L cast ip f t file s HL H. unfold start in H. destruct (f_before f); [|discriminate]. cbn [negb] in H.
  unfold load_tcp_tunnel_services in H. cbn [json_config_exists PerModel.file_exists] in H.
  destruct (json_config_load L (f_read f) (f_parse f) (Some t)) as [j| |] eqn:E; try discriminate.
  apply load_got in E. destruct E as (t' & Ht & E). injection Ht as <-.
  destruct (load_services_from_json cast (f_mem f) j) as [l|] eqn:El; [|discriminate].
  destruct (f_between f); [|discriminate]. cbn [negb] in H.
  destruct (give_services ip (f_regs f) 0 l TunModel.init) as [s' b] eqn:Eg. destruct b; [|discriminate].
  destruct (f_after f); [|discriminate]. cbn [andb] in H. injection H as _ <-.
  destruct j; try discriminate. exists l0, l. repeat split; auto. eapply read_array; eauto.
Qed.

Lemma init_wlt : wlt TunModel.init.
Proof. split; constructor. Qed.

Lemma start_exact : forall L cast ip f t file s l, strtod_sane L -> cast_fits cast -> enough f -> start L cast ip f (Some t) = (file, Got s) ->
  file_describes L t l -> distinct l -> offers_services ip s l.
Proof.
  intros L cast ip f t file s l HL HC (M1 & M2 & M3 & M4) H (js & Hp & Hf) [D1 D2].
  destruct (start_got _ _ _ _ _ _ _ HL H) as (js' & l' & _ & Hp' & Hl & Hg).
  rewrite Hp in Hp'. injection Hp' as <-. rewrite (items_described cast (f_mem f) js l HC M1 M2 M3 Hf 0) in Hl. injection Hl as <-.
  destruct (give_services_ok ip (f_regs f) M4 l 0 TunModel.init s init_wlt) as (new & Ho & Hn); auto.
  unfold offers_services. rewrite Ho. exact Hn.
Qed.

Lemma start_well : forall L cast ip f t l, cast_fits cast -> well f (String.length t) ->
  file_describes L t l -> Forall (fun v => ip (v_host v) <> None) l -> exists s, start L cast ip f (Some t) = (Some t, Got s).
Proof.
  intros L cast ip f t l HC ((M1 & M2 & M3 & M4) & B1 & B2 & B3 & B4 & B5 & R1 & R2 & R3 & R4 & G1 & G2 & p & G3 & G4) (js & Hp & Hf) Hh.
  unfold start. rewrite B1. cbn [negb]. unfold load_tcp_tunnel_services. cbn [json_config_exists PerModel.file_exists].
  unfold json_config_load. rewrite R1, R2, R3, B3. cbn [negb]. rewrite (take_all _ _ R4), Hp. cbn [load_services_from_json].
  rewrite (items_described cast (f_mem f) js l HC M1 M2 M3 Hf 0), B4. cbn [negb].
  destruct (give_services_all ip (f_regs f) p G1 G2 G3 G4 l 0 TunModel.init Hh) as [s Hs]; [intros q []|].
  rewrite Hs, B5. cbn [andb]. eauto.
Qed.

(** ** Written files *)
Lemma cstr_print : forall v, JsonModel.cstr (print v) = print v.
Proof. intros v. apply cstr_id. apply c_print. Qed.

Lemma services_described : forall L l, ports_readable L -> Forall writable l -> file_describes L (print (services_json l)) l.
Proof.
  intros L l HL H. exists (map service_as_json l). split; [|now apply describes_services].
  rewrite cstr_print. apply (parse_print L (services_json l)); [now apply jwf_services | apply depth_services].
Qed.

Lemma torn_services : forall L cast ip f l t', ports_readable L -> Forall writable l -> begins t' (print (services_json l)) -> t' <> print (services_json l) ->
  forall s, snd (start L cast ip f (Some t')) <> Got s.
Proof.
  intros L cast ip f l t' HL Hw Hb Hne s H.
  destruct (start L cast ip f (Some t')) as [file r] eqn:E. cbn in H. subst r.
  destruct (start_got _ _ _ _ _ _ _ (proj1 HL) E) as (js & l' & Hp & _).
  rewrite (parse_print_begins_arr L (map service_as_json l)) in Hp; [discriminate| apply HL | now apply jwf_services | apply depth_services | | ].
  - eapply begins_trans; [|exact Hb]. eapply begins_trans; [apply cstr_begins|apply take_begins].
  - intros Heq. apply Hne.
    assert (Hb2 : begins (JsonModel.cstr (PerModel.take (r_len (f_read f)) t')) t') by (eapply begins_trans; [apply cstr_begins|apply take_begins]).
    unfold services_json in *. destruct Hb as [u Hu], Hb2 as [w Hw2].
    assert (Hl0 := f_equal String.length Heq). assert (Hl1 := f_equal String.length Hu). assert (Hl2 := f_equal String.length Hw2). rewrite len_app_s in Hl1, Hl2.
    destruct u; [|change (String.length (String a u)) with (S (String.length u)) in Hl1; lia]. rewrite app_nil_s in Hu. congruence.
Qed.

(** ** Histories of starts *)
Lemma starts_file : forall L cast ip fs t, fst (starts L cast ip fs (Some t)) = Some t.
Proof.
  intros L cast ip. induction fs as [|f fs IH]; intros t; [reflexivity|]. cbn [starts].
  pose proof (start_file L cast ip f t) as H. destruct (start L cast ip f (Some t)) as [file r]. cbn in H. subst file.
  specialize (IH t). destruct (starts L cast ip fs (Some t)) as [file rs]. exact IH.
Qed.

Lemma starts_in : forall L cast ip fs t r, In r (snd (starts L cast ip fs (Some t))) -> exists f, In f fs /\ start L cast ip f (Some t) = (Some t, r).
Proof.
  intros L cast ip. induction fs as [|f fs IH]; intros t r H; [destruct H|]. cbn [starts] in H.
  pose proof (start_file L cast ip f t) as Hf. destruct (start L cast ip f (Some t)) as [file r0] eqn:E. cbn in Hf. subst file.
  specialize (IH t r). destruct (starts L cast ip fs (Some t)) as [file rs]. cbn in H, IH. destruct H as [<- | H].
  - exists f. split; [now left|exact E].
  - destruct (IH H) as (f' & Hin & Hf'). exists f'. split; [now right|exact Hf'].
Qed.

Lemma write_begins : forall w file t file' b, PerModel.write_file w file t = (file', b) -> file' = file \/ exists t', file' = Some t' /\ begins t' t.
Proof. intros [ |n|n| |n] file t file' b H; injection H as <- _; auto; right; eexists; (split; [reflexivity|apply take_begins]). Qed.

(** A first start: the file afterwards is missing or the beginning of the default
    services; if the device runs, it is all of them. *)
Lemma first_file : forall L cast ip f file r, start L cast ip f None = (file, r) ->
  file = None \/ exists t, file = Some t /\ begins t (print (services_json [ssh_service])).
Proof.
  intros L cast ip f file r H. unfold start in H. destruct (f_before f); [|injection H as <- _; auto]. cbn [negb] in H.
  unfold load_tcp_tunnel_services in H. cbn [json_config_exists PerModel.file_exists] in H.
  destruct (create_default_services_file (f_dmem f) (f_write f) None) as [file' b] eqn:E.
  assert (Hx : file = file') by (destruct b as [[]|]; injection H as <- _; reflexivity). subst file'.
  unfold create_default_services_file, json_config_save in E. destruct (f_dmem f); [|injection E as <- _; auto].
  apply write_begins in E. exact E.
Qed.

Lemma first_got : forall L cast ip f file s, start L cast ip f None = (file, Got s) -> exists t, file = Some t /\ start L cast ip f (Some t) = (Some t, Got s).
Proof.
  intros L cast ip f file s H. unfold start in *. destruct (f_before f); [|discriminate]. cbn [negb] in *.
  unfold load_tcp_tunnel_services in *. cbn [json_config_exists PerModel.file_exists] in *.
  destruct (create_default_services_file (f_dmem f) (f_write f) None) as [file' b] eqn:E.
  destruct b as [[]|]; try discriminate.
  destruct (json_config_load L (f_read f) (f_parse f) file') as [j| |] eqn:El; try discriminate.
  destruct (load_got _ _ _ _ _ El) as (t & -> & _).
  injection H as <- H. exists t. split; [reflexivity|]. rewrite El. now rewrite H.
Qed.

Lemma ssh_writable : Forall writable [ssh_service].
Proof.
  constructor; [|constructor]. unfold writable, ssh_service. cbn [v_id v_type v_host v_port v_meta].
  refine (conj _ (conj _ (conj _ (conj _ _)))); try (apply lit_no_nul; reflexivity); [|constructor].
  rewrite <- (Nat2N.id 22). change (N.to_nat (N.of_nat 22) <= N.to_nat 65535). lia.
Qed.

Lemma ssh_distinct : distinct [ssh_service].
Proof. split; repeat constructor; intros []. Qed.

(** ** The device configuration *)
Lemma jwf_config : forall L c, ports_readable L -> complete c -> jwf L (config_json c).
Proof.
  intros L [p d sv n] HL ((p' & Hp & Np) & (d' & Hd & Nd) & Hs & Hn). cbn in *. subst p d.
  assert (K : no_nul "ProductId" /\ no_nul "DeviceId" /\ no_nul "Server" /\ no_nul "ServerPort") by (refine (conj _ (conj _ (conj _ _))); apply lit_no_nul; reflexivity).
  destruct K as (K1 & K2 & K3 & K4). pose proof (proj2 HL _ Hn) as Hk.
  destruct sv as [sv|]; destruct (Nat.eqb n 0); cbn [config_json opt_member app c_product c_device c_server c_port].
  - exact (conj (conj K1 Np) (conj (conj K2 Nd) (conj (conj K3 (Hs sv eq_refl)) I))).
  - exact (conj (conj K1 Np) (conj (conj K2 Nd) (conj (conj K3 (Hs sv eq_refl)) (conj (conj K4 Hk) I)))).
  - exact (conj (conj K1 Np) (conj (conj K2 Nd) I)).
  - exact (conj (conj K1 Np) (conj (conj K2 Nd) (conj (conj K4 Hk) I))).
Qed.

Lemma depth_config : forall c, jdepth (config_json c) <= nesting_limit.
Proof.
  intros [[p|] [d|] [sv|] n]; unfold config_json; cbn [opt_member app c_product c_device c_server c_port]; destruct (Nat.eqb n 0); apply Nat.leb_le; reflexivity.
Qed.

Lemma config_round : forall cast c, cast_fits cast -> complete c -> config_from_json cast (config_json c) = Some c.
Proof.
  intros cast [p d sv n] HC ((p' & Hp & Np) & (d' & Hd & Nd) & Hs & Hn). cbn in *. subst p d.
  destruct (Nat.eqb_spec n 0) as [->|Hz].
  - destruct sv as [sv|]; reflexivity.
  - unfold config_json. cbn [opt_member app c_product c_device c_server c_port].
    assert (E : Nat.eqb n 0 = false) by now apply Nat.eqb_neq. rewrite E.
    destruct sv as [sv|]; unfold config_from_json; cbn [opt_member app get_item find_member];
    repeat match goal with |- context [eqb_nocase ?a ?b] => let v := eval vm_compute in (eqb_nocase a b) in change (eqb_nocase a b) with v end; cbn [str_of num_of];
    rewrite (HC n Hn); reflexivity.
Qed.

Lemma torn_config : forall L cast r mem c t', ports_readable L -> complete c -> begins t' (print (config_json c)) -> t' <> print (config_json c) ->
  forall c', load_device_config L cast r mem (Some t') <> Got c'.
Proof.
  intros L cast r mem c t' HL Hc Hb Hne c' H. unfold load_device_config in H.
  destruct (json_config_load L r mem (Some t')) as [j| |] eqn:E; try discriminate.
  apply load_got in E. destruct E as (x & Hx & E). injection Hx as <-.
  assert (Hb2 : begins (JsonModel.cstr (PerModel.take (r_len r) t')) t') by (eapply begins_trans; [apply cstr_begins|apply take_begins]).
  unfold config_json in *.
  match type of Hb with begins _ (print (JObj ?l)) => rewrite (parse_print_begins L l) in E end; [discriminate | apply HL | exact (jwf_config L c HL Hc) | exact (depth_config c) | eapply begins_trans; eauto | ].
  intros Heq. apply Hne. destruct Hb as [u Hu], Hb2 as [w Hw2].
  assert (Hl0 := f_equal String.length Heq). assert (Hl1 := f_equal String.length Hu). assert (Hl2 := f_equal String.length Hw2). rewrite len_app_s in Hl1, Hl2.
  destruct u; [|change (String.length (String a u)) with (S (String.length u)) in Hl1; lia]. rewrite app_nil_s in Hu. congruence.
Qed.
