(** * C100: the services file and the device configuration *)
From Coq Require Import String Ascii List Bool Arith NArith ZArith Lia Decimal DecimalString.
From Verif Require Import JsonModel JsonProofs PerModel PerSpec PerProofs TunModel SvfModel SvfSpec SvfProofs SvfProofs2 SvfProofs3.
Import ListNotations.
Open Scope string_scope.
Open Scope list_scope.
Open Scope nat_scope.

(** ** Concrete values for the examples *)

(** a strtod for integers *)
Definition dec : strtod_t := fun s =>
  match NilZero.int_of_string s with Some i => Some (Z.of_int i, String.length s) | None => None end.
(** a conversion which keeps the low 16 bits *)
Definition low16 (z : Z) : nat := Z.to_nat (Z.modulo z 65536).
(** addresses: only this one is read *)
Definition local (h : string) : option nat := if String.eqb h "127.0.0.1" then Some 1 else if String.eqb h "10.0.0.7" then Some 2 else None.

Fixpoint reads_all (k : nat) (z : Z) : bool :=
  match k with
  | O => true
  | S k' =>
    (let p := print_num z in
     match dec p with Some (y, n) => Z.eqb y z && Nat.eqb n (String.length p) | None => false end &&
     String.eqb (num_prefix 63 p) p && Nat.ltb (String.length p) 63 &&
     match p with String c _ => (Ascii.eqb c "-" || (N.leb 48 (N_of_ascii c) && N.leb (N_of_ascii c) 57)) | EmptyString => false end &&
     reads_all k' (Z.succ z))%bool
  end.

Lemma reads_all_ok : forall k z, reads_all k z = true -> forall n, n < k -> num_ok dec (z + Z.of_nat n)%Z.
Proof.
  induction k as [|k IH]; intros z H n Hn; [lia|]. cbn [reads_all] in H.
  apply andb_prop in H. destruct H as [H H5]. apply andb_prop in H. destruct H as [H H4].
  apply andb_prop in H. destruct H as [H H3]. apply andb_prop in H. destruct H as [H1 H2].
  destruct n as [|n].
  - rewrite Z.add_0_r. unfold num_ok. destruct (dec (print_num z)) as [[y m]|]; [|discriminate].
    apply andb_prop in H1. destruct H1 as [Hy Hm]. apply Z.eqb_eq in Hy. apply Nat.eqb_eq in Hm. subst y m.
    apply String.eqb_eq in H2. apply Nat.ltb_lt in H3.
    split; [reflexivity|]. split; [exact H2|]. split; [exact H3|]. destruct (print_num z); [discriminate|exact H4].
  - replace (z + Z.of_nat (S n))%Z with (Z.succ z + Z.of_nat n)%Z by lia. apply IH; [exact H5|lia].
Qed.

Lemma dec_ok : ports_readable dec.
Proof.
  split.
  - intros s z k H. unfold dec in H. destruct (NilZero.int_of_string s); [|discriminate]. injection H as _ <-. lia.
  - intros n Hn. replace (Z.of_nat n) with (0 + Z.of_nat n)%Z by lia. apply (reads_all_ok (N.to_nat 65536)); [vm_compute; reflexivity|lia].
Qed.

Lemma low16_fits : cast_fits low16.
Proof. intros n Hn. unfold low16. rewrite Z.mod_small; lia. Qed.

(** ** Faults for the examples *)
Definition all_mem : mems := {| m_new := fun _ => true; m_push := fun _ => true; m_ins := fun _ _ => true |}.
Definition all_regs : regs := {| g_new := fun _ => true; g_str := fun _ => true; g_port := fun i => Some i; g_meta := fun _ _ => true |}.
Definition read_all : rres := {| r_size := true; r_mem := true; r_open := true; r_len := 2000 |}.
Definition fine (w : wres) : faults :=
  {| f_before := true; f_dmem := true; f_write := w; f_read := read_all; f_parse := true; f_mem := all_mem; f_between := true; f_regs := all_regs; f_after := true |}.

Lemma fine_well : forall w n, n <= 2000 -> well (fine w) n.
Proof.
  intros w n Hn. unfold well, enough. cbn.
  repeat match goal with |- _ /\ _ => split | |- forall _, _ => intro end; try reflexivity; try exact Hn.
  exists (fun i => i). split; [reflexivity|auto].
Qed.

(** Two services, one of them with metadata. *)
Definition camera : service :=
  {| v_id := "camera"; v_type := "rtsp"; v_host := "10.0.0.7"; v_port := 2554; v_meta := [("path", "/video"); ("name", "front ""door""")] |}.
Definition both : list service := [ssh_service; camera].

Ltac writes :=
  match goal with
  | |- Forall _ [] => constructor
  | |- Forall _ _ => constructor; writes
  | |- writable _ => unfold writable; cbn [v_id v_type v_host v_port v_meta]; refine (conj _ (conj _ (conj _ (conj _ _)))); writes
  | |- no_nul _ => apply lit_no_nul; reflexivity
  | |- _ <= _ => apply Nat.leb_le; vm_compute; reflexivity
  | |- no_nul _ /\ no_nul _ => split; writes
  end.
Lemma both_writable : Forall writable both.
Proof. constructor; [exact (Forall_inv ssh_writable)|]. writes. Qed.
Lemma both_distinct : distinct both.
Proof. split; [repeat constructor; cbn; intuition discriminate|]. repeat constructor; cbn; intuition discriminate. Qed.

(** ** The device offers exactly the services of the file *)

(** Over any history of starts with any faults of the file system and of the
    rest of the start, however much of the file is read: a device which runs
    offers the services the file describes, each with its type, address, port and
    metadata, in the order of the file and no others. *)
Theorem C100_exact : forall L cast ip fs t l s, strtod_sane L -> cast_fits cast -> Forall enough fs ->
  file_describes L t l -> distinct l -> In (Got s) (snd (starts L cast ip fs (Some t))) -> offers_services ip s l.
Proof.
  intros L cast ip fs t l s HL HC HE Hd Hn H. destruct (starts_in _ _ _ _ _ _ H) as (f & Hf & Hs).
  rewrite Forall_forall in HE. eapply start_exact; eauto.
Qed.
Print Assumptions C100_exact.

(** All or nothing: whatever fails, a device which runs with the file has read an
    array all elements of which are service definitions. *)
Theorem C100_definitions : forall L cast ip fs t s, strtod_sane L -> In (Got s) (snd (starts L cast ip fs (Some t))) ->
  exists js, parse L (JsonModel.cstr t) = Some (JArr js) /\ Forall definition js.
Proof.
  intros L cast ip fs t s HL H. destruct (starts_in _ _ _ _ _ _ H) as (f & Hf & Hs).
  destruct (start_got _ _ _ _ _ _ _ HL Hs) as (js & l & _ & Hp & Hl & _). exists js. split; [exact Hp|]. eapply items_definitions; eauto.
Qed.
Print Assumptions C100_definitions.

(** A service whose host is no IPv4 address keeps the device from running. *)
Theorem C100_hosts : forall L cast ip fs t l s v, strtod_sane L -> cast_fits cast -> Forall enough fs ->
  file_describes L t l -> In v l -> ip (v_host v) = None -> ~ In (Got s) (snd (starts L cast ip fs (Some t))).
Proof.
  intros L cast ip fs t l s v HL HC HE (js & Hp & Hf) Hv Hi H. destruct (starts_in _ _ _ _ _ _ H) as (f & Hin & Hs).
  destruct (start_got _ _ _ _ _ _ _ HL Hs) as (js' & l' & _ & Hp' & Hl & Hg). rewrite Hp in Hp'. injection Hp' as <-.
  rewrite Forall_forall in HE. destruct (HE f Hin) as (M1 & M2 & M3 & M4).
  rewrite (items_described cast (f_mem f) js l HC M1 M2 M3 Hf 0) in Hl. injection Hl as <-.
  apply give_services_hosts in Hg. rewrite Forall_forall in Hg. now apply (Hg v Hv).
Qed.
Print Assumptions C100_hosts.

(** A start in which nothing fails runs the device with any file which describes
    services on IPv4 addresses. *)
Theorem C100_runs : forall L cast ip f t l, strtod_sane L -> cast_fits cast -> well f (String.length t) -> file_describes L t l -> distinct l ->
  Forall (fun v => ip (v_host v) <> None) l ->
  exists s, start L cast ip f (Some t) = (Some t, Got s) /\ offers_services ip s l.
Proof.
  intros L cast ip f t l HL HC Hw Hd Hn Hh. destruct (start_well L cast ip f t l HC Hw Hd Hh) as [s Hs]. exists s. split; [exact Hs|].
  eapply start_exact; eauto. apply Hw.
Qed.
Print Assumptions C100_runs.

(** ** Writing *)

(** What a setup writes for a list of services describes these services. *)
Theorem C100_written : forall L mem w file file' l, ports_readable L -> Forall writable l -> json_config_save mem w file (services_json l) = (file', Some true) ->
  (forall n, w = WTaken n -> String.length (print (services_json l)) <= n) -> exists t, file' = Some t /\ file_describes L t l.
Proof.
  intros L mem w file file' l HL Hw H Hn. unfold json_config_save in H. destruct mem; [|discriminate].
  exists (print (services_json l)). split; [|now apply services_described].
  destruct w as [ |n|n| |n]; cbn in H; try discriminate. injection H as <-. now rewrite take_all by (now apply Hn).
Qed.
Print Assumptions C100_written.

(** Power lost while a services file is written, at any byte: the device runs
    with all of its services or does not run. *)
Theorem C100_torn : forall L cast ip l t fs s, ports_readable L -> cast_fits cast -> Forall enough fs -> Forall writable l -> distinct l -> begins t (print (services_json l)) ->
  In (Got s) (snd (starts L cast ip fs (Some t))) -> t = print (services_json l) /\ offers_services ip s l.
Proof.
  intros L cast ip l t fs s HL HC HE Hw Hd Hb H.
  destruct (string_dec t (print (services_json l))) as [->|Hne].
  - split; [reflexivity|]. eapply C100_exact; eauto; [apply HL|]. now apply services_described.
  - exfalso. destruct (starts_in _ _ _ _ _ _ H) as (f & Hf & Hs). apply (torn_services L cast ip f l t HL Hw Hb Hne s). now rewrite Hs.
Qed.
Print Assumptions C100_torn.

(** ** The default services *)

(** A start without a services file: if the device runs, it offers SSH on the
    local host and nothing else, and the file it leaves describes this. *)
Theorem C100_default : forall L cast ip f file s, ports_readable L -> cast_fits cast -> enough f -> start L cast ip f None = (file, Got s) ->
  (exists a, ip "127.0.0.1" = Some a /\ offers s = [("ssh", "ssh", a, 22, [])]) /\
  exists t, file = Some t /\ file_describes L t [{| v_id := "ssh"; v_type := "ssh"; v_host := "127.0.0.1"; v_port := 22; v_meta := [] |}].
Proof.
  intros L cast ip f file s HL HC HE H. destruct (first_file _ _ _ _ _ _ H) as [-> | (t & -> & Hb)].
  { destruct (first_got _ _ _ _ _ _ H) as (t & Hx & _). discriminate. }
  destruct (first_got _ _ _ _ _ _ H) as (t' & Ht & Hs). injection Ht as <-.
  assert (Hin : In (Got s) (snd (starts L cast ip [f] (Some t)))).
  { cbn [starts]. rewrite Hs. cbn. auto. }
  destruct (C100_torn L cast ip [ssh_service] t [f] s HL HC (Forall_cons _ HE (Forall_nil _)) ssh_writable ssh_distinct Hb Hin) as [-> Ho].
  split.
  - unfold offers_services in Ho. inversion Ho as [|o v os vs (a & Ha & Hv) Hr E1 E2]; subst. inversion Hr; subst. exists a. split; [exact Ha|reflexivity].
  - eexists. split; [reflexivity|]. apply (services_described L [ssh_service]); [exact HL|exact ssh_writable].
Qed.
Print Assumptions C100_default.

(** Starts never change a services file which is there; without one they leave
    none or the beginning of the default one. *)
Theorem C100_kept : forall L cast ip fs file,
  (forall t, file = Some t -> fst (starts L cast ip fs file) = Some t) /\
  (file = None -> fst (starts L cast ip fs file) = None \/ exists t, fst (starts L cast ip fs file) = Some t /\ begins t (print (services_json [ssh_service]))).
Proof.
  intros L cast ip fs file. split; [intros t ->; apply starts_file|]. intros ->.
  induction fs as [|f fs IH]; [now left|]. cbn [starts].
  destruct (start L cast ip f None) as [file r] eqn:E. destruct (first_file _ _ _ _ _ _ E) as [-> | (t & -> & Hb)].
  - destruct (starts L cast ip fs None). exact IH.
  - right. exists t. split; [|exact Hb]. pose proof (starts_file L cast ip fs t) as Hf. destruct (starts L cast ip fs (Some t)). exact Hf.
Qed.
Print Assumptions C100_kept.

(** Not so: a device whose first start is interrupted runs once a later start goes
    well.  The file is there but incomplete, and no start writes it again. *)
Theorem C100_first_start_refuted : exists f t, enough f /\ start dec low16 local f None = (Some t, Failed) /\
  forall fs cast ip s, ~ In (Got s) (snd (starts dec cast ip fs (Some t))).
Proof.
  exists (fine (WLoss 0)), "". split; [apply (fine_well _ 0); lia|]. split; [reflexivity|].
  intros fs cast ip s H. destruct (starts_in _ _ _ _ _ _ H) as (f & Hf & Hs).
  apply (torn_services dec cast ip f [ssh_service] "" dec_ok ssh_writable) with (s := s).
  - now exists (print (services_json [ssh_service])).
  - discriminate.
  - now rewrite Hs.
Qed.
Print Assumptions C100_first_start_refuted.

(** ** Files which are taken although they are wrong *)

(** The values in quotes with the other quotes. *)
Fixpoint quoted (s : string) : string :=
  match s with EmptyString => EmptyString | String c s' => String (if Ascii.eqb c "'" then dq else c) (quoted s') end.

(** Two services with the same id: the device runs, and the metadata of the second
    is at the first. *)
Theorem C100_same_id_refuted : exists t l s, file_describes dec t l /\ map v_meta l = [[]; [("path", "/b")]] /\
  start dec low16 local (fine WNoOpen) (Some t) = (Some t, Got s) /\ map meta (svcs s) = [[("path", "/b")]; []].
Proof.
  exists (print (services_json [{| v_id := "web"; v_type := "http"; v_host := "127.0.0.1"; v_port := 80; v_meta := [] |};
                                {| v_id := "web"; v_type := "http"; v_host := "10.0.0.7"; v_port := 80; v_meta := [("path", "/b")] |}])).
  do 2 eexists. split; [|split; [|split]].
  - apply services_described; [exact dec_ok|]. writes.
  - reflexivity.
  - vm_compute. reflexivity.
  - reflexivity.
Qed.
Print Assumptions C100_same_id_refuted.

(** A port above 65535: the device runs, and offers another port, whichever the
    conversion gives. *)
Theorem C100_port_refuted : exists t, forall cast, (forall z, cast z <= N.to_nat 65535) ->
  (exists l, parse dec t = Some (JArr [JObj l]) /\ named "Port" l (JNum 65558)) /\
  exists s, start dec cast local (fine WNoOpen) (Some t) = (Some t, Got s) /\ exists v, svcs s = [v] /\ Z.of_nat (port v) <> 65558%Z.
Proof.
  exists (quoted "[{'Id':'ssh','Type':'ssh','Host':'127.0.0.1','Port':65558}]"). intros cast HC. split.
  - eexists. split; [vm_compute; reflexivity|]. rewrite named_find. reflexivity.
  - eexists. split; [vm_compute; reflexivity|]. eexists. split; [reflexivity|]. cbn [port]. specialize (HC 65558%Z). lia.
Qed.
Print Assumptions C100_port_refuted.

(** Memory which runs out while the services are read: the device runs without a
    service. *)
Theorem C100_memory_refuted : exists f s, start dec low16 local f (Some (print (services_json both))) = (Some (print (services_json both)), Got s) /\
  map id (svcs s) = ["ssh"].
Proof.
  exists {| f_before := true; f_dmem := true; f_write := WNoOpen; f_read := read_all; f_parse := true;
            f_mem := {| m_new := fun _ => true; m_push := fun i => Nat.eqb i 0; m_ins := fun _ _ => true |}; f_between := true; f_regs := all_regs; f_after := true |}.
  eexists. split; [vm_compute; reflexivity|reflexivity].
Qed.
Print Assumptions C100_memory_refuted.

(** Memory which runs out before the file is read: the program dereferences a null
    pointer. *)
Theorem C100_crash_refuted : exists f, snd (start dec low16 local f (Some (print (services_json both)))) = Crashed.
Proof.
  exists {| f_before := true; f_dmem := true; f_write := WNoOpen; f_read := {| r_size := true; r_mem := false; r_open := true; r_len := 2000 |}; f_parse := true;
            f_mem := all_mem; f_between := true; f_regs := all_regs; f_after := true |}. reflexivity.
Qed.
Print Assumptions C100_crash_refuted.

(** With that memory, no start crashes. *)
Theorem C100_no_crash_partial : forall L cast ip fs file, Forall (fun f => r_mem (f_read f) = true) fs -> ~ In Crashed (snd (starts L cast ip fs file)).
Proof.
  intros L cast ip fs. induction fs as [|f fs IH]; intros file HF H; [destruct H|]. inversion HF as [|? ? Hf HF']; subst.
  cbn [starts] in H. destruct (start L cast ip f file) as [file1 r] eqn:E. specialize (IH file1 HF').
  destruct (starts L cast ip fs file1) as [file2 rs]. cbn in H. destruct H as [-> | H]; [|auto].
  unfold start in E. destruct (f_before f); [|discriminate]. cbn [negb] in E.
  assert (HX : forall x, json_config_load L (f_read f) (f_parse f) x <> Crashed).
  { intros [x|]; [|discriminate]. unfold json_config_load. rewrite Hf. destruct (r_size (f_read f)); [|discriminate]. destruct (r_open (f_read f)); [|discriminate].
    destruct (f_parse f); [|discriminate]. cbn [negb]. destruct (parse L _); discriminate. }
  assert (HY : snd (load_tcp_tunnel_services L cast f file) <> Crashed).
  { unfold load_tcp_tunnel_services.
    assert (HZ : forall x, match json_config_load L (f_read f) (f_parse f) x with
      | Got j => match load_services_from_json cast (f_mem f) j with Some l => Got l | None => Failed end | Failed => Failed | Crashed => Crashed end <> @Crashed (list service)).
    { intros x. specialize (HX x). destruct (json_config_load L (f_read f) (f_parse f) x); try congruence. destruct (load_services_from_json cast (f_mem f) x0); discriminate. }
    destruct (json_config_exists file); [apply HZ|]. destruct (create_default_services_file (f_dmem f) (f_write f) file) as [file' [[]|]]; cbn [snd]; try discriminate. apply HZ. }
  destruct (load_tcp_tunnel_services L cast f file) as [file' [l| |]]; cbn [snd] in HY; try congruence.
  destruct (f_between f); [|discriminate]. cbn [negb] in E. destruct (give_services ip (f_regs f) 0 l TunModel.init) as [s b]. destruct (b && f_after f)%bool; congruence.
Qed.
Print Assumptions C100_no_crash_partial.

(** ** The device configuration *)

(** What is saved and reached the file is loaded again: product id, device id,
    server and server port. *)
Theorem C100_config : forall L cast mem w file file' r c, ports_readable L -> cast_fits cast -> complete c ->
  save_device_config mem w file c = (file', Some true) -> (forall n, w = WTaken n -> String.length (print (config_json c)) <= n) ->
  r_size r = true -> r_mem r = true -> r_open r = true -> String.length (print (config_json c)) <= r_len r ->
  load_device_config L cast r true file' = Got c.
Proof.
  intros L cast mem w file file' r c HL HC Hc H Hn R1 R2 R3 R4. unfold save_device_config, json_config_save in H. destruct mem; [|discriminate].
  assert (Hf : file' = Some (print (config_json c))).
  { destruct w as [ |n|n| |n]; cbn in H; try discriminate. injection H as <-. now rewrite take_all by (now apply Hn). }
  subst file'. unfold load_device_config, json_config_load. rewrite R1, R2, R3. cbn [negb]. rewrite (take_all _ _ R4), cstr_print.
  rewrite (parse_print L (config_json c)); [|now apply jwf_config|apply depth_config]. now rewrite config_round.
Qed.
Print Assumptions C100_config.

(** A configuration of which only a part was written is never loaded. *)
Theorem C100_config_torn : forall L cast r mem c t c', ports_readable L -> cast_fits cast -> complete c -> begins t (print (config_json c)) ->
  load_device_config L cast r mem (Some t) = Got c' -> t = print (config_json c) /\ c' = c.
Proof.
  intros L cast r mem c t c' HL HC Hc Hb H. destruct (string_dec t (print (config_json c))) as [->|Hne].
  - split; [reflexivity|]. unfold load_device_config in H. destruct (json_config_load L r mem (Some (print (config_json c)))) as [j| |] eqn:E; try discriminate.
    apply load_got in E. destruct E as (x & Hx & E). injection Hx as <-.
    assert (Hj : parse L (print (config_json c)) = Some j).
    { destruct (read_begins (r_len r) (print (config_json c))) as [u Hu]. rewrite cstr_print in Hu.
      destruct (config_from_json cast j) as [c2|] eqn:Ec; [|discriminate]. destruct j; try (discriminate Ec). rewrite Hu. now apply parse_more; [apply HL|]. }
    rewrite (parse_print L (config_json c)) in Hj; [|now apply jwf_config|apply depth_config]. injection Hj as Hj. unfold config_json in H. rewrite <- Hj in H. change (match config_from_json cast (config_json c) with Some c0 => Got c0 | None => Failed end = Got c') in H. rewrite (config_round cast c HC Hc) in H. now injection H as <-.
  - exfalso. eapply torn_config; eauto.
Qed.
Print Assumptions C100_config_torn.

(** What is loaded is what the file says: an object with both ids. *)
Theorem C100_config_read : forall L cast r mem t c, strtod_sane L -> load_device_config L cast r mem (Some t) = Got c ->
  exists l p d, parse L (JsonModel.cstr t) = Some (JObj l) /\ named "ProductId" l (JStr p) /\ named "DeviceId" l (JStr d) /\ c_product c = Some p /\ c_device c = Some d /\
    (forall x, c_server c = Some x <-> named "Server" l (JStr x)) /\
    (forall n, cast_fits cast -> n <= N.to_nat 65535 -> named "ServerPort" l (JNum (Z.of_nat n)) -> c_port c = n) /\
    ((forall z, ~ named "ServerPort" l (JNum z)) -> c_port c = 0).
Proof.
  intros L cast r mem t c HL H. unfold load_device_config in H. destruct (json_config_load L r mem (Some t)) as [j| |] eqn:E; try discriminate.
  apply load_got in E. destruct E as (x & Hx & E). injection Hx as <-.
  destruct (config_from_json cast j) as [c2|] eqn:Ec; [|discriminate]. injection H as ->. destruct j as [ | | | | |l]; try (discriminate Ec).
  unfold config_from_json in Ec. cbn [get_item] in Ec.
  destruct (str_of (find_member "ProductId" l)) as [p|] eqn:E1; [|discriminate]. destruct (str_of (find_member "DeviceId" l)) as [d|] eqn:E2; [|discriminate].
  injection Ec as <-. apply str_of_some in E1. apply str_of_some in E2. exists l, p, d. cbn [c_product c_device c_server c_port].
  split; [destruct (read_begins (r_len r) t) as [u Hu]; rewrite Hu; now apply parse_more|].
  rewrite !named_find. split; [exact E1|]. split; [exact E2|]. split; [reflexivity|]. split; [reflexivity|]. split; [|split].
  - intros y. rewrite named_find. apply str_of_some.
  - intros n HC Hn Hm. rewrite named_find in Hm. rewrite Hm. cbn [num_of]. now apply HC.
  - intros Hz. destruct (find_member "ServerPort" l) as [[]|] eqn:E3; try reflexivity. exfalso. apply (Hz z). now apply named_find.
Qed.
Print Assumptions C100_config_read.

(** ** Examples *)
Example C100_ex_both : exists s, file_describes dec (print (services_json both)) both /\ distinct both /\
  snd (starts dec low16 local [fine WNoOpen; fine WNoOpen] (Some (print (services_json both)))) = [Got s; Got s] /\
  offers s = [("ssh", "ssh", 1, 22, []); ("camera", "rtsp", 2, 2554, [("path", "/video"); ("name", "front ""door""")])].
Proof.
  eexists. split; [apply services_described; [exact dec_ok|exact both_writable]|]. split; [exact both_distinct|].
  split; [vm_compute; reflexivity|]. vm_compute. reflexivity.
Qed.

Example C100_ex_first : exists t s s', starts dec low16 local [fine (WTaken 2000); fine WNoOpen] None = (Some t, [Got s; Got s']) /\ offers s' = [("ssh", "ssh", 1, 22, [])].
Proof. do 3 eexists. split; [vm_compute; reflexivity|reflexivity]. Qed.

Example C100_ex_refused : snd (starts dec low16 local [fine WNoOpen] (Some (quoted "[{'Id':'ssh','Type':'ssh','Host':'127.0.0.1','Port':22},{'Id':'web'}]"))) = [Failed] /\
  snd (starts dec low16 local [fine WNoOpen] (Some (quoted "[{'Id':'ssh','Type':'ssh','Host':'localhost','Port':22}]"))) = [Failed] /\
  exists s, snd (starts dec low16 local [fine WNoOpen] (Some (quoted "[{'id':'ssh','TYPE':'ssh','Host':'127.0.0.1','Port':22,'Metadata':{'a':1,'b':'c'}}] more"))) = [Got s] /\
  offers s = [("ssh", "ssh", 1, 22, [("b", "c")])].
Proof. split; [vm_compute; reflexivity|]. split; [vm_compute; reflexivity|]. eexists. split; [vm_compute; reflexivity|reflexivity]. Qed.

Example C100_ex_config : let c := {| c_product := Some "pr-12345678"; c_device := Some "de-abcdefgh"; c_server := Some "a.example"; c_port := 443 |} in
  exists t, complete c /\ save_device_config true (WTaken 2000) None c = (Some t, Some true) /\ load_device_config dec low16 read_all true (Some t) = Got c /\
  load_device_config dec low16 read_all true (Some (PerModel.take 20 t)) = Failed.
Proof.
  eexists. split; [|split; [vm_compute; reflexivity|split; vm_compute; reflexivity]].
  split; [eexists; split; [reflexivity|apply lit_no_nul; reflexivity]|]. split; [eexists; split; [reflexivity|apply lit_no_nul; reflexivity]|].
  split; [intros s E; injection E as <-; apply lit_no_nul; reflexivity|]. apply Nat.leb_le. vm_compute. reflexivity.
Qed.
