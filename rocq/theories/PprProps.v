(** * C104: logging a CoAP packet *)
From Coq Require Import String List Bool NArith Arith Lia.
From Verif Require Import PprModel PprSpec PprProofs.
Import ListNotations.
Local Open Scope N_scope.

(** Whatever a peer sends, whatever options and lengths: printing it writes nothing
    outside of the buffers. *)
Theorem C104_safe : forall mem header p, ~ In 0 header -> (forall m, p = Good m -> parses m) -> packet_print mem header p <> Unsafe.
Proof.
  intros mem header p Hh Hp. destruct mem; [|discriminate]. destruct (pieces_ok header p Hh Hp) as (l & E & Z).
  destruct (print_ok header p l E Z) as [-> | [-> _]]; discriminate.
Qed.
Print Assumptions C104_safe.

Lemma unhex_ok : forall t, octets t -> length (concat (map hex2 t)) = (2 * length t)%nat /\ unhex (concat (map hex2 t)) = t.
Proof.
  assert (D : forall x, x < 16 -> digit16 (hexd x) = x).
  { intros x Hx. unfold digit16, hexd. destruct (N.ltb_spec x 10); [replace (48 + x <=? 57) with true by (symmetry; apply N.leb_le; lia)|replace (87 + x <=? 57) with false by (symmetry; apply N.leb_gt; lia)]; lia. }
  induction t as [|a t IH]; intros H; [split; reflexivity|]. inversion H as [|? ? Ha Ht]; subst. destruct (IH Ht) as [I1 I2]. cbn [map concat]. split.
  - rewrite app_length, I1. cbn [length hex2]. lia.
  - cbn [hex2 app unhex]. rewrite I2. f_equal. rewrite !D.
    + rewrite (N.mod_small a 256) by exact Ha. symmetry. apply N.div_mod. discriminate.
    + apply N.mod_upper_bound. discriminate.
    + rewrite (N.mod_small a 256) by exact Ha. apply N.div_lt_upper_bound; [discriminate|]. exact Ha.
Qed.

Definition code_check (r : N) : bool :=
  match code_to_string r with
  | Some t => Nat.eqb (length t) 3 && forallb (fun c => (48 <=? c) && (c <=? 57)) t && (value t =? 100 * (r / 32) + r mod 32)
  | None => false
  end.
Lemma code_checks : forallb (fun k => code_check (N.of_nat k)) (seq 64 128) = true.
Proof. vm_compute. reflexivity. Qed.

Lemma code_says_ok : forall c, c < 256 -> exists t, code_to_string c = Some t /\ code_says c t.
Proof.
  intros c Hc. destruct (code_ok c) as (t & E & _). exists t. split; [exact E|]. unfold code_says.
  split; [intros ->; vm_compute in E; injection E as <-; reflexivity|]. split; [intros ->; vm_compute in E; injection E as <-; reflexivity|]. split; [intros ->; vm_compute in E; injection E as <-; reflexivity|]. split; [intros ->; vm_compute in E; injection E as <-; reflexivity|].
  intros Hr. pose proof code_checks as K. rewrite forallb_forall in K. specialize (K (N.to_nat c)). rewrite N2Nat.id in K. unfold code_check in K. rewrite E in K.
  assert (K' := K ltac:(apply in_seq; lia)). apply andb_prop in K'. destruct K' as [K1 K3]. apply andb_prop in K1. destruct K1 as [K1 K2].
  apply Nat.eqb_eq in K1. apply N.eqb_eq in K3. split; [exact K1|]. split; [intros ->; discriminate|]. split; [|exact K3].
  rewrite forallb_forall in K2. apply Forall_forall. intros x Hx. specialize (K2 x Hx). apply andb_prop in K2. rewrite !N.leb_le in K2. exact K2.
Qed.

(** The line of a packet says what the packet is, when it has at most 1022 characters;
    of a longer one the first 1022 are logged or that it cannot be printed. *)
Theorem C104_text : forall header m, ~ In 0 header -> parses m -> g_type m < 4 -> g_code m < 256 -> g_id m < 65536 ->
  exists text, packet_says header m text /\
  ((length text <= 1022)%nat -> packet_print true header (Good m) = Line text) /\
  ((1022 < length text)%nat -> packet_print true header (Good m) = Line (firstn 1022 text) \/ packet_print true header (Good m) = CanNotPrint).
Proof.
  intros header m Hh Hm Ht Hc Hi.
  destruct (pieces_ok header (Good m) Hh) as (l & E & Z); [intros m' X; injection X as <-; exact Hm|].
  exists (concat l). split.
  - destruct Hm as (P1 & P2 & P3 & P4). destruct (code_says_ok (g_code m) Hc) as (c & Ec & Sc). destruct (token_ok (g_token m) P1) as (Et & _). destruct (options_ok _ P3) as (ts & Eo & F & _).
    cbn [pieces] in E. rewrite Ec, Et, Eo in E. apply (f_equal (fun o => match o with Some x => x | None => [] end)) in E. cbv beta iota in E. subst l. destruct (unhex_ok _ P2) as [U1 U2].
    exists (type_to_string (g_type m)), c, (dec (g_id m mod 65536)), (concat (map hex2 (g_token m))), ts, (dec (g_payload m)).
    split; [cbn [app concat]; rewrite concat_app; cbn [concat]; rewrite app_nil_r, <- !app_assoc; reflexivity|]. split.
    { assert (X : g_type m = 0 \/ g_type m = 1 \/ g_type m = 2 \/ g_type m = 3) by lia. destruct X as [->|[->|[->| ->]]]; reflexivity. }
    split; [exact Sc|]. split; [rewrite N.mod_small by exact Hi; apply dec_ok; eapply N.lt_trans; [exact Hi|reflexivity]|]. split; [exact U1|]. split; [exact U2|]. split; [exact F|].
    apply dec_ok. eapply N.lt_trans; [exact P4|reflexivity].
  - pose proof (print_ok header (Good m) l E Z) as X. split; intros L; destruct X as [X|[X Y]].
    + rewrite X. now rewrite firstn_all2.
    + lia.
    + now left.
    + now right.
Qed.
Print Assumptions C104_text.

(** A packet which is none. *)
Theorem C104_invalid : forall header, ~ In 0 header -> (length header <= 1008)%nat -> packet_print true header Bad = Line (header ++ bytes "Invalid packet").
Proof.
  intros header Hh Hl. destruct (pieces_ok header Bad Hh) as (l & E & Z); [discriminate|]. pose proof (print_ok header Bad l E Z) as X. cbn [pieces] in E. apply (f_equal (fun o => match o with Some x => x | None => [] end)) in E. cbv beta iota in E. subst l. cbn [concat] in X. rewrite app_nil_r in X.
  assert (L : (length (header ++ bytes "Invalid packet") <= 1022)%nat) by (rewrite app_length; change (length (bytes "Invalid packet")) with 14%nat; lia).
  destruct X as [X|[_ X]]; [rewrite X, firstn_all2 by exact L; reflexivity|lia].
Qed.
Print Assumptions C104_invalid.

Definition long_path (n : nat) : message := {| g_type := 0; g_code := 1; g_id := 7; g_token := [18; 52]; g_options := [(11, repeat 97 n)]; g_payload := 0 |}.
Lemma long_parses : forall n, (n <= 2000)%nat -> parses (long_path n).
Proof.
  intros n H. unfold parses, long_path. cbn [g_token g_options g_payload]. split; [cbn; lia|]. split; [repeat constructor; lia|]. split; [|reflexivity].
  constructor; [|constructor]. cbn [fst snd]. split; [reflexivity|]. split; [|rewrite repeat_length; eapply N.lt_trans with 2001; [lia|reflexivity]].
  apply Forall_forall. intros x X. apply repeat_spec in X. subst. reflexivity.
Qed.

(** Not so: a line which is cut is not shown as if it were whole.  When the last text does
    not fit, the line is logged without it. *)
Theorem C104_silent_refuted : exists m t, parses m /\ packet_print true (bytes "coap server handle packet") (Good m) = Line t /\ forall text, packet_says (bytes "coap server handle packet") m text -> t <> text.
Proof.
  exists (long_path 910). destruct (packet_print true (bytes "coap server handle packet") (Good (long_path 910))) as [t| | |] eqn:E; try (vm_compute in E; discriminate).
  exists t. split; [apply long_parses; lia|]. split; [reflexivity|]. intros text (ty & c & i & tok & os & pl & -> & _ & _ & _ & _ & _ & _ & Hpl) X.
  assert (L : (48 <=? nth 1021 t 0) && (nth 1021 t 0 <=? 57) = false /\ length t = 1022%nat) by (vm_compute in E; injection E as <-; split; reflexivity).
  destruct L as [L1 L2]. destruct Hpl as (Hn & Hd & _).
  assert (D : forall pre, pre ++ pl = t -> False).
  { intros pre Y. destruct (exists_last Hn) as (u & d & ->). rewrite app_assoc in Y. rewrite <- Y in L1, L2. rewrite app_length in L2. cbn [length] in L2.
    rewrite app_nth2 in L1 by lia. replace (1021 - length (pre ++ u))%nat with 0%nat in L1 by lia. cbn [nth] in L1. apply Forall_app in Hd. destruct Hd as [_ Hd]. inversion Hd as [|? ? H1 _]; subst.
    apply andb_false_iff in L1. rewrite !N.leb_gt in L1. lia. }
  apply (D (bytes "coap server handle packet" ++ bytes "Type: " ++ ty ++ bytes ", Code: " ++ c ++ bytes ", MessageId: " ++ i ++ bytes ", Token: " ++ tok ++ bytes ", Options:" ++ concat os ++ bytes ", Payload Length: ")).
  rewrite X, <- !app_assoc. reflexivity.
Qed.
Print Assumptions C104_silent_refuted.

(** Not so: pointers stay inside of the buffer or one behind it, as the C standard asks:
    after a long path the place to write at lies far outside, though nothing is written
    there. *)
Theorem C104_pointer_refuted : exists m l before buf q, parses m /\ pieces (bytes "coap server handle packet") (Good m) = Some l /\
  (exists behind, l = before ++ behind) /\ write_all (repeat 0 1024, Some 0%nat) before = Some (buf, Some q) /\ (1024 < q)%nat.
Proof.
  destruct (pieces (bytes "coap server handle packet") (Good (long_path 1200))) as [l|] eqn:E; [|vm_compute in E; discriminate].
  destruct (write_all (repeat 0 1024, Some 0%nat) (firstn 4 l)) as [[buf [q|]]|] eqn:W; [|exfalso; vm_compute in E; injection E as <-; vm_compute in W; discriminate..].
  exists (long_path 1200), l, (firstn 4 l), buf, q. split; [apply long_parses; lia|]. split; [exact E|]. split; [exists (skipn 4 l); symmetry; apply firstn_skipn|]. split; [exact W|].
  destruct (write_all_ok (firstn 4 l) [] (repeat 0 1024, Some 0%nat)) as (s' & W' & H).
  { split; [apply repeat_length|]. split; [|reflexivity]. exists (repeat 0 1023). reflexivity. }
  rewrite W in W'. injection W' as <-. destruct H as (_ & _ & ->). cbn [app]. clear W. vm_compute in E. injection E as <-. apply Nat.ltb_lt. vm_compute. reflexivity.
Qed.
Print Assumptions C104_pointer_refuted.

(** The safety rests on the parser: a token of nine bytes or more would leave its buffer. *)
Theorem C104_token : forall header m, (8 < length (g_token m))%nat -> packet_print true header (Good m) = Unsafe.
Proof.
  intros header m H. unfold packet_print. cbn [negb pieces]. destruct (code_ok (g_code m)) as (c & -> & _).
  assert (E : token_to_string (g_token m) = None).
  { unfold token_to_string, sprintf. assert (L : length (concat (map hex2 (g_token m))) = (2 * length (g_token m))%nat).
    { clear H. induction (g_token m) as [|a t IH]; [reflexivity|]. cbn [map concat]. rewrite app_length, IH. cbn [length hex2]. lia. }
    replace (Nat.leb _ 17) with false by (symmetry; apply Nat.leb_gt; lia). reflexivity. }
  rewrite E. reflexivity.
Qed.
Print Assumptions C104_token.

(** ** Example: GET /iam/me with a block option and an unknown one *)
Definition get_me : message := {| g_type := 0; g_code := 1; g_id := 4660; g_token := [171; 205];
  g_options := [(11, bytes "iam"); (11, bytes "me"); (23, [22]); (65000, [1; 2]); (7, [22; 51])]; g_payload := 0 |}.
Example C104_ex : parses get_me /\ packet_print true (bytes "coap: ") (Good get_me) =
  Line (bytes "coap: Type: CON, Code: GET, MessageId: 4660, Token: abcd, Options:, Uri-Path: iam, Uri-Path: me, Block2: 1/0/1024, UNKNOWN(65000): OptionDataLength: 2, Uri-Port: 5683, Payload Length: 0").
Proof.
  split; [|vm_compute; reflexivity]. unfold parses, get_me. cbn [g_token g_options g_payload]. split; [cbn; lia|]. split; [repeat constructor|]. split; [|reflexivity].
  repeat (constructor; [split; [reflexivity|split; [repeat constructor|reflexivity]]|]). constructor.
Qed.
