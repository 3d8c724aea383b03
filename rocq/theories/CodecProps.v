(** Properties C23-C26, C51 and C53: encoders, decoders and parsers. *)
From Coq Require Import String Ascii List Bool Arith NArith Lia.
From Verif Require Import CodecModel CodecSpec CodecProofs.
Import ListNotations.
Open Scope list_scope.

(** C23: a value below 2^62 comes back from exactly the bytes written for it,
    whatever follows them in the packet. *)
Theorem C23_round_trip : forall v rest, (v < 2 ^ 62)%N ->
  var_uint_read (var_uint_write v ++ rest) (length (var_uint_write v ++ rest)) =
  RdOk v (length (var_uint_write v)).
Proof. exact write_read. Qed.
Print Assumptions C23_round_trip.

(** Writing produces 1, 2, 4 or 8 bytes, the size of the caller's buffer at most. *)
Theorem C23_write_bytes : forall v, bytes (var_uint_write v) /\
  (length (var_uint_write v) = 1 \/ length (var_uint_write v) = 2 \/
   length (var_uint_write v) = 4 \/ length (var_uint_write v) = 8).
Proof. exact write_bytes. Qed.
Print Assumptions C23_write_bytes.

(** Parsing any buffer of at least one byte stays inside of it, *)
Theorem C23_parse_inside : forall mem size, mem <> [] -> size <= length mem ->
  var_uint_read mem size <> RdUndef.
Proof. exact read_safe. Qed.
Print Assumptions C23_parse_inside.

(** what is accepted was present completely, *)
Theorem C23_accepted_complete : forall mem size v len, bytes mem ->
  var_uint_read mem size = RdOk v len ->
  len <= size /\ (v < 2 ^ 62)%N /\ (len = 1 \/ len = 2 \/ len = 4 \/ len = 8).
Proof. exact read_ok. Qed.
Print Assumptions C23_accepted_complete.

(** and a written value with its end cut off is rejected. *)
Theorem C23_truncated_rejected : forall v k, (v < 2 ^ 62)%N ->
  0 < k < length (var_uint_write v) ->
  var_uint_read (firstn k (var_uint_write v)) k = RdFail.
Proof.
  intros v k V [K1 K2]. pose proof (write_read v [] V) as W. rewrite app_nil_r in W.
  destruct (write_bytes v) as [_ L].
  destruct (var_uint_write v) as [|b w]; [simpl in K2; lia|].
  destruct k as [|k]; [lia|].
  unfold var_uint_read in *. cbn [firstn nth_byte nth_error] in *. unfold nth_byte in *. cbn [nth_error] in *.
  remember (2 ^ N.to_nat (N.shiftr b 6)) as len.
  destruct (Nat.ltb_spec (length (b :: w)) len); [discriminate|].
  destruct (read_more (b :: w) 1 (len - 1) (N.land b 63)); [|discriminate].
  assert (E : len = length (b :: w)) by congruence. rewrite <- E in K2.
  destruct (Nat.ltb_spec (S k) len); [reflexivity|lia].
Qed.
Print Assumptions C23_truncated_rejected.

Example C23_ex : (2 ^ 61 + 7 < 2 ^ 62)%N /\
  var_uint_read (var_uint_write (2 ^ 61 + 7) ++ [1; 2]%N) 10 = RdOk (2 ^ 61 + 7) 8 /\
  var_uint_read (firstn 5 (var_uint_write (2 ^ 61 + 7))) 5 = RdFail /\
  var_uint_read (var_uint_write 300 ++ [9]%N) 3 = RdOk 300 2.
Proof. vm_compute. repeat split; reflexivity. Qed.

(** The bound is needed: larger values lose their upper bits. *)
Example C23_ex_bound : var_uint_read (var_uint_write (2 ^ 62 + 5)) 8 = RdOk (2 ^ 62 + 5 - 2 ^ 62) 8.
Proof. vm_compute. reflexivity. Qed.

(** C24: bytes written as hexadecimal digits are read back. *)
Theorem C24_round_trip : forall d, bytes d -> hex_to_data (data_to_hex d) (length d) = Some d.
Proof. exact hex_round_trip. Qed.
Print Assumptions C24_round_trip.

(** A text is accepted for n bytes exactly when it consists of 2n or 2n-1
    hexadecimal digits, and the bytes denote the number the text denotes. *)
Theorem C24_accepts_exactly : forall hex n d,
  hex_to_data hex n = Some d <->
  (length hex = 2 * n \/ n <> 0 /\ length hex = 2 * n - 1) /\
  length d = n /\ bytes d /\
  exists ds, Forall2 hex_digit hex ds /\ positional 256 d = positional 16 ds.
Proof. exact hex_to_data_spec. Qed.
Print Assumptions C24_accepts_exactly.

Example C24_ex :
  hex_to_data (list_ascii_of_string "0aFf") 2 = Some [10; 255]%N /\
  hex_to_data (list_ascii_of_string "aFf") 2 = Some [10; 255]%N /\
  hex_to_data (list_ascii_of_string "0g") 1 = None /\
  hex_to_data (list_ascii_of_string "0a0") 1 = None /\
  data_to_hex [10; 255]%N = list_ascii_of_string "0aff".
Proof. vm_compute. repeat split; reflexivity. Qed.

(** C25 does not hold: the fingerprint of a virtual connection is returned
    without a terminator. *)
Theorem C25_terminated_refuted : exists is_virtual conn_fp device_fp,
  bytes conn_fp /\ length conn_fp = 32 /\ bytes device_fp /\ length device_fp = 32 /\
  c_strlen (connection_device_fingerprint is_virtual conn_fp device_fp) = None.
Proof.
  exists true, (repeat 171%N 32), (repeat 171%N 32).
  repeat split; try reflexivity; repeat constructor.
Qed.
Print Assumptions C25_terminated_refuted.

(** It is so for every fingerprint of a virtual connection. *)
Theorem C25_virtual_never_terminated_refuted : forall conn_fp device_fp, bytes conn_fp ->
  c_strlen (connection_device_fingerprint true conn_fp device_fp) = None.
Proof. intros. apply virtual_unterminated. auto. Qed.
Print Assumptions C25_virtual_never_terminated_refuted.

(** All other fingerprint strings (device fingerprint, client fingerprint, device fingerprint of a
    connection which is not virtual) end inside of their allocation and are the digits of the
    fingerprint. *)
Theorem C25_terminated_partial : forall conn_fp device_fp,
  bytes device_fp -> length device_fp = 32 ->
  let s := connection_device_fingerprint false conn_fp device_fp in
  c_strlen s = Some 64 /\ length s = 65 /\
  exists text, firstn 64 s = map N_of_ascii text /\ hex_to_data text 32 = Some device_fp.
Proof.
  intros conn_fp fp B L s. unfold s, connection_device_fingerprint.
  destruct (to_hex_terminated fp B) as [T1 T2]. rewrite T1, T2, L.
  split; [reflexivity|]. split; [reflexivity|].
  exists (data_to_hex fp). split.
  - unfold to_hex_region, chars. rewrite firstn_app, firstn_all2 by (rewrite map_length, data_to_hex_length, L; lia).
    rewrite map_length, data_to_hex_length, L. simpl firstn. apply app_nil_r.
  - rewrite <- L. apply hex_round_trip. auto.
Qed.
Print Assumptions C25_terminated_partial.

Example C25_ex : bytes (repeat 171%N 32) /\
  c_strlen (connection_device_fingerprint false [] (repeat 171%N 32)) = Some 64.
Proof. split; [repeat constructor|reflexivity]. Qed.

(** C26: a generated token is 12 characters A-Z, a-z, 0-9; *)
Theorem C26_token_shape : forall src t, create_token src = TokOk t ->
  length t = 12 /\
  Forall (fun c => let n := nat_of_ascii c in 48 <= n <= 57 \/ 65 <= n <= 90 \/ 97 <= n <= 122) t.
Proof.
  intros src t H. apply token_shape in H. destruct H as [L F]. split; [auto|].
  eapply Forall_impl; [|exact F]. intros c I. apply alphabet_spec. exact I.
Qed.
Print Assumptions C26_token_shape.

(** the alphabet is all 62 of them, once each; *)
Theorem C26_alphabet : NoDup alphabet /\ length alphabet = 62 /\
  forall c, In c alphabet <->
    (let n := nat_of_ascii c in 48 <= n <= 57 \/ 65 <= n <= 90 \/ 97 <= n <= 122).
Proof. exact alphabet_spec. Qed.
Print Assumptions C26_alphabet.

(** uniformly distributed bytes give uniformly distributed tokens: for every n, every token is the
    result of the same number of sequences of n bytes; *)
Theorem C26_uniform : forall n t u, is_token t -> is_token u -> ways n t = ways n u.
Proof. exact token_uniform. Qed.
Print Assumptions C26_uniform.

(** each token can come out; *)
Theorem C26_every_token : forall t, is_token t ->
  exists l, bytes l /\ create_token (map Some l) = TokOk t.
Proof. exact token_reachable. Qed.
Print Assumptions C26_every_token.

(** an error of the random source before the token is complete is reported. *)
Theorem C26_errors_reported : forall l rest, create_token (map Some l) = TokMore ->
  create_token (map Some l ++ None :: rest) = TokError.
Proof.
  intros l rest H. apply token_error. rewrite create_token_bytes in H.
  destruct (Nat.leb_spec 12 (length (usable l))); [discriminate|auto].
Qed.
Print Assumptions C26_errors_reported.

(** Twelve usable bytes are enough. *)
Theorem C26_terminates : forall l, 12 <= length (filter (fun b => N.ltb b 62) l) ->
  exists t, create_token (map Some l) = TokOk t.
Proof.
  intros l H. rewrite create_token_bytes.
  assert (E : length (usable l) = length (filter (fun b => N.ltb b 62) l)).
  { clear H. induction l as [|b l IH]; [reflexivity|]. cbn [usable filter].
    destruct (N.ltb_spec b 62).
    - destruct (nth_error alphabet (N.to_nat b)) eqn:E; [cbn [length]; congruence|].
      apply nth_error_None in E. change (length alphabet) with 62 in E. lia.
    - replace (nth_error alphabet (N.to_nat b)) with (@None ascii); [exact IH|].
      symmetry. apply nth_error_None. change (length alphabet) with 62. lia. }
  rewrite E. destruct (Nat.leb_spec 12 (length (filter (fun b => N.ltb b 62) l))); [eauto|lia].
Qed.
Print Assumptions C26_terminates.

Example C26_ex :
  create_token (map Some ([200] ++ repeat 0 11 ++ [61])%N) = TokOk (list_ascii_of_string "AAAAAAAAAAA9") /\
  is_token (list_ascii_of_string "AAAAAAAAAAA9") /\
  create_token (map Some [200; 1]%N) = TokMore.
Proof.
  split; [vm_compute; reflexivity|]. split; [|vm_compute; reflexivity].
  split; [reflexivity|]. apply Forall_forall. intros c I. apply alphabet_spec.
  simpl in I. repeat (destruct I as [<-|I]; [vm_compute; lia|]). contradiction.
Qed.

(** C51 does not hold: a packet which ends after its stream id is read one byte too far. *)
Theorem C51_inside_refuted : exists pkt, bytes pkt /\ stream_header pkt = HdrUndef.
Proof. exists [1; 128; 0; 0; 0]%N. split; [repeat constructor|reflexivity]. Qed.
Print Assumptions C51_inside_refuted.

(** Those are exactly the bad packets. *)
Theorem C51_inside_partial : forall pkt, bytes pkt ->
  (stream_header pkt = HdrUndef <->
   4 <= length pkt /\ exists id, var_uint_read (tl pkt) (length (tl pkt)) = RdOk id (length (tl pkt))).
Proof. exact stream_header_undef_iff. Qed.
Print Assumptions C51_inside_partial.

(** So a packet of at least 10 bytes is always safe. *)
Theorem C51_long_packets_partial : forall pkt, bytes pkt -> 10 <= length pkt ->
  stream_header pkt <> HdrUndef.
Proof. exact stream_header_safe. Qed.
Print Assumptions C51_long_packets_partial.

(** What the device sends is parsed back, and what is parsed is what the packet holds. *)
Theorem C51_sent_is_parsed : forall at_s id f body, (id < 2 ^ 62)%N ->
  4 <= length (stream_packet at_s id (f :: body)) ->
  stream_header (stream_packet at_s id (f :: body)) = HdrOk id f (f :: body).
Proof. exact stream_header_ok. Qed.
Print Assumptions C51_sent_is_parsed.

Theorem C51_parsed_is_there : forall pkt id f rest, bytes pkt -> stream_header pkt = HdrOk id f rest ->
  exists a pre, pkt = a :: pre ++ rest /\ hd_error rest = Some f /\ (id < 2 ^ 62)%N
    /\ forall more, var_uint_read (pre ++ more) (length (pre ++ more)) = RdOk id (length pre).
Proof. exact stream_header_reads. Qed.
Print Assumptions C51_parsed_is_there.

Example C51_ex : stream_header [1; 64; 9; 3; 7]%N = HdrOk 9 3 [3; 7]%N /\
  stream_header [1; 192; 0; 0; 0; 0; 0; 0; 9]%N = HdrUndef /\
  stream_header [1; 192; 0; 0; 0; 0; 0; 0; 9; 1]%N = HdrOk 9 1 [1]%N.
Proof. vm_compute. repeat split; reflexivity. Qed.

(** C53: every status of the form class * 100 + detail survives. *)
Theorem C53_status_round_trip : forall k d, (k < 8)%N -> (d < 32)%N ->
  get_code_human (set_code_human (100 * k + d)) = (100 * k + d)%N.
Proof. exact coap_code_round. Qed.
Print Assumptions C53_status_round_trip.

Example C53_ex : (4 < 8)%N /\ get_code_human (set_code_human 404) = 404%N /\ set_code_human 404 = 132%N.
Proof. vm_compute. repeat split; reflexivity. Qed.
