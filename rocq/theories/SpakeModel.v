(** The key agreement of src/modules/mbedtls/nm_mbedtls_spake2.c 64-198, over an
    arbitrary commutative group in place of secp256r1 and an arbitrary hash in
    place of SHA-256. Random generator failures and allocation failures inside
    mbedtls are left out: the only failure is a client share that is not the encoding of
    a point (status from mbedtls_ecp_point_read_binary and mbedtls_ecp_muladd). *)
From Coq Require Import String Ascii List Bool Arith NArith ZArith.
From Verif Require Import PwAuthModel.
Import ListNotations.
Open Scope string_scope.

(** A commutative group with a generator, the two constants M and N of lines 14-28, the
    number [order] (grp.N) which annihilates M, and a binary encoding of its elements. *)
Record curve := {
  point : Type;
  padd : point -> point -> point;
  pneg : point -> point;
  pzero : point;
  generator : point;
  const_M : point;
  const_N : point;
  order : nat;
  encode_point : point -> string;          (* mbedtls_ecp_point_write_binary *)
  decode_point : string -> option point    (* mbedtls_ecp_point_read_binary *) }.

Section Spake.
Variable E : curve.
Variable H : string -> string.             (* SHA-256 *)

(** Scalar multiplication, mbedtls_ecp_mul. *)
Fixpoint pmul (n : nat) (p : point E) : point E :=
  match n with O => pzero E | S m => padd E p (pmul m p) end.

(** mbedtls_mpi_read_binary: big endian. *)
Definition bytes_to_nat (s : string) : nat :=
  N.to_nat (fold_left (fun n c => (256 * n + N_of_ascii c)%N) (list_ascii_of_string s) 0%N).

(** mbedtls_mpi_write_binary of mbedtls_mpi_size bytes (minimal big endian),
    used by hashMpi 264-275. *)
Fixpoint nat_to_bytes_fuel (fuel : nat) (n : N) (acc : string) : string :=
  match fuel with
  | O => acc
  | S f => if N.eqb n 0 then acc
           else nat_to_bytes_fuel f (n / 256)%N (String (ascii_of_N (n mod 256)) acc)
  end.
Definition nat_to_bytes (n : nat) : string :=
  nat_to_bytes_fuel (S (N.to_nat (N.size (N.of_nat n)))) (N.of_nat n) "".

(** hashLength 235-244: the low 32 bits, big endian. *)
Definition be32 (n : N) : string :=
  String (ascii_of_N ((n / 16777216) mod 256))
 (String (ascii_of_N ((n / 65536) mod 256))
 (String (ascii_of_N ((n / 256) mod 256))
 (String (ascii_of_N (n mod 256)) ""))).

(** hashData 246-252. *)
Definition hash_data (d : string) : string := be32 (N.of_nat (String.length d)) ++ d.

(** Lines 162-172: what is fed to the hash. *)
Definition transcript (cfp dfp : string) (T S K : point E) (w : nat) : string :=
  hash_data cfp ++ hash_data dfp ++ hash_data (encode_point E T) ++
  hash_data (encode_point E S) ++ hash_data (encode_point E K) ++ hash_data (nat_to_bytes w).

(** Lines 114-126: the password scalar. Without a password the hash is random. *)
Definition password_scalar (pw : option string) (rnd : nat) : nat :=
  match pw with
  | Some p => bytes_to_nat (H p)
  | None => rnd
  end.

(** Line 116: the device's secret scalar drawn from the random generator; [rnd] stands for
    everything drawn, the scalar and the dummy password. *)
Definition device_secret (rnd : nat) : nat := S rnd.

(** Lines 138-139: S = N*w + Y. *)
Definition device_share (y w : nat) : point E := padd E (pmul w (const_N E)) (pmul y (generator E)).

(** Lines 141-150: K = y*T + ((-y*w) mod n)*M. *)
Definition device_K (y w : nat) (T : point E) : point E :=
  padd E (pmul y T) (pmul (Z.to_nat ((-1 * Z.of_nat y * Z.of_nat w) mod Z.of_nat (order E))) (const_M E)).

(** Lines 64-198. *)
Definition spake_key (x : exchange) : string * bool :=
  match decode_point E (x_T x) with
  | None => (x_old x, false)
  | Some T =>
      let y := device_secret (x_rnd x) in
      let w := password_scalar (x_password x) (x_rnd x) in
      let S := device_share y w in
      (H (transcript (x_cfp x) (x_dfp x) T S (device_K y w T) w), true)
  end.

(** The platform of PwAuthModel built from it; nm_mbedtls_spake2.c 220-232. *)
Definition spake_crypto : crypto :=
  {| calculate_key := spake_key; confirmation := fun k => H (H k) |}.

(** The client side of SPAKE2 (the protocol comment of lines 58-63 and the
    formulas 138-141 with the roles exchanged; the client itself is not in
    this repository): T = X + w*M, K = x*(S - w*N). *)
Definition client_share (x w : nat) : point E := padd E (pmul x (generator E)) (pmul w (const_M E)).
Definition client_K (x w : nat) (S : point E) : point E :=
  pmul x (padd E S (pneg E (pmul w (const_N E)))).
Definition client_proof (cfp dfp : string) (x w : nat) (S : point E) : string :=
  H (H (H (transcript cfp dfp (client_share x w) S (client_K x w S) w))).
End Spake.

(** What makes the record a commutative group with the stated constants. *)
Record curve_laws (E : curve) : Prop := {
  padd_comm : forall p q, padd E p q = padd E q p;
  padd_assoc : forall p q r, padd E p (padd E q r) = padd E (padd E p q) r;
  padd_zero : forall p, padd E (pzero E) p = p;
  padd_neg : forall p, padd E p (pneg E p) = pzero E;
  order_pos : order E <> 0;
  order_M : pmul E (order E) (const_M E) = pzero E;
  decode_encode : forall p, decode_point E (encode_point E p) = Some p }.
