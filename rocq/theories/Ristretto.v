(** * Ristretto: model of /repo/src/group/ristretto.rs.

    The point arithmetic is in the crate curve25519-dalek, which is not in
    /repo: it is an abstract record here ([Dalek]), with its laws in
    [RistrettoFacts.DalekLaws].  Its scalar functions are simple enough to be
    modelled outright: a scalar is a number below [ell], written as 32 bytes,
    least significant first. *)
From Verif Require Export Xmd Fq Primes.
Open Scope Z_scope.

(** Little-endian reading and writing ([Scalar::to_bytes]). *)
Definition le_Z (b : bytes) : Z := be_Z (rev b).
Definition le_bytes (x : Z) (w : nat) : bytes := rev (I2OSP (Z.to_N x) w).

(** curve25519-dalek, [scalar::Scalar]: integers modulo [ell]. *)
Definition RScalar : Type := Fq ell.
(** [Scalar::to_bytes]. *)
Definition scalar_to_bytes (s : RScalar) : bytes := le_bytes (fval s) 32.
(** [Scalar::from_canonical_bytes([u8; 32])]: the top bit is clear and the
    number is reduced, that is, it is below [ell]. *)
Definition from_canonical_bytes (b : bytes) : option RScalar :=
  if le_Z b <? ell then Some (of_Z ell (le_Z b)) else None.
(** [Scalar::from_bytes_mod_order_wide(&[u8; 64])]. *)
Definition from_bytes_mod_order_wide (b : bytes) : RScalar := of_Z ell (le_Z b).
(** [Scalar::random]: 64 random bytes reduced. *)
Definition dalek_scalar_random (R : Rng) (st : rng_state R) : RScalar * rng_state R :=
  let '(b, st') := fill_bytes R st 64 in (from_bytes_mod_order_wide b, st').

(** curve25519-dalek, [ristretto]: the functions the crate calls. *)
Record Dalek : Type := {
  RPoint : Type;                              (* RistrettoPoint *)
  rp_eq : RPoint -> RPoint -> bool;           (* ConstantTimeEq, PartialEq *)
  rp_add : RPoint -> RPoint -> RPoint;
  rp_mul : RPoint -> RScalar -> RPoint;
  rp_base : RPoint;                           (* RISTRETTO_BASEPOINT_POINT *)
  rp_identity : RPoint;
  compress : RPoint -> bytes;                 (* compress().to_bytes() *)
  decompress : bytes -> option RPoint;        (* CompressedRistretto::decompress *)
  from_uniform_bytes : bytes -> RPoint        (* 64 bytes *)
}.

Section Ristretto.
Context (D : Dalek).

(** The common part of ristretto.rs:52-55 and 68-71:
    [ExpandMsgXmd::expand_message(input, dst, 64)?.fill_bytes(...)]. *)
Definition uniform_bytes (H : HashFn) (input dst : list bytes) : ires bytes :=
  x <- map_err (expand_message H input dst 64) IInput ;;
  Ok (fst (expander_fill H x 64)).

(** ristretto.rs:47-58. *)
Definition ristretto_hash_to_curve (H : HashFn) (input dst : list bytes) : ires (RPoint D) :=
  uniform_bytes <- uniform_bytes H input dst ;;
  Ok (from_uniform_bytes D uniform_bytes).

(** ristretto.rs:62-74. *)
Definition ristretto_hash_to_scalar (H : HashFn) (input dst : list bytes) : ires RScalar :=
  uniform_bytes <- uniform_bytes H input dst ;;
  Ok (from_bytes_mod_order_wide uniform_bytes).

(** [Option::filter]. *)
Definition opt_filter {A} (f : A -> bool) (o : option A) : option A :=
  match o with Some a => if f a then Some a else None | None => None end.

(** [CompressedRistretto::from_slice] and [<[u8; 32]>::try_from]: exactly 32
    bytes. *)
Definition from_slice32 (b : bytes) : option bytes := if (length b =? 32)%nat then Some b else None.

(** ristretto.rs:89-95. *)
Definition ristretto_deserialize_elem (element_bits : bytes) : res (RPoint D) :=
  c <- ok_or (from_slice32 element_bits) EDeserialization ;;
  ok_or (opt_filter (fun point => negb (rp_eq D point (rp_identity D))) (decompress D c))
        EDeserialization.

(** ristretto.rs:97-105; the loop gives up (with [Diverge]) after [fuel]
    rounds. *)
Fixpoint ristretto_random_scalar (fuel : nat) (R : Rng) (st : rng_state R) : res RScalar * rng_state R :=
  match fuel with
  | O => (Diverge, st)
  | S fuel =>
      let '(scalar, st') := dalek_scalar_random R st in
      if negb (feqb ell scalar (f0 ell)) then (Ok scalar, st')
      else ristretto_random_scalar fuel R st'
  end.

(** ristretto.rs:124-131. *)
Definition ristretto_deserialize_scalar (scalar_bits : bytes) : res RScalar :=
  ok_or (opt_filter (fun scalar => negb (feqb ell scalar (f0 ell)))
           (match from_slice32 scalar_bits with
            | Some bytes => from_canonical_bytes bytes
            | None => None
            end)) EDeserialization.

(** ristretto.rs:36-132, [impl Group for Ristretto255].  [Scalar::invert] maps
    0 to 0; [Zeroize] leaves the identity and the zero scalar. *)
Definition RistrettoGroup (fuel : nat) : Group := {|
  Elem := RPoint D; Scalar := RScalar;
  elem_len := 32; scalar_len := 32;
  elem_ct_eq := rp_eq D; elem_add := rp_add D; elem_mul := rp_mul D;
  zeroize_elem := fun _ => rp_identity D;
  scalar_ct_eq := feqb ell; scalar_add := fadd ell; scalar_mul := fmul ell; scalar_sub := fsub ell;
  zeroize_scalar := fun _ => f0 ell;
  hash_to_curve := ristretto_hash_to_curve;
  hash_to_scalar := ristretto_hash_to_scalar;
  base_elem := rp_base D; identity_elem := rp_identity D;
  serialize_elem := compress D;                       (* ristretto.rs:85-87 *)
  deserialize_elem := ristretto_deserialize_elem;
  random_scalar := ristretto_random_scalar fuel;
  invert_scalar := fun s => Ok (finv ell s);          (* ristretto.rs:107-109 *)
  is_zero_scalar := fun s => feqb ell s (f0 ell);     (* ristretto.rs:111-113 *)
  zero_scalar := f0 ell;
  serialize_scalar := scalar_to_bytes;                (* ristretto.rs:120-122 *)
  deserialize_scalar := ristretto_deserialize_scalar
|}.

(** ristretto.rs:27-34, [impl CipherSuite for Ristretto255]; the hash function
    SHA-512 (64-byte output, 128-byte blocks) is a parameter. *)
Definition RistrettoSuite (fuel : nat) (H : HashFn) : CipherSuite := {|
  ID := bstr "ristretto255-SHA512"; CSGroup := RistrettoGroup fuel; CSHash := H
|}.

End Ristretto.
