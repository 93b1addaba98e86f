(** * EllipticCurve: model of /repo/src/group/elliptic_curve.rs.

    The blanket implementation of [Group] for every curve of the
    elliptic-curve crate, used for P-256, P-384 and P-521.  That crate is not
    in /repo.  What it computes outside point arithmetic (reading of SEC1
    encodings and of secret keys, rejection sampling, hashing to field
    elements) is modelled from its published source (version 0.13); the point
    arithmetic and point (de)compression are abstract ([Curve]), with laws in
    [EllipticCurveFacts.CurveLaws]. *)
From Verif Require Export Xmd Fq.
Open Scope Z_scope.

Record Curve : Type := {
  order : Z;                                  (* C::ORDER *)
  field_bytes : nat;                          (* FieldBytesSize *)
  field_okm : N;                              (* <FieldElement as FromOkm>::Length *)
  scalar_okm : N;                             (* <Scalar as FromOkm>::Length *)
  FieldElem : Type;
  field_from_okm : bytes -> FieldElem;        (* FromOkm::from_okm *)
  EPoint : Type;                              (* ProjectivePoint, as a mathematical point *)
  map_to_curve : FieldElem -> EPoint;         (* MapToCurve::map_to_curve *)
  clear_cofactor : EPoint -> EPoint;
  ep_eq : EPoint -> EPoint -> bool;
  ep_add : EPoint -> EPoint -> EPoint;
  ep_mul : EPoint -> Fq order -> EPoint;
  ep_generator : EPoint;
  ep_identity : EPoint;
  (* affine coordinates: [None] for the identity, else x as a field-sized
     big-endian string and whether y is odd *)
  ep_coords : EPoint -> option (bytes * bool);
  ep_decompress : bytes -> bool -> option EPoint;       (* DecompressPoint *)
  ep_decompact : bytes -> option EPoint;                (* DecompactPoint *)
  ep_from_xy : bytes -> bytes -> option EPoint          (* uncompressed coordinates *)
}.

Section EllipticCurve.
Context (C : Curve).
Local Notation EScalar := (Fq (order C)).
Local Notation w := (field_bytes C).

(** elliptic-curve, hash2curve::hash_to_field: one call of [expand_message]
    for all outputs, then one [fill_bytes] for each. *)
Fixpoint fill_all (H : HashFn) (x : Expander) (n : nat) (count : nat) : list bytes :=
  match count with
  | O => []
  | S count => let '(tmp, x') := expander_fill H x n in tmp :: fill_all H x' n count
  end.
Definition hash_to_field (H : HashFn) (data domain : list bytes) (length : N) (count : nat)
  : ires (list bytes) :=
  expander <- expand_message H data domain (length * N.of_nat count) ;;
  Ok (fill_all H expander (N.to_nat length) count).

(** elliptic_curve.rs:44-50 and elliptic-curve, GroupDigest::hash_from_bytes:
    two field elements, mapped, cofactors cleared, added. *)
Definition ec_hash_to_curve (H : HashFn) (input dst : list bytes) : ires (EPoint C) :=
  u <- map_err (hash_to_field H input dst (field_okm C) 2) IInput ;;
  let q i := clear_cofactor C (map_to_curve C (field_from_okm C (nth i u []))) in
  Ok (ep_add C (q 0%nat) (q 1%nat)).

(** elliptic_curve.rs:53-60 and elliptic-curve, GroupDigest::hash_to_scalar:
    one scalar, a big-endian number reduced modulo the order. *)
Definition ec_hash_to_scalar (H : HashFn) (input dst : list bytes) : ires EScalar :=
  u <- map_err (hash_to_field H input dst (scalar_okm C) 1) IInput ;;
  Ok (of_Z (order C) (be_Z (nth 0%nat u []))).

(** sec1, ToEncodedPoint::to_encoded_point(true).as_bytes(). *)
Definition to_encoded_point (e : EPoint C) : bytes :=
  match ep_coords C e with
  | None => [x00]
  | Some (x, odd) => (if odd then x03 else x02) :: x
  end.

(** elliptic_curve.rs:70-76: copied into a zeroed array of [ElemLen] bytes. *)
Definition ec_serialize_elem (elem : EPoint C) : bytes :=
  let bytes := to_encoded_point elem in
  bytes ++ repeat x00 (S w - length bytes).

(** sec1, EncodedPoint::from_bytes: the tag determines the length. *)
Inductive Encoded : Type :=
| EncIdentity
| EncCompressed (x : bytes) (odd : bool)
| EncUncompressed (x y : bytes)
| EncCompact (x : bytes).
Definition encoded_from_bytes (input : bytes) : option Encoded :=
  match input with
  | [] => None
  | tag :: rest =>
      match Byte.to_N tag with
      | 0%N => if (length rest =? 0)%nat then Some EncIdentity else None
      | 2%N => if (length rest =? w)%nat then Some (EncCompressed rest false) else None
      | 3%N => if (length rest =? w)%nat then Some (EncCompressed rest true) else None
      | 4%N => if (length rest =? w + w)%nat
               then Some (EncUncompressed (firstn w rest) (skipn w rest)) else None
      | 5%N => if (length rest =? w)%nat then Some (EncCompact rest) else None
      | _ => None
      end
  end.

(** elliptic-curve, PublicKey::from_sec1_bytes: the identity is refused. *)
Definition from_sec1_bytes (input : bytes) : option (EPoint C) :=
  match encoded_from_bytes input with
  | None | Some EncIdentity => None
  | Some (EncCompressed x odd) => ep_decompress C x odd
  | Some (EncUncompressed x y) => ep_from_xy C x y
  | Some (EncCompact x) => ep_decompact C x
  end.

(** elliptic_curve.rs:78-82. *)
Definition ec_deserialize_elem (element_bits : bytes) : res (EPoint C) :=
  ok_or (from_sec1_bytes element_bits) EDeserialization.

(** ff, PrimeField::from_repr: big-endian, below the order. *)
Definition from_repr (b : bytes) : option EScalar :=
  if be_Z b <? order C then Some (of_Z (order C) (be_Z b)) else None.

(** Field::random of the scalar fields: rejection sampling of [w] bytes. *)
Fixpoint field_random (fuel : nat) (R : Rng) (st : rng_state R) : res EScalar * rng_state R :=
  match fuel with
  | O => (Diverge, st)
  | S fuel =>
      let '(b, st') := fill_bytes R st w in
      match from_repr b with
      | Some s => (Ok s, st')
      | None => field_random fuel R st'
      end
  end.

(** elliptic_curve.rs:84-86: SecretKey::random is NonZeroScalar::random,
    which rejects zero. *)
Fixpoint ec_random_scalar (fuel : nat) (R : Rng) (st : rng_state R) {struct fuel}
  : res EScalar * rng_state R :=
  match fuel with
  | O => (Diverge, st)
  | S fuel' =>
      let '(r, st') := field_random fuel R st in
      match r with
      | Ok s => if feqb (order C) s (f0 (order C)) then ec_random_scalar fuel' R st' else (Ok s, st')
      | Err e => (Err e, st')
      | Panic => (Panic, st')
      | Diverge => (Diverge, st')
      end
  end.

(** elliptic-curve, SecretKey::MIN_SIZE. *)
Definition MIN_SIZE : nat := 24.

(** SecretKey::from_bytes: below the order and not zero. *)
Definition secret_from_bytes (b : bytes) : option EScalar :=
  match from_repr b with
  | Some s => if feqb (order C) s (f0 (order C)) then None else Some s
  | None => None
  end.

(** SecretKey::from_slice: shorter keys of at least 24 bytes are extended on
    the left with zeros. *)
Definition secret_from_slice (b : bytes) : option EScalar :=
  if (length b =? w)%nat then secret_from_bytes b
  else if ((MIN_SIZE <=? length b)%nat && (length b <? w)%nat)%bool
       then secret_from_bytes (repeat x00 (w - length b) ++ b)
       else None.

(** elliptic_curve.rs:103-107. *)
Definition ec_deserialize_scalar (scalar_bits : bytes) : res EScalar :=
  ok_or (secret_from_slice scalar_bits) EDeserialization.

(** elliptic_curve.rs:88-90: inverting zero panics. *)
Definition ec_invert_scalar (scalar : EScalar) : res EScalar :=
  unwrap_opt (if feqb (order C) scalar (f0 (order C)) then None else Some (finv (order C) scalar)).

(** elliptic_curve.rs:25-108, [impl<C> Group for C]. *)
Definition CurveGroup (fuel : nat) : Group := {|
  Elem := EPoint C; Scalar := EScalar;
  elem_len := N.of_nat (S w); scalar_len := N.of_nat w;
  elem_ct_eq := ep_eq C; elem_add := ep_add C; elem_mul := ep_mul C;
  zeroize_elem := fun _ => ep_identity C;
  scalar_ct_eq := feqb (order C); scalar_add := fadd (order C); scalar_mul := fmul (order C);
  scalar_sub := fsub (order C);
  zeroize_scalar := fun _ => f0 (order C);
  hash_to_curve := ec_hash_to_curve;
  hash_to_scalar := ec_hash_to_scalar;
  base_elem := ep_generator C; identity_elem := ep_identity C;
  serialize_elem := ec_serialize_elem;
  deserialize_elem := ec_deserialize_elem;
  random_scalar := ec_random_scalar fuel;
  invert_scalar := ec_invert_scalar;
  is_zero_scalar := fun s => feqb (order C) s (f0 (order C));
  zero_scalar := f0 (order C);
  serialize_scalar := fun s => I2OSP (Z.to_N (fval s)) w;    (* elliptic_curve.rs:99-101 *)
  deserialize_scalar := ec_deserialize_scalar
|}.

(** The ciphersuites of ciphersuite.rs:37-49 with the identifiers
    "P256-SHA256", "P384-SHA384", "P521-SHA512" declared by the curve crates
    [VoprfParameters]; the identifier and the hash are parameters. *)
Definition CurveSuite (fuel : nat) (id : bytes) (H : HashFn) : CipherSuite := {|
  ID := id; CSGroup := CurveGroup fuel; CSHash := H
|}.

End EllipticCurve.
