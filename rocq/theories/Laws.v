(** * Laws: what theorems assume about the traits the crate is generic over.

    The crate is generic over a [Group] and a hash.  A theorem that needs the
    group to be a prime-order group takes a value of [GroupLaws] as an explicit
    hypothesis; one that also needs the hashing functions to be functions of
    the hashed string takes [SuiteLaws].  These are ordinary records, not
    axioms: [Zq] builds them for every prime, and [RistrettoFacts] and
    [EllipticCurveFacts] derive them for the two implementations in the crate
    from laws about the curve libraries. *)
From Verif Require Export Traits.
From Coq Require Export Field_theory Ring_theory.

(** A group of prime order with its scalar field, written additively
    ([elem_mul P a] is the scalar multiple [a * P]), plus the documented
    behaviour of the encoding functions of group/mod.rs:84-117. *)
Record GroupLaws (G : Group) : Type := {
  (* the scalars form a field *)
  s_one : Scalar G;
  s_opp : Scalar G -> Scalar G;
  s_inv : Scalar G -> Scalar G;
  scalar_field :
    field_theory (zero_scalar G) s_one (scalar_add G) (scalar_mul G) (scalar_sub G) s_opp
                 (fun a b => scalar_mul G a (s_inv b)) s_inv (@eq (Scalar G));
  scalar_ct_eq_spec : forall a b, scalar_ct_eq G a b = true <-> a = b;
  is_zero_spec : forall a, is_zero_scalar G a = true <-> a = zero_scalar G;
  (* the elements form a cyclic group generated by the base element, on which
     the scalars act *)
  elem_ct_eq_spec : forall a b, elem_ct_eq G a b = true <-> a = b;
  elem_add_comm : forall P Q, elem_add G P Q = elem_add G Q P;
  elem_add_assoc : forall P Q T, elem_add G P (elem_add G Q T) = elem_add G (elem_add G P Q) T;
  elem_add_id : forall P, elem_add G (identity_elem G) P = P;
  elem_mul_sadd : forall P a b,
    elem_mul G P (scalar_add G a b) = elem_add G (elem_mul G P a) (elem_mul G P b);
  elem_mul_eadd : forall P Q a,
    elem_mul G (elem_add G P Q) a = elem_add G (elem_mul G P a) (elem_mul G Q a);
  elem_mul_mul : forall P a b, elem_mul G (elem_mul G P a) b = elem_mul G P (scalar_mul G a b);
  elem_mul_one : forall P, elem_mul G P s_one = P;
  elem_mul_zero : forall P, elem_mul G P (zero_scalar G) = identity_elem G;
  elem_generated : forall P, exists k, P = elem_mul G (base_elem G) k;
  base_not_identity : base_elem G <> identity_elem G;
  (* inversion and sampling *)
  invert_nonzero : forall a, a <> zero_scalar G -> invert_scalar G a = Ok (s_inv a);
  invert_not_err : forall a e, invert_scalar G a <> Err e;  (* it returns a scalar, not a Result *)
  random_nonzero : forall R st,
    match fst (random_scalar G R st) with
    | Ok s => s <> zero_scalar G
    | Diverge => True
    | Err _ | Panic => False
    end;
  (* encodings *)
  elem_len_bound : (elem_len G <= 65535)%N;
  serialize_elem_len : forall e, len (serialize_elem G e) = elem_len G;
  serialize_scalar_len : forall s, len (serialize_scalar G s) = scalar_len G;
  deserialize_serialize_elem : forall e, e <> identity_elem G ->
    deserialize_elem G (serialize_elem G e) = Ok e;
  deserialize_identity : deserialize_elem G (serialize_elem G (identity_elem G)) = Err EDeserialization;
  deserialize_serialize_scalar : forall s, s <> zero_scalar G ->
    deserialize_scalar G (serialize_scalar G s) = Ok s;
  deserialize_zero : deserialize_scalar G (serialize_scalar G (zero_scalar G)) = Err EDeserialization;
  deserialize_elem_safe : forall b,
    match deserialize_elem G b with
    | Ok e => e <> identity_elem G
    | Err e => e = EDeserialization
    | Panic | Diverge => False
    end;
  deserialize_scalar_safe : forall b,
    match deserialize_scalar G b with
    | Ok s => s <> zero_scalar G
    | Err e => e = EDeserialization
    | Panic | Diverge => False
    end
}.
Arguments s_one {G} _.
Arguments s_opp {G} _ _.
Arguments s_inv {G} _ _.

(** What theorems assume about a ciphersuite: a lawful group, a hash with
    fixed output size (ciphersuite.rs:34 asks for [OutputSize: IsLess<U256>]),
    an identifier that fits the [assert!] of common.rs:527, and hash-to-group
    and hash-to-scalar functions that are total functions of the hashed string
    and of the domain separation tag, provided the tag is not empty (which
    expand_message_xmd rejects). *)
Record SuiteLaws (CS : CipherSuite) : Type := {
  group_laws : GroupLaws (CSGroup CS);
  HashToGroup : bytes -> bytes -> elem CS;      (* message, tag *)
  HashToScalar : bytes -> bytes -> scalar CS;   (* message, tag *)
  hash_to_curve_spec : forall msgs tags, concat tags <> [] ->
    hash_to_curve (CSGroup CS) (CSHash CS) msgs tags
    = Ok (HashToGroup (concat msgs) (concat tags));
  hash_to_scalar_spec : forall msgs tags, concat tags <> [] ->
    hash_to_scalar (CSGroup CS) (CSHash CS) msgs tags
    = Ok (HashToScalar (concat msgs) (concat tags));
  digest_len : forall m, len (digest (CSHash CS) m) = output_size (CSHash CS);
  output_size_bound : (output_size (CSHash CS) < 256)%N;
  id_bound : (len (ID CS) <= 65513)%N
}.
Arguments group_laws {CS} _.
Arguments HashToGroup {CS} _ _ _.
Arguments HashToScalar {CS} _ _ _.
