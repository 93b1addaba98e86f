(** * Traits: the interfaces the crate is generic over.

    Rust traits become records of operations.  No laws are assumed here; the
    laws that theorems need are in [Laws]. *)
From Verif Require Export Base.

(** The hash function bounds of ciphersuite.rs:34 and group/mod.rs:58-61:
    [H: BlockSizeUser + Default + FixedOutput + HashMarker].  Incremental
    hashing ([update] ... [finalize]) is modelled as hashing the concatenation
    of the updates: see [Common.hasher]. *)
Record HashFn : Type := {
  digest : bytes -> bytes;
  output_size : N;      (* H::OutputSize *)
  block_size : N        (* H::BlockSize *)
}.

(** [R: RngCore + CryptoRng] (group/mod.rs:96).  The crate and its back ends
    only call [fill_bytes] on a zeroed buffer of a given length. *)
Record Rng : Type := {
  rng_state : Type;
  fill_bytes : rng_state -> nat -> bytes * rng_state
}.

(** group/mod.rs:31-118, [trait Group].
    - [Elem] and [Scalar] are the mathematical values: several internal
      representations of one point are not distinguished.
    - [Choice] is [bool]; [ct_eq] is [*_ct_eq].
    - [zeroize_*] is the value left behind by the [Zeroize] supertrait.
    - [invert_scalar] and [random_scalar] may panic or loop in an
      implementation, so they return outcomes.
    - [zero_scalar] exists only under [cfg(test)] (group/mod.rs:104-106). *)
Record Group : Type := {
  Elem : Type;
  Scalar : Type;
  elem_len : N;                                        (* ElemLen *)
  scalar_len : N;                                      (* ScalarLen *)
  elem_ct_eq : Elem -> Elem -> bool;
  elem_add : Elem -> Elem -> Elem;
  elem_mul : Elem -> Scalar -> Elem;
  zeroize_elem : Elem -> Elem;
  scalar_ct_eq : Scalar -> Scalar -> bool;
  scalar_add : Scalar -> Scalar -> Scalar;
  scalar_mul : Scalar -> Scalar -> Scalar;
  scalar_sub : Scalar -> Scalar -> Scalar;
  zeroize_scalar : Scalar -> Scalar;
  hash_to_curve : HashFn -> list bytes -> list bytes -> ires Elem;
  hash_to_scalar : HashFn -> list bytes -> list bytes -> ires Scalar;
  base_elem : Elem;
  identity_elem : Elem;
  serialize_elem : Elem -> bytes;
  deserialize_elem : bytes -> res Elem;
  random_scalar : forall R : Rng, rcomp (rng_state R) Scalar;
  invert_scalar : Scalar -> res Scalar;
  is_zero_scalar : Scalar -> bool;
  zero_scalar : Scalar;
  serialize_scalar : Scalar -> bytes;
  deserialize_scalar : bytes -> res Scalar
}.

(** group/mod.rs:79-82, the default method [is_identity_elem]. *)
Definition is_identity_elem (G : Group) (e : Elem G) : bool :=
  elem_ct_eq G (identity_elem G) e.

(** ciphersuite.rs:19-35, [trait CipherSuite]; the blanket implementation
    at ciphersuite.rs:37-49 only copies the three items. *)
Record CipherSuite : Type := {
  ID : bytes;
  CSGroup : Group;
  CSHash : HashFn
}.

Notation elem CS := (Elem (CSGroup CS)).
Notation scalar CS := (Scalar (CSGroup CS)).
