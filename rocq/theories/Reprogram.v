(** * Reprogram: a ciphersuite whose hash to scalar is changed at one point.

    This is the programmable random oracle of the proofs of zero-knowledge and
    of special soundness: the suite is the given one except that hashing one
    string under one tag gives a chosen scalar.  The code of the crate is run
    unchanged on the reprogrammed suite. *)
From Verif Require Import Common Laws.

Definition bytes_eqb (a b : bytes) : bool := if list_eq_dec Byte.byte_eq_dec a b then true else false.

Lemma bytes_eqb_true a b : bytes_eqb a b = true <-> a = b.
Proof. unfold bytes_eqb. destruct (list_eq_dec _ a b); split; congruence. Qed.
Lemma bytes_eqb_refl a : bytes_eqb a a = true.
Proof. now apply bytes_eqb_true. Qed.

Definition reprogram_group (G : Group) (msg tag : bytes) (c : Scalar G) : Group := {|
  Elem := Elem G;
  Scalar := Scalar G;
  elem_len := elem_len G;
  scalar_len := scalar_len G;
  elem_ct_eq := elem_ct_eq G;
  elem_add := elem_add G;
  elem_mul := elem_mul G;
  zeroize_elem := zeroize_elem G;
  scalar_ct_eq := scalar_ct_eq G;
  scalar_add := scalar_add G;
  scalar_mul := scalar_mul G;
  scalar_sub := scalar_sub G;
  zeroize_scalar := zeroize_scalar G;
  hash_to_curve := hash_to_curve G;
  hash_to_scalar := fun H msgs tags =>
    if bytes_eqb (concat msgs) msg && bytes_eqb (concat tags) tag then Ok c
    else hash_to_scalar G H msgs tags;
  base_elem := base_elem G;
  identity_elem := identity_elem G;
  serialize_elem := serialize_elem G;
  deserialize_elem := deserialize_elem G;
  random_scalar := random_scalar G;
  invert_scalar := invert_scalar G;
  is_zero_scalar := is_zero_scalar G;
  zero_scalar := zero_scalar G;
  serialize_scalar := serialize_scalar G;
  deserialize_scalar := deserialize_scalar G
|}.

Definition reprogram (CS : CipherSuite) (msg tag : bytes) (c : scalar CS) : CipherSuite := {|
  ID := ID CS;
  CSGroup := reprogram_group (CSGroup CS) msg tag c;
  CSHash := CSHash CS
|}.

Definition reprogram_group_laws {G : Group} (GL : GroupLaws G) msg tag (c : Scalar G)
  : GroupLaws (reprogram_group G msg tag c).
Proof.
  destruct GL. econstructor; eassumption.
Defined.

Definition reprogram_laws {CS : CipherSuite} (L : SuiteLaws CS) msg tag (c : scalar CS)
  : SuiteLaws (reprogram CS msg tag c).
Proof.
  refine {| group_laws := reprogram_group_laws (group_laws L) msg tag c : GroupLaws (CSGroup (reprogram CS msg tag c));
            HashToGroup := (HashToGroup L : bytes -> bytes -> elem (reprogram CS msg tag c));
            HashToScalar := (fun m t => if bytes_eqb m msg && bytes_eqb t tag then c else HashToScalar L m t)
              : bytes -> bytes -> scalar (reprogram CS msg tag c) |}.
  - exact (hash_to_curve_spec _ L).
  - intros msgs tags Ht. cbn. destruct (_ && _)%bool; [reflexivity|].
    now apply (hash_to_scalar_spec _ L).
  - exact (digest_len _ L).
  - exact (output_size_bound _ L).
  - exact (id_bound _ L).
Defined.
