(** * PropNist384: the suite P384-SHA384, with nothing left to assume.

    Properties C46 (elements and their encodings), C47 (hashing) and C48 (the
    three protocols) of the suite in which the curve is P-384 and the hash is
    SHA-384.  [pick] is the choice the curve library makes for the compact
    encoding; [fuel] bounds the number of rejected draws. *)
(* Written by /verif/tools/gen_propnist.py from PropNist.v. *)
From Verif Require Import NistCurve NistFacts NistSpec Nist384 NistProps Sha2 EllipticCurveFacts SuiteRuns.
From Verif Require Import GroupFacts PropSerde PropGroups PropCanonical PropSoundness.
From Coq Require Import Znumtheory.
Open Scope Z_scope.

(** ciphersuite.rs:37-49 for the curve type of the crate p384, whose
    [VoprfParameters] declares the identifier and the hash. *)
Definition P384_SHA384 (pick : bytes -> bool) (fuel : nat) : CipherSuite :=
  CurveSuite (NistCurve P384 pick) fuel (bstr "P384-SHA384") (hash_of SHA384).

Lemma sha384_laws : HashLaws (hash_of SHA384).
Proof. apply hash_of_laws; [exact sha384_shape|]. cbn [sh_out SHA384]. lia. Qed.

Lemma p384_okm pick : okm_fits (C := NistCurve P384 pick) (H := hash_of SHA384).
Proof. split; (split; [split; discriminate|discriminate]). Qed.

Definition p384_suite_laws pick fuel : SuiteLaws (P384_SHA384 pick fuel).
Proof.
  refine (curve_suite_laws (nist_curve_laws P384 p384_laws pick) sha384_laws (p384_okm pick) fuel _ _).
  vm_compute. discriminate.
Defined.

Lemma p384_p : 2 ^ 384 - 2 ^ 128 - 2 ^ 96 + 2 ^ 32 - 1 = pp P384.
Proof. vm_compute. reflexivity. Qed.
Lemma p384_b : 0xb3312fa7e23ee7e4988e056be3f82d19181d9c6efe8141120314088f5013875ac656398d8a2ed19d2a85c8edd3ec2aef = pb P384.
Proof. vm_compute. reflexivity. Qed.
Lemma p384_n : 0xffffffffffffffffffffffffffffffffffffffffffffffffc7634d81f4372ddf581a0db248b0a77aecec196accc52973 = pn P384.
Proof. vm_compute. reflexivity. Qed.

(** ** C46 *)
(** The elements that can be read are the points of P-384 other than the
    identity, from their SEC1 encodings (compressed, uncompressed, compact)
    and from nothing else; they are written in compressed form; together with
    the identity they are exactly the multiples of the base point by the n
    scalars, each obtained once, and n is prime. *)
Theorem C46_p384_elements :
  forall pick fuel,
  let G := CSGroup (P384_SHA384 pick fuel) in
  let p := 2 ^ 384 - 2 ^ 128 - 2 ^ 96 + 2 ^ 32 - 1 in
  let b := 0xb3312fa7e23ee7e4988e056be3f82d19181d9c6efe8141120314088f5013875ac656398d8a2ed19d2a85c8edd3ec2aef in
  let n := 0xffffffffffffffffffffffffffffffffffffffffffffffffc7634d81f4372ddf581a0db248b0a77aecec196accc52973 in
  let point := affine P384 : Elem G -> option (Z * Z) in
  prime p /\ prime n /\
  (forall e, point e = None <-> e = identity_elem G) /\
  (forall e x y, point e = Some (x, y) -> curve_point p (-3) b x y) /\
  (forall x y, curve_point p (-3) b x y -> exists! e, point e = Some (x, y)) /\
  (forall buf e, deserialize_elem G buf = Ok e ->
     exists x y, point e = Some (x, y) /\ encodes p (-3) b 48 buf x y) /\
  (forall buf x y, encodes p (-3) b 48 buf x y ->
     exists e, deserialize_elem G buf = Ok e /\
       (point e = Some (x, y) \/ hd x00 buf = x05 /\ exists y', point e = Some (x, y'))) /\
  (forall buf, (forall x y, ~ encodes p (-3) b 48 buf x y) ->
     deserialize_elem G buf = Err EDeserialization) /\
  (forall e x y, point e = Some (x, y) -> exists xb,
     serialize_elem G e = (if Z.odd y then x03 else x02) :: xb /\ length xb = 48%nat /\ be_Z xb = x) /\
  point (base_elem G) =
    Some (0xaa87ca22be8b05378eb1c71ef320ad746e1d3b628ba79b9859f741e082542a385502f25dbf55296c3a545e3872760ab7,
          0x3617de4a96262c6f5d9e98bf9292dc29f8f41dbd289a147ce9da3113b5f0b8c00a60b1ce1d7e819d7a431d7c90ea0e5f) /\
  (forall e, exists! k, e = elem_mul G (base_elem G) k) /\
  (forall z, 0 <= z < n -> exists! k : Scalar G, fval k = z) /\
  (forall k : Scalar G, 0 <= fval k < n).
Proof.
  intros pick fuel G p b n point.
  pose proof (nist_curve_laws P384 p384_laws pick) as CL.
  assert (Ep : p = pp P384) by exact p384_p.
  assert (Eb : b = pb P384) by exact p384_b.
  assert (En : n = pn P384) by exact p384_n.
  clearbody p b n. subst p b n.
  split; [exact p384_prime|]. split; [exact (pn_prime P384 p384_laws)|].
  split.
  { intros [|x y H]; split; try discriminate; reflexivity. }
  split; [exact (affine_on P384 p384_laws)|].
  split.
  { intros x y H. destruct (affine_ex P384 p384_laws x y H) as (Hc & E).
    eexists. split; [exact E|]. intros e' E'. apply (affine_inj P384). etransitivity; [exact E|]. symmetry. exact E'. }
  split; [exact (deserialize_sound P384 p384_laws pick fuel)|].
  split; [exact (deserialize_complete P384 p384_laws pick fuel)|].
  split.
  { intros buf Hb. destruct (C38_curve_encodings (NistCurve P384 pick) CL fuel) as (_ & _ & _ & _ & _ & _ & He & _).
    apply He. intros e E. destruct (deserialize_sound P384 p384_laws pick fuel buf e E) as (x & y & _ & K).
    exact (Hb x y K). }
  split; [exact (serialize_point P384 p384_laws pick fuel)|].
  split.
  { unfold point. change (base_elem G) with (generator P384).
    rewrite (gen_aff P384 p384_laws). cbn [affine of_Z fval]. apply f_equal. apply f_equal2; vm_compute; reflexivity. }
  split.
  { intros e. destruct (multiples P384 p384_laws pick fuel e) as (k & Hk & Hu). exists k. split; [exact Hk|].
    intros k' Hk'. symmetry. now apply Hu. }
  split.
  - intros z Hz. exists (of_Z (pn P384) z). split.
    + cbn [of_Z fval]. apply Z.mod_small. exact Hz.
    + intros k Hk. apply Fq_eq. cbn [of_Z fval]. rewrite Hk. apply Z.mod_small. exact Hz.
  - exact (fval_n P384 p384_laws).
Qed.

(** ** C47 *)
(** HashToGroup and HashToScalar of P384-SHA384 are the functions of RFC 9380
    (hash_to_curve P384_XMD:SHA-384_SSWU_RO_, hash_to_field) on the
    concatenated input, and the RFC determines the result. *)
Theorem C47_p384_hash :
  forall pick fuel msgs tags, concat tags <> [] ->
  let CS := P384_SHA384 pick fuel in
  let G := CSGroup CS in
  let p := pp P384 in
  let f := of_Z (pp P384) in
  let sswu := rfc_sswu p (f (-3)) (f (pb P384)) (f (-12)) in
  let expand := expand_message_xmd (sha2 SHA384) 48 128 (concat msgs) (concat tags) in
  let u0 := f (be_Z (firstn 72 (expand 144%N))) in
  let u1 := f (be_Z (skipn 72 (expand 144%N))) in
  (exists x0 y0 H0 x1 y1 H1,
     sswu u0 x0 y0 /\ sswu u1 x1 y1 /\
     hash_to_curve G (CSHash CS) msgs tags
     = Ok (add p (f (-3)) (f (pb P384)) (Aff _ _ _ x0 y0 H0) (Aff _ _ _ x1 y1 H1))) /\
  (forall u x y x' y', sswu u x y -> sswu u x' y' -> x = x' /\ y = y') /\
  exists s, hash_to_scalar G (CSHash CS) msgs tags = Ok s /\
            fval s = be_Z (expand 72%N) mod (pn P384).
Proof.
  intros pick fuel msgs tags Ht CS G p f sswu expand u0 u1. split; [|split].
  - exact (hash_point P384 p384_laws pick (hash_of SHA384) sha384_laws (p384_okm pick) fuel msgs tags Ht).
  - exact (rfc_sswu_unique P384 p384_laws).
  - destruct (C42_curve_hash (NistCurve P384 pick) (nist_curve_laws P384 p384_laws pick)
      (hash_of SHA384) sha384_laws (p384_okm pick) fuel msgs tags) as [K _].
    destruct (K Ht) as [_ Ks]. exact Ks.
Qed.

(** ** C48 *)
Theorem C48_p384_protocols :
  forall pick fuel,
  let CS := P384_SHA384 pick fuel in
  oprf_works CS /\ voprf_works CS /\ poprf_works CS.
Proof.
  intros pick fuel CS. pose proof (p384_suite_laws pick fuel) as L.
  split; [|split]; [exact (oprf_works_ok CS L)|exact (voprf_works_ok CS L)|exact (poprf_works_ok CS L)].
Qed.

(** Every theorem about lawful suites applies to this one. *)
Theorem C48_p384_lawful :
  forall pick fuel,
  inhabited (SuiteLaws (P384_SHA384 pick fuel)) /\
  ZeroizeLaws (CSGroup (P384_SHA384 pick fuel)) /\
  DecodeLaws (NistCurve P384 pick).
Proof.
  intros pick fuel. split; [constructor; exact (p384_suite_laws pick fuel)|].
  split; [exact (curve_zeroize (nist_curve_laws P384 p384_laws pick) fuel)|].
  exact (nist_decode_laws P384 p384_laws pick).
Qed.
