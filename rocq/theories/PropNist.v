(** * PropNist: the suite P256-SHA256, with nothing left to assume.

    Properties C46 (elements and their encodings), C47 (hashing) and C48 (the
    three protocols) of the suite in which the curve is P-256 and the hash is
    SHA-256.  [pick] is the choice the curve library makes for the compact
    encoding; [fuel] bounds the number of rejected draws. *)
From Verif Require Import NistCurve NistFacts NistSpec Nist256 NistProps Sha2 EllipticCurveFacts SuiteRuns.
From Verif Require Import GroupFacts PropSerde PropGroups PropCanonical PropSoundness Primes.
From Coq Require Import Znumtheory.
Open Scope Z_scope.

(** ciphersuite.rs:37-49 for the curve type of the crate p256, whose
    [VoprfParameters] declares the identifier and the hash. *)
Definition P256_SHA256 (pick : bytes -> bool) (fuel : nat) : CipherSuite :=
  CurveSuite (NistCurve P256 pick) fuel (bstr "P256-SHA256") (hash_of SHA256).

Lemma sha256_laws : HashLaws (hash_of SHA256).
Proof. apply hash_of_laws; [exact sha256_shape|]. cbn [sh_out SHA256]. lia. Qed.

Lemma p256_okm pick : okm_fits (C := NistCurve P256 pick) (H := hash_of SHA256).
Proof. split; (split; [split; discriminate|discriminate]). Qed.

Definition p256_suite_laws pick fuel : SuiteLaws (P256_SHA256 pick fuel).
Proof.
  refine (curve_suite_laws (nist_curve_laws P256 p256_laws pick) sha256_laws (p256_okm pick) fuel _ _).
  vm_compute. discriminate.
Defined.

Lemma p256_p : 2 ^ 256 - 2 ^ 224 + 2 ^ 192 + 2 ^ 96 - 1 = pp P256.
Proof. vm_compute. reflexivity. Qed.
Lemma p256_b : 0x5ac635d8aa3a93e7b3ebbd55769886bc651d06b0cc53b0f63bce3c3e27d2604b = pb P256.
Proof. vm_compute. reflexivity. Qed.
Lemma p256_n : 0xffffffff00000000ffffffffffffffffbce6faada7179e84f3b9cac2fc632551 = pn P256.
Proof. vm_compute. reflexivity. Qed.

(** ** C46 *)
(** The elements that can be read are the points of P-256 other than the
    identity, from their SEC1 encodings (compressed, uncompressed, compact)
    and from nothing else; they are written in compressed form; together with
    the identity they are exactly the multiples of the base point by the n
    scalars, each obtained once, and n is prime. *)
Theorem C46_p256_elements :
  forall pick fuel,
  let G := CSGroup (P256_SHA256 pick fuel) in
  let p := 2 ^ 256 - 2 ^ 224 + 2 ^ 192 + 2 ^ 96 - 1 in
  let b := 0x5ac635d8aa3a93e7b3ebbd55769886bc651d06b0cc53b0f63bce3c3e27d2604b in
  let n := 0xffffffff00000000ffffffffffffffffbce6faada7179e84f3b9cac2fc632551 in
  let point := affine P256 : Elem G -> option (Z * Z) in
  prime p /\ prime n /\
  (forall e, point e = None <-> e = identity_elem G) /\
  (forall e x y, point e = Some (x, y) -> curve_point p (-3) b x y) /\
  (forall x y, curve_point p (-3) b x y -> exists! e, point e = Some (x, y)) /\
  (forall buf e, deserialize_elem G buf = Ok e ->
     exists x y, point e = Some (x, y) /\ encodes p (-3) b 32 buf x y) /\
  (forall buf x y, encodes p (-3) b 32 buf x y ->
     exists e, deserialize_elem G buf = Ok e /\
       (point e = Some (x, y) \/ hd x00 buf = x05 /\ exists y', point e = Some (x, y'))) /\
  (forall buf, (forall x y, ~ encodes p (-3) b 32 buf x y) ->
     deserialize_elem G buf = Err EDeserialization) /\
  (forall e x y, point e = Some (x, y) -> exists xb,
     serialize_elem G e = (if Z.odd y then x03 else x02) :: xb /\ length xb = 32%nat /\ be_Z xb = x) /\
  point (base_elem G) =
    Some (0x6b17d1f2e12c4247f8bce6e563a440f277037d812deb33a0f4a13945d898c296,
          0x4fe342e2fe1a7f9b8ee7eb4a7c0f9e162bce33576b315ececbb6406837bf51f5) /\
  (forall e, exists! k, e = elem_mul G (base_elem G) k) /\
  (forall z, 0 <= z < n -> exists! k : Scalar G, fval k = z) /\
  (forall k : Scalar G, 0 <= fval k < n).
Proof.
  intros pick fuel G p b n point.
  pose proof (nist_curve_laws P256 p256_laws pick) as CL.
  assert (Ep : p = pp P256) by exact p256_p.
  assert (Eb : b = pb P256) by exact p256_b.
  assert (En : n = pn P256) by exact p256_n.
  clearbody p b n. subst p b n.
  split; [exact p256_prime|]. split; [exact (pn_prime P256 p256_laws)|].
  split.
  { intros [|x y H]; split; try discriminate; reflexivity. }
  split; [exact (affine_on P256 p256_laws)|].
  split.
  { intros x y H. destruct (affine_ex P256 p256_laws x y H) as (Hc & E).
    eexists. split; [exact E|]. intros e' E'. apply (affine_inj P256). etransitivity; [exact E|]. symmetry. exact E'. }
  split; [exact (deserialize_sound P256 p256_laws pick fuel)|].
  split; [exact (deserialize_complete P256 p256_laws pick fuel)|].
  split.
  { intros buf Hb. destruct (C38_curve_encodings (NistCurve P256 pick) CL fuel) as (_ & _ & _ & _ & _ & _ & He & _).
    apply He. intros e E. destruct (deserialize_sound P256 p256_laws pick fuel buf e E) as (x & y & _ & K).
    exact (Hb x y K). }
  split; [exact (serialize_point P256 p256_laws pick fuel)|].
  split.
  { unfold point. change (base_elem G) with (generator P256).
    rewrite (gen_aff P256 p256_laws). cbn [affine of_Z fval]. apply f_equal. apply f_equal2; vm_compute; reflexivity. }
  split.
  { intros e. destruct (multiples P256 p256_laws pick fuel e) as (k & Hk & Hu). exists k. split; [exact Hk|].
    intros k' Hk'. symmetry. now apply Hu. }
  split.
  - intros z Hz. exists (of_Z (pn P256) z). split.
    + cbn [of_Z fval]. apply Z.mod_small. exact Hz.
    + intros k Hk. apply Fq_eq. cbn [of_Z fval]. rewrite Hk. apply Z.mod_small. exact Hz.
  - exact (fval_n P256 p256_laws).
Qed.

(** ** C47 *)
(** HashToGroup and HashToScalar of P256-SHA256 are the functions of RFC 9380
    (hash_to_curve P256_XMD:SHA-256_SSWU_RO_, hash_to_field) on the
    concatenated input, and the RFC determines the result. *)
Theorem C47_p256_hash :
  forall pick fuel msgs tags, concat tags <> [] ->
  let CS := P256_SHA256 pick fuel in
  let G := CSGroup CS in
  let p := pp P256 in
  let f := of_Z (pp P256) in
  let sswu := rfc_sswu p (f (-3)) (f (pb P256)) (f (-10)) in
  let expand := expand_message_xmd (sha2 SHA256) 32 64 (concat msgs) (concat tags) in
  let u0 := f (be_Z (firstn 48 (expand 96%N))) in
  let u1 := f (be_Z (skipn 48 (expand 96%N))) in
  (exists x0 y0 H0 x1 y1 H1,
     sswu u0 x0 y0 /\ sswu u1 x1 y1 /\
     hash_to_curve G (CSHash CS) msgs tags
     = Ok (add p (f (-3)) (f (pb P256)) (Aff _ _ _ x0 y0 H0) (Aff _ _ _ x1 y1 H1))) /\
  (forall u x y x' y', sswu u x y -> sswu u x' y' -> x = x' /\ y = y') /\
  exists s, hash_to_scalar G (CSHash CS) msgs tags = Ok s /\
            fval s = be_Z (expand 48%N) mod n_p256.
Proof.
  intros pick fuel msgs tags Ht CS G p f sswu expand u0 u1. split; [|split].
  - exact (hash_point P256 p256_laws pick (hash_of SHA256) sha256_laws (p256_okm pick) fuel msgs tags Ht).
  - exact (rfc_sswu_unique P256 p256_laws).
  - destruct (C42_curve_hash (NistCurve P256 pick) (nist_curve_laws P256 p256_laws pick)
      (hash_of SHA256) sha256_laws (p256_okm pick) fuel msgs tags) as [K _].
    destruct (K Ht) as [_ Ks]. exact Ks.
Qed.

(** ** C48 *)
Theorem C48_p256_protocols :
  forall pick fuel,
  let CS := P256_SHA256 pick fuel in
  oprf_works CS /\ voprf_works CS /\ poprf_works CS.
Proof.
  intros pick fuel CS. pose proof (p256_suite_laws pick fuel) as L.
  split; [|split]; [exact (oprf_works_ok CS L)|exact (voprf_works_ok CS L)|exact (poprf_works_ok CS L)].
Qed.

(** Every theorem about lawful suites applies to this one. *)
Theorem C48_p256_lawful :
  forall pick fuel,
  inhabited (SuiteLaws (P256_SHA256 pick fuel)) /\
  ZeroizeLaws (CSGroup (P256_SHA256 pick fuel)) /\
  DecodeLaws (NistCurve P256 pick).
Proof.
  intros pick fuel. split; [constructor; exact (p256_suite_laws pick fuel)|].
  split; [exact (curve_zeroize (nist_curve_laws P256 p256_laws pick) fuel)|].
  exact (nist_decode_laws P256 p256_laws pick).
Qed.
