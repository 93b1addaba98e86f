(** * PropNist521: the suite P521-SHA512, with nothing left to assume.

    Properties C46 (elements and their encodings), C47 (hashing) and C48 (the
    three protocols) of the suite in which the curve is P-521 and the hash is
    SHA-512.  [pick] is the choice the curve library makes for the compact
    encoding; [fuel] bounds the number of rejected draws. *)
(* Written by /verif/tools/gen_propnist.py from PropNist.v. *)
From Verif Require Import NistCurve NistFacts NistSpec Nist521 NistProps Sha2 EllipticCurveFacts SuiteRuns.
From Verif Require Import GroupFacts PropSerde PropGroups PropCanonical PropSoundness.
From Coq Require Import Znumtheory.
Open Scope Z_scope.

(** ciphersuite.rs:37-49 for the curve type of the crate p521, whose
    [VoprfParameters] declares the identifier and the hash. *)
Definition P521_SHA512 (pick : bytes -> bool) (fuel : nat) : CipherSuite :=
  CurveSuite (NistCurve P521 pick) fuel (bstr "P521-SHA512") (hash_of SHA512).

Lemma sha512_laws : HashLaws (hash_of SHA512).
Proof. apply hash_of_laws; [exact sha512_shape|]. cbn [sh_out SHA512]. lia. Qed.

Lemma p521_okm pick : okm_fits (C := NistCurve P521 pick) (H := hash_of SHA512).
Proof. split; (split; [split; discriminate|discriminate]). Qed.

Definition p521_suite_laws pick fuel : SuiteLaws (P521_SHA512 pick fuel).
Proof.
  refine (curve_suite_laws (nist_curve_laws P521 p521_laws pick) sha512_laws (p521_okm pick) fuel _ _).
  vm_compute. discriminate.
Defined.

Lemma p521_p : 2 ^ 521 - 1 = pp P521.
Proof. vm_compute. reflexivity. Qed.
Lemma p521_b : 0x51953eb9618e1c9a1f929a21a0b68540eea2da725b99b315f3b8b489918ef109e156193951ec7e937b1652c0bd3bb1bf073573df883d2c34f1ef451fd46b503f00 = pb P521.
Proof. vm_compute. reflexivity. Qed.
Lemma p521_n : 0x1fffffffffffffffffffffffffffffffffffffffffffffffffffffffffffffffffa51868783bf2f966b7fcc0148f709a5d03bb5c9b8899c47aebb6fb71e91386409 = pn P521.
Proof. vm_compute. reflexivity. Qed.

(** ** C46 *)
(** The elements that can be read are the points of P-521 other than the
    identity, from their SEC1 encodings (compressed, uncompressed, compact)
    and from nothing else; they are written in compressed form; together with
    the identity they are exactly the multiples of the base point by the n
    scalars, each obtained once, and n is prime. *)
Theorem C46_p521_elements :
  forall pick fuel,
  let G := CSGroup (P521_SHA512 pick fuel) in
  let p := 2 ^ 521 - 1 in
  let b := 0x51953eb9618e1c9a1f929a21a0b68540eea2da725b99b315f3b8b489918ef109e156193951ec7e937b1652c0bd3bb1bf073573df883d2c34f1ef451fd46b503f00 in
  let n := 0x1fffffffffffffffffffffffffffffffffffffffffffffffffffffffffffffffffa51868783bf2f966b7fcc0148f709a5d03bb5c9b8899c47aebb6fb71e91386409 in
  let point := affine P521 : Elem G -> option (Z * Z) in
  prime p /\ prime n /\
  (forall e, point e = None <-> e = identity_elem G) /\
  (forall e x y, point e = Some (x, y) -> curve_point p (-3) b x y) /\
  (forall x y, curve_point p (-3) b x y -> exists! e, point e = Some (x, y)) /\
  (forall buf e, deserialize_elem G buf = Ok e ->
     exists x y, point e = Some (x, y) /\ encodes p (-3) b 66 buf x y) /\
  (forall buf x y, encodes p (-3) b 66 buf x y ->
     exists e, deserialize_elem G buf = Ok e /\
       (point e = Some (x, y) \/ hd x00 buf = x05 /\ exists y', point e = Some (x, y'))) /\
  (forall buf, (forall x y, ~ encodes p (-3) b 66 buf x y) ->
     deserialize_elem G buf = Err EDeserialization) /\
  (forall e x y, point e = Some (x, y) -> exists xb,
     serialize_elem G e = (if Z.odd y then x03 else x02) :: xb /\ length xb = 66%nat /\ be_Z xb = x) /\
  point (base_elem G) =
    Some (0xc6858e06b70404e9cd9e3ecb662395b4429c648139053fb521f828af606b4d3dbaa14b5e77efe75928fe1dc127a2ffa8de3348b3c1856a429bf97e7e31c2e5bd66,
          0x11839296a789a3bc0045c8a5fb42c7d1bd998f54449579b446817afbd17273e662c97ee72995ef42640c550b9013fad0761353c7086a272c24088be94769fd16650) /\
  (forall e, exists! k, e = elem_mul G (base_elem G) k) /\
  (forall z, 0 <= z < n -> exists! k : Scalar G, fval k = z) /\
  (forall k : Scalar G, 0 <= fval k < n).
Proof.
  intros pick fuel G p b n point.
  pose proof (nist_curve_laws P521 p521_laws pick) as CL.
  assert (Ep : p = pp P521) by exact p521_p.
  assert (Eb : b = pb P521) by exact p521_b.
  assert (En : n = pn P521) by exact p521_n.
  clearbody p b n. subst p b n.
  split; [exact p521_prime|]. split; [exact (pn_prime P521 p521_laws)|].
  split.
  { intros [|x y H]; split; try discriminate; reflexivity. }
  split; [exact (affine_on P521 p521_laws)|].
  split.
  { intros x y H. destruct (affine_ex P521 p521_laws x y H) as (Hc & E).
    eexists. split; [exact E|]. intros e' E'. apply (affine_inj P521). etransitivity; [exact E|]. symmetry. exact E'. }
  split; [exact (deserialize_sound P521 p521_laws pick fuel)|].
  split; [exact (deserialize_complete P521 p521_laws pick fuel)|].
  split.
  { intros buf Hb. destruct (C38_curve_encodings (NistCurve P521 pick) CL fuel) as (_ & _ & _ & _ & _ & _ & He & _).
    apply He. intros e E. destruct (deserialize_sound P521 p521_laws pick fuel buf e E) as (x & y & _ & K).
    exact (Hb x y K). }
  split; [exact (serialize_point P521 p521_laws pick fuel)|].
  split.
  { unfold point. change (base_elem G) with (generator P521).
    rewrite (gen_aff P521 p521_laws). cbn [affine of_Z fval]. apply f_equal. apply f_equal2; vm_compute; reflexivity. }
  split.
  { intros e. destruct (multiples P521 p521_laws pick fuel e) as (k & Hk & Hu). exists k. split; [exact Hk|].
    intros k' Hk'. symmetry. now apply Hu. }
  split.
  - intros z Hz. exists (of_Z (pn P521) z). split.
    + cbn [of_Z fval]. apply Z.mod_small. exact Hz.
    + intros k Hk. apply Fq_eq. cbn [of_Z fval]. rewrite Hk. apply Z.mod_small. exact Hz.
  - exact (fval_n P521 p521_laws).
Qed.

(** ** C47 *)
(** HashToGroup and HashToScalar of P521-SHA512 are the functions of RFC 9380
    (hash_to_curve P521_XMD:SHA-512_SSWU_RO_, hash_to_field) on the
    concatenated input, and the RFC determines the result. *)
Theorem C47_p521_hash :
  forall pick fuel msgs tags, concat tags <> [] ->
  let CS := P521_SHA512 pick fuel in
  let G := CSGroup CS in
  let p := pp P521 in
  let f := of_Z (pp P521) in
  let sswu := rfc_sswu p (f (-3)) (f (pb P521)) (f (-4)) in
  let expand := expand_message_xmd (sha2 SHA512) 64 128 (concat msgs) (concat tags) in
  let u0 := f (be_Z (firstn 98 (expand 196%N))) in
  let u1 := f (be_Z (skipn 98 (expand 196%N))) in
  (exists x0 y0 H0 x1 y1 H1,
     sswu u0 x0 y0 /\ sswu u1 x1 y1 /\
     hash_to_curve G (CSHash CS) msgs tags
     = Ok (add p (f (-3)) (f (pb P521)) (Aff _ _ _ x0 y0 H0) (Aff _ _ _ x1 y1 H1))) /\
  (forall u x y x' y', sswu u x y -> sswu u x' y' -> x = x' /\ y = y') /\
  exists s, hash_to_scalar G (CSHash CS) msgs tags = Ok s /\
            fval s = be_Z (expand 98%N) mod (pn P521).
Proof.
  intros pick fuel msgs tags Ht CS G p f sswu expand u0 u1. split; [|split].
  - exact (hash_point P521 p521_laws pick (hash_of SHA512) sha512_laws (p521_okm pick) fuel msgs tags Ht).
  - exact (rfc_sswu_unique P521 p521_laws).
  - destruct (C42_curve_hash (NistCurve P521 pick) (nist_curve_laws P521 p521_laws pick)
      (hash_of SHA512) sha512_laws (p521_okm pick) fuel msgs tags) as [K _].
    destruct (K Ht) as [_ Ks]. exact Ks.
Qed.

(** ** C48 *)
Theorem C48_p521_protocols :
  forall pick fuel,
  let CS := P521_SHA512 pick fuel in
  oprf_works CS /\ voprf_works CS /\ poprf_works CS.
Proof.
  intros pick fuel CS. pose proof (p521_suite_laws pick fuel) as L.
  split; [|split]; [exact (oprf_works_ok CS L)|exact (voprf_works_ok CS L)|exact (poprf_works_ok CS L)].
Qed.

(** Every theorem about lawful suites applies to this one. *)
Theorem C48_p521_lawful :
  forall pick fuel,
  inhabited (SuiteLaws (P521_SHA512 pick fuel)) /\
  ZeroizeLaws (CSGroup (P521_SHA512 pick fuel)) /\
  DecodeLaws (NistCurve P521 pick).
Proof.
  intros pick fuel. split; [constructor; exact (p521_suite_laws pick fuel)|].
  split; [exact (curve_zeroize (nist_curve_laws P521 p521_laws pick) fuel)|].
  exact (nist_decode_laws P521 p521_laws pick).
Qed.
