(** * PropRist: the suite ristretto255-SHA512, with nothing left to assume.

    Properties C49 (elements and their encodings), C50 (hashing) and C51 (the
    three protocols).  The group is that of RFC 9496 ([RistSpec]) on the
    twisted Edwards curve of Ed25519; [fuel] bounds the number of rejected
    draws. *)
From Verif Require Import Rist255 RistFacts RistSpec RistrettoFacts RistProps Rist25519 Sha2 SuiteRuns.
From Verif Require Import GroupFacts PropSerde PropGroups PropCanonical PropSoundness Primes.
From Verif Require NistProps.
From Coq Require Import Znumtheory.
Open Scope Z_scope.

(** ristretto.rs:27-34 with curve25519-dalek's ristretto255 and SHA-512. *)
Definition Dalek25519 : Dalek := DalekOf R25519 r25519_laws.
Definition Ristretto255_SHA512 (fuel : nat) : CipherSuite :=
  RistrettoSuite Dalek25519 fuel (hash_of SHA512).

(** The coordinates of the point that decoding the encoding of an element
    gives. *)
Definition point_x : RPoint Dalek25519 -> Fq (rp R25519) := ptx R25519 r25519_laws.
Definition point_y : RPoint Dalek25519 -> Fq (rp R25519) := pty R25519 r25519_laws.

Lemma sha512_laws : HashLaws (hash_of SHA512).
Proof. apply NistProps.hash_of_laws; [exact sha512_shape|]. cbn [sh_out SHA512]. lia. Qed.

Lemma dalek25519_laws : DalekLaws Dalek25519.
Proof. exact (dalek_of_laws R25519 r25519_laws). Qed.

Definition rist_suite_laws fuel : SuiteLaws (Ristretto255_SHA512 fuel) :=
  ristretto_suite_laws dalek25519_laws sha512_laws fuel.

Lemma r_p : rp R25519 = 2 ^ 255 - 19.
Proof. reflexivity. Qed.
Lemma r_ell : ell = 2 ^ 252 + 27742317777372353535851937790883648493.
Proof. vm_compute. reflexivity. Qed.
Lemma r_d : fmul (rp R25519) (of_Z _ 121666) (cD R25519) = of_Z _ (-121665).
Proof. apply Fq_eq. vm_compute. reflexivity. Qed.

(** Lemmas for any parameters, instantiated below. *)
Section Generic.
Context (R : RParams) (RL : RLaws R) (fuel : nat).
Local Notation G := (RistrettoGroup (DalekOf R RL) fuel).

Lemma rist_generated (e : Elem G) : exists! k, e = elem_mul G (base_elem G) k.
Proof.
  pose proof (ristretto_group_laws (dalek_of_laws R RL) fuel) as GL.
  destruct (elem_generated _ GL e) as [k Hk]. exists k. split; [exact Hk|].
  intros k' Hk'. apply (GroupFacts.base_mul_inj GL). congruence.
Qed.

Lemma rist_identity_zero : serialize_elem G (identity_elem G) = repeat x00 32.
Proof. exact (compress_identity _ (dalek_of_laws R RL)). Qed.

Lemma rist_identity_xy (e : Elem G) :
  ptx R RL e = f0 _ /\ pty R RL e = f1 _ <-> e = identity_elem G.
Proof.
  destruct (identity_xy R RL) as [Ix Iy]. split.
  - intros [Ex Ey]. apply (xy_inj R RL); [rewrite Ex; symmetry; exact Ix|rewrite Ey; symmetry; exact Iy].
  - intros ->. split; [exact Ix|exact Iy].
Qed.
End Generic.

(** ** C49 *)
(** The elements are the points of Ed25519's curve that RFC 9496's decoding
    gives; they are read from their 32-byte encodings and from nothing else;
    the sum of two elements is the class of the sum of the points; they are
    exactly the multiples of the class of Ed25519's base point by the l
    scalars, each obtained once; and l is prime. *)
Theorem C49_ristretto_elements :
  forall fuel,
  let G := CSGroup (Ristretto255_SHA512 fuel) in
  let p := rp R25519 in
  let d := cD R25519 in
  let px := point_x : Elem G -> Fq p in
  let py := point_y : Elem G -> Fq p in
  p = 2 ^ 255 - 19 /\ prime p /\
  ell = 2 ^ 252 + 27742317777372353535851937790883648493 /\ prime ell /\
  fmul p (of_Z p 121666) d = of_Z p (-121665) /\
  (forall e, exists s, rfc_decodes p d s (px e) (py e)) /\
  (forall s x y, rfc_decodes p d s x y -> exists! e, px e = x /\ py e = y) /\
  (forall s s' x y, rfc_decodes p d s x y -> rfc_decodes p d s' x y -> s = s') /\
  (forall e, px e = f0 p /\ py e = f1 p <-> e = identity_elem G) /\
  (forall buf e, deserialize_elem G buf = Ok e <->
     length buf = 32%nat /\ 0 < le_Z buf < p /\ rfc_decodes p d (of_Z p (le_Z buf)) (px e) (py e)) /\
  (forall buf, (forall x y, ~ (length buf = 32%nat /\ 0 < le_Z buf < p /\
                               rfc_decodes p d (of_Z p (le_Z buf)) x y)) ->
     deserialize_elem G buf = Err EDeserialization) /\
  (forall e, let buf := serialize_elem G e in
     length buf = 32%nat /\ 0 <= le_Z buf < p /\ rfc_decodes p d (of_Z p (le_Z buf)) (px e) (py e)) /\
  serialize_elem G (identity_elem G) = repeat x00 32 /\
  (forall e e', rfc_same p (px e) (py e) (px e') (py e') <-> e = e') /\
  (forall e1 e2, exists x3 y3, edwards_sum p d (px e1) (py e1) (px e2) (py e2) x3 y3 /\ edwards p d x3 y3) /\
  (forall e1 e2 x3 y3, edwards_sum p d (px e1) (py e1) (px e2) (py e2) x3 y3 ->
     rfc_same p x3 y3 (px (elem_add G e1 e2)) (py (elem_add G e1 e2))) /\
  rfc_same p (of_Z p 15112221349535400772501151409588531511454012693041857206046113283949847762202)
             (of_Z p 46316835694926478169428394003475163141307993866256225615783033603165251855960)
             (px (base_elem G)) (py (base_elem G)) /\
  (forall e, exists! k, e = elem_mul G (base_elem G) k) /\
  (forall z, 0 <= z < ell -> exists! k : Scalar G, fval k = z) /\
  (forall k : Scalar G, 0 <= fval k < ell).
Proof.
  intros fuel G p d px py.
  split; [exact r_p|]. split; [exact r_prime|]. split; [exact r_ell|]. split; [exact ell_prime|].
  split; [exact r_d|].
  split. { intros e. eexists. exact (elem_decodes R25519 r25519_laws e). }
  split; [exact (decodes_elem R25519 r25519_laws)|].
  split; [exact (decodes_unique R25519 r25519_laws)|].
  split; [exact (rist_identity_xy R25519 r25519_laws fuel)|].
  split; [exact (read_iff R25519 r25519_laws)|].
  split; [exact (read_error R25519 r25519_laws)|].
  split; [exact (write_decodes R25519 r25519_laws)|].
  split; [exact (rist_identity_zero R25519 r25519_laws fuel)|].
  split; [exact (same_iff R25519 r25519_laws)|].
  split. { intros e1 e2. exact (sum_exists R25519 r25519_laws _ _ _ _ (edwards_elem R25519 r25519_laws e1) (edwards_elem R25519 r25519_laws e2)). }
  split; [exact (add_sum R25519 r25519_laws)|].
  split; [exact (base_same R25519 r25519_laws)|].
  split; [exact (rist_generated R25519 r25519_laws fuel)|].
  split.
  - intros z Hz. exists (of_Z ell z). split.
    + cbn [of_Z fval]. apply Z.mod_small. exact Hz.
    + intros k Hk. apply Fq_eq. cbn [of_Z fval]. rewrite Hk. apply Z.mod_small. exact Hz.
  - exact ell_fval.
Qed.

(** ** C50 *)
(** HashToGroup and HashToScalar of ristretto255-SHA512 are those of RFC 9497,
    section 4.1: 64 bytes of expand_message_xmd with SHA-512, mapped to the
    group as RFC 9496, section 4.3.4, says, or reduced modulo l; the RFC
    determines the element. *)
Theorem C50_ristretto_hash :
  forall fuel msgs tags, concat tags <> [] ->
  let CS := Ristretto255_SHA512 fuel in
  let G := CSGroup CS in
  let p := rp R25519 in
  let d := cD R25519 in
  let i := of_Z p 19681161376707505956807079304988542015446066515923890162744021073123829784752 in
  let q := of_Z p 25063068953384623474111414158702152701244531502492656460079210482610430750235 in
  let MAP := rfc_map p d i q in
  let uniform := expand_message_xmd (sha2 SHA512) 64 128 (concat msgs) (concat tags) 64 in
  let t0 := of_Z p (le_Z (firstn 32 uniform) mod 2 ^ 255) in
  let t1 := of_Z p (le_Z (skipn 32 uniform) mod 2 ^ 255) in
  (exists e x0 y0 x1 y1 x3 y3,
     hash_to_curve G (CSHash CS) msgs tags = Ok e /\
     MAP t0 x0 y0 /\ MAP t1 x1 y1 /\ edwards p d x0 y0 /\ edwards p d x1 y1 /\
     edwards_sum p d x0 y0 x1 y1 x3 y3 /\ rfc_same p x3 y3 (point_x e) (point_y e)) /\
  (forall t x y x' y', MAP t x y -> MAP t x' y' -> x = x' /\ y = y') /\
  (forall e x0 y0 x1 y1 x3 y3,
     MAP t0 x0 y0 -> MAP t1 x1 y1 -> edwards_sum p d x0 y0 x1 y1 x3 y3 ->
     rfc_same p x3 y3 (point_x e) (point_y e) -> hash_to_curve G (CSHash CS) msgs tags = Ok e) /\
  fmul p i i = of_Z p (-1) /\ fmul p q q = fsub p (fopp p d) (f1 p) /\
  exists s, hash_to_scalar G (CSHash CS) msgs tags = Ok s /\ fval s = le_Z uniform mod ell.
Proof.
  intros fuel msgs tags Ht CS G p d i q MAP uniform t0 t1.
  destruct (C42_ristretto_hash Dalek25519 dalek25519_laws (hash_of SHA512) sha512_laws fuel msgs tags) as [K _].
  destruct (K Ht) as [Kc Ks]. clear K.
  assert (Kc' : hash_to_curve G (CSHash CS) msgs tags = Ok (from_uniform_bytes Dalek25519 uniform)) by exact Kc.
  clear Kc. split; [|split; [|split; [|split; [|split]]]].
  - destruct (uniform_point R25519 r25519_laws uniform) as (x0 & y0 & x1 & y1 & x3 & y3 & H).
    eexists _, x0, y0, x1, y1, x3, y3. split; [exact Kc'|exact H].
  - exact (map_unique R25519 r25519_laws q).
  - intros e x0 y0 x1 y1 x3 y3 M0 M1 S3 Hs. rewrite Kc'. apply f_equal.
    exact (uniform_of R25519 r25519_laws uniform x0 y0 x1 y1 x3 y3 e M0 M1 S3 Hs).
  - apply Fq_eq. vm_compute. reflexivity.
  - apply Fq_eq. vm_compute. reflexivity.
  - exact Ks.
Qed.

(** ** C51 *)
Theorem C51_ristretto_protocols :
  forall fuel,
  let CS := Ristretto255_SHA512 fuel in
  oprf_works CS /\ voprf_works CS /\ poprf_works CS.
Proof.
  intros fuel CS. pose proof (rist_suite_laws fuel) as L.
  split; [|split]; [exact (oprf_works_ok CS L)|exact (voprf_works_ok CS L)|exact (poprf_works_ok CS L)].
Qed.

(** Every theorem about lawful suites applies to this one. *)
Theorem C51_ristretto_lawful :
  forall fuel,
  inhabited (SuiteLaws (Ristretto255_SHA512 fuel)) /\
  ZeroizeLaws (CSGroup (Ristretto255_SHA512 fuel)) /\
  DalekLaws Dalek25519.
Proof.
  intros fuel. split; [constructor; exact (rist_suite_laws fuel)|].
  split; [exact (ristretto_zeroize dalek25519_laws fuel)|]. exact dalek25519_laws.
Qed.
