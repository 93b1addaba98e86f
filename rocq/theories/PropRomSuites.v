(** * The built-in suites meet the hypotheses of C52 to C55.

    Their laws hold, their scalars can be enumerated (there are as many as the
    order of the group), and an RNG that reads a tape yields any scalars. *)
From Verif Require Import Laws Spec PropRom PropZk NistFacts NistCurve Nist256 Nist384 Nist521 Ristretto RistrettoFacts Rist25519
  EllipticCurve EllipticCurveFacts PropNist PropNist384 PropNist521 PropRist.
From Verif Require PropUniform.
From Coq Require Import Lia Znumtheory ZArith.
Open Scope Z_scope.

(** The integers modulo [q]. *)
Definition residues (q : Z) : list (Fq q) := map (fun i => of_Z q (Z.of_nat i)) (seq 0 (Z.to_nat q)).
Lemma residues_enumerate q : prime q -> enumerates (residues q) /\ Z.of_nat (length (residues q)) = q.
Proof.
  intros Hq. pose proof (prime_ge_2 q Hq) as Hq2.
  assert (Hv : forall i, (i < Z.to_nat q)%nat -> fval (of_Z q (Z.of_nat i)) = Z.of_nat i).
  { intros i Hi. cbn [fval of_Z]. apply Z.mod_small. lia. }
  split; [split|].
  - unfold residues. apply (NoDup_map_inv (fun a => fval a)). rewrite map_map.
    rewrite (map_ext_in _ Z.of_nat).
    + apply FinFun.Injective_map_NoDup; [intros a b; apply Nat2Z.inj|apply seq_NoDup].
    + intros i Hi. apply Hv. apply in_seq in Hi. lia.
  - intros x. unfold residues. apply in_map_iff. exists (Z.to_nat (fval x)).
    pose proof (fval_range q Hq x) as Hx. rewrite Z2Nat.id by lia. split.
    + apply of_Z_fval.
    + apply in_seq. lia.
  - unfold residues. rewrite map_length, seq_length. lia.
Qed.

Definition rom_ready (CS : CipherSuite) (q : Z) : Prop :=
  inhabited (SuiteLaws CS) /\
  (exists scalars : list (scalar CS), enumerates scalars /\ Z.of_nat (length scalars) = q) /\
  (exists draw, yields (CSGroup CS) PropUniform.TapeRng draw).

Theorem C55_builtin_suites :
  forall pick fuel,
  rom_ready (P256_SHA256 pick (S fuel)) 0xffffffff00000000ffffffffffffffffbce6faada7179e84f3b9cac2fc632551 /\
  rom_ready (P384_SHA384 pick (S fuel)) 
    0xffffffffffffffffffffffffffffffffffffffffffffffffc7634d81f4372ddf581a0db248b0a77aecec196accc52973 /\
  rom_ready (P521_SHA512 pick (S fuel)) 
    0x1fffffffffffffffffffffffffffffffffffffffffffffffffffffffffffffffffa51868783bf2f966b7fcc0148f709a5d03bb5c9b8899c47aebb6fb71e91386409 /\
  rom_ready (Ristretto255_SHA512 (S fuel)) (2 ^ 252 + 27742317777372353535851937790883648493).
Proof.
  intros pick fuel. destruct C55_tapes as [Hc Hr]. split; [|split; [|split]].
  - rewrite p256_n. split; [constructor; exact (p256_suite_laws pick (S fuel))|]. split.
    + exists (residues (pn P256)). apply residues_enumerate. exact (order_prime _ (nist_curve_laws P256 p256_laws pick)).
    + eexists. exact (Hc (NistCurve P256 pick) (nist_curve_laws P256 p256_laws pick) fuel).
  - rewrite p384_n. split; [constructor; exact (p384_suite_laws pick (S fuel))|]. split.
    + exists (residues (pn P384)). apply residues_enumerate. exact (order_prime _ (nist_curve_laws P384 p384_laws pick)).
    + eexists. exact (Hc (NistCurve P384 pick) (nist_curve_laws P384 p384_laws pick) fuel).
  - rewrite p521_n. split; [constructor; exact (p521_suite_laws pick (S fuel))|]. split.
    + exists (residues (pn P521)). apply residues_enumerate. exact (order_prime _ (nist_curve_laws P521 p521_laws pick)).
    + eexists. exact (Hc (NistCurve P521 pick) (nist_curve_laws P521 p521_laws pick) fuel).
  - split; [constructor; exact (rist_suite_laws (S fuel))|]. rewrite <- r_ell. split.
    + exists (residues ell). apply residues_enumerate. exact ell_prime.
    + eexists. exact (Hr Dalek25519 fuel).
Qed.
