(** * Nist256: the parameters of P-256, and their properties by computation.

    SEC 2, version 2, section 2.4.2 (secp256r1) and RFC 9380, section 8.2:
    the constants of the crate p256. *)
From Verif Require Import NistCurve NistFacts CubicRoot Chain Chain256 Primes Pocklington PowCert Cert256 Pow256 HexNum.
From Coq Require Import Znumtheory List.
Import ListNotations.
Open Scope Z_scope.

Definition P256 : Params := {|
  pp := 2 ^ 256 - 2 ^ 224 + 2 ^ 192 + 2 ^ 96 - 1;
  pa := -3;
  pb := 0x5ac635d8aa3a93e7b3ebbd55769886bc651d06b0cc53b0f63bce3c3e27d2604b;
  pn := n_p256;
  pgx := 0x6b17d1f2e12c4247f8bce6e563a440f277037d812deb33a0f4a13945d898c296;
  pgy := 0x4fe342e2fe1a7f9b8ee7eb4a7c0f9e162bce33576b315ececbb6406837bf51f5;
  pz := -10;
  pc2 := 0x87438e5ed27613f9deb9dc092f06aaf8d3833faafb5a591dc004098eea05acfe;
  pw := 32; pl := 48
|}.

Lemma p256_prime : prime (pp P256).
Proof. apply (certified_prime cert256 _); vm_compute; reflexivity. Qed.

Lemma p256_big : 2 < pp P256. Proof. reflexivity. Qed.

Local Notation p := (pp P256).
Local Notation o := (of_Z (pp P256)).

Lemma neq_by_compute q (x y : Fq q) : (fval x =? fval y) = false -> x <> y.
Proof. intros H E. apply Z.eqb_neq in H. now apply H, f_equal. Qed.

(** No point of order two. *)
Definition s256 : Z := 0x283f4129ab6817d9211765b3cf8342c150a255c72f93ad42a112e5cc920087eb.
Definition v256 : Z := 0x2757a6a8f0c97f65005c6269b0ee533b3169743443241f286ccbbac2dc1c11e.
Definition r256 : Z := 0xb291576c752479319dc77571f109dcced1973a65210c1ac0269ba67147e65330.

Definition sparse256 : modul := ([(64%nat, 1); (48%nat, 1); (24%nat, 1)], [(56%nat, 1); (0%nat, 1)]).
Lemma sparse256_ok : modulus_is sparse256 p = true.
Proof. vm_compute. reflexivity. Qed.

(** 2 is not a cube. *)
Lemma p256_cube : 2 ^ ((p - 1) / 3) mod p <> 1.
Proof.
  assert (H : check_pow sparse256 p 2 ((p - 1) / 3) r256 pow_c256 = true) by (vm_compute; reflexivity).
  apply check_pow_spec in H as [_ H]; [|reflexivity|exact sparse256_ok]. rewrite H. discriminate.
Qed.

Lemma p256_no_two_torsion : forall x, cubic p (cA P256) (cB P256) x <> f0 p.
Proof.
  intros x. unfold cubic.
  replace (cA P256) with (fopp p (three p)) by (apply Fq_eq; vm_compute; reflexivity).
  apply (no_root_cardano p p256_prime p256_big (cB P256) (o s256) 2 (o v256)).
  - vm_compute. reflexivity.
  - apply Fq_eq. vm_compute. reflexivity.
  - apply neq_by_compute. vm_compute. reflexivity.
  - apply Fq_eq. vm_compute. reflexivity.
  - exact p256_cube.
Qed.

(** -10 is not a square. *)
Lemma p256_z_nonsquare : fpow P256 (cZ P256) ((p - 1) / 2) = fopp p (f1 p).
Proof.
  assert (H : check_pow sparse256 p 10 ((p - 1) / 2) 1 pow_z256 = true) by (vm_compute; reflexivity).
  apply check_pow_spec in H as [He H]; [|reflexivity|exact sparse256_ok].
  assert (Ho : Z.odd ((p - 1) / 2) = true) by (vm_compute; reflexivity).
  apply (pow_neg_odd _ _ _ p256_big Ho) in H.
  change (cZ P256) with (o (-10)). rewrite (fpow_of_Z P256 (-10) _ (p - 1) p256_big He H). apply Fq_eq. vm_compute. reflexivity.
Qed.

(** The generator. *)
Lemma p256_gen_on : on_curve p (cA P256) (cB P256) (o (pgx P256)) (o (pgy P256)) = true.
Proof. vm_compute. reflexivity. Qed.

Lemma p256_gx_range : 0 <= pgx P256 < p.
Proof. split; [discriminate|reflexivity]. Qed.

Lemma p256_gy_range : 0 <= pgy P256 <= p.
Proof. split; discriminate. Qed.
Lemma p256_a_range : -3 <= 0.
Proof. discriminate. Qed.

Lemma p256_chain : check_order p sparse256 (-3) (pgx P256) (pgy P256) (pn P256) chain256 = true.
Proof. vm_compute. reflexivity. Qed.

Lemma p256_gen_order :
  zmul (Weierstrass.add p (cA P256) (cB P256)) (Inf _ _ _) (pn P256) (generator P256) = Inf _ _ _.
Proof.
  unfold generator. rewrite (point_on _ _ _ _ _ p256_gen_on).
  apply (order_ok p sparse256 sparse256_ok (-3) (pgx P256) (pgy P256) p256_prime p256_big
           (cA P256) (cB P256) eq_refl p256_no_two_torsion p256_a_range p256_gx_range p256_gy_range p256_gen_on
           (pn P256) chain256 p256_chain).
Qed.

Lemma p256_exceptional : exists r, fmul p r r =
  cubic p (cA P256) (cB P256) (fmul p (cB P256) (finv p (fmul p (cZ P256) (cA P256)))).
Proof.
  exists (o 0xe5fb73d16791ce358fb5adb2d33668a3b24099fd8d401f6685e0e994fb4d756).
  apply Fq_eq. vm_compute. reflexivity.
Qed.

Theorem p256_laws : ParamsLaws P256.
Proof.
  constructor.
  - exact p256_prime.
  - vm_compute. reflexivity.
  - discriminate.
  - exact n_p256_prime.
  - discriminate.
  - discriminate.
  - split; [vm_compute; repeat constructor|discriminate].
  - vm_compute. reflexivity.
  - exact p256_no_two_torsion.
  - exact p256_gen_on.
  - exact p256_gen_order.
  - apply neq_by_compute. vm_compute. reflexivity.
  - exact p256_z_nonsquare.
  - apply Fq_eq. vm_compute. reflexivity.
  - exact p256_exceptional.
Qed.
