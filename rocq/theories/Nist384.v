(** * Nist384: the parameters of P-384, and their properties by computation.

    SEC 2, version 2, section 2.5.1 (secp384r1) and RFC 9380, section 8.3:
    the constants of the crate p384. *)
From Verif Require Import NistCurve NistFacts CubicPoly Root384 Chain Chain384 Pocklington PowCert Cert384 Pow384 HexNum.
From Coq Require Import Znumtheory List Lia.
Import ListNotations.
Open Scope Z_scope.

Definition P384 : Params := {|
  pp := 2 ^ 384 - 2 ^ 128 - 2 ^ 96 + 2 ^ 32 - 1;
  pa := -3;
  pb := 0xb3312fa7e23ee7e4988e056be3f82d19181d9c6efe8141120314088f5013875ac656398d8a2ed19d2a85c8edd3ec2aef;
  pn := 0xffffffffffffffffffffffffffffffffffffffffffffffffc7634d81f4372ddf581a0db248b0a77aecec196accc52973;
  pgx := 0xaa87ca22be8b05378eb1c71ef320ad746e1d3b628ba79b9859f741e082542a385502f25dbf55296c3a545e3872760ab7;
  pgy := 0x3617de4a96262c6f5d9e98bf9292dc29f8f41dbd289a147ce9da3113b5f0b8c00a60b1ce1d7e819d7a431d7c90ea0e5f;
  pz := -12;
  pc2 := 0x19877cc1041b7555743c0ae2e3a3e61fb2aaa2e0e87ea557a563d8b598a0940d0a697a9e0b9e92cfaa314f583c9d066;
  pw := 48; pl := 72
|}.

Lemma certs384_ok : check_certs [] cert384 = true.
Proof. vm_compute. reflexivity. Qed.
Lemma p384_prime : prime (pp P384).
Proof. apply (certified_prime cert384 _ certs384_ok). vm_compute. reflexivity. Qed.
Lemma n384_prime : prime (pn P384).
Proof. apply (certified_prime cert384 _ certs384_ok). vm_compute. reflexivity. Qed.

Lemma p384_big : 2 < pp P384. Proof. reflexivity. Qed.

Local Notation p := (pp P384).
Local Notation o := (of_Z (pp P384)).

Lemma neq_by_compute384 q (x y : Fq q) : (fval x =? fval y) = false -> x <> y.
Proof. intros H E. apply Z.eqb_neq in H. now apply H, f_equal. Qed.

Definition sparse384 : modul := ([(96%nat, 1); (8%nat, 1)], [(32%nat, 1); (24%nat, 1); (0%nat, 1)]).
Lemma sparse384_ok : modulus_is sparse384 p = true.
Proof. vm_compute. reflexivity. Qed.

(** No point of order two. *)
Lemma p384_roots : check_no_root sparse384 p (pb P384) (p - pb P384) 32 96 128 384 root384_1 root384_2 root384_3 root384_4 root384_inv = true.
Proof. vm_compute. reflexivity. Qed.

Lemma p384_b_neq : (pb P384 mod p =? 0) = false.
Proof. vm_compute. reflexivity. Qed.

Lemma p384_no_two_torsion : forall x, cubic p (cA P384) (cB P384) x <> f0 p.
Proof.
  intros x E. pose proof p384_b_neq as Hb. apply Z.eqb_neq in Hb.
  apply (no_root_poly sparse384 p (pb P384) _ _ _ _ _ _ _ _ _ _ p384_prime sparse384_ok Hb p384_roots (fval x)).
  apply (cubic_Z p (pb P384) x p384_prime). exact E.
Qed.

(** -12 is not a square. *)
Lemma p384_z_nonsquare : fpow P384 (cZ P384) ((p - 1) / 2) = fopp p (f1 p).
Proof.
  assert (H : check_pow sparse384 p 12 ((p - 1) / 2) 1 pow_z384 = true) by (vm_compute; reflexivity).
  apply check_pow_spec in H as [He H]; [|reflexivity|exact sparse384_ok].
  assert (Ho : Z.odd ((p - 1) / 2) = true) by (vm_compute; reflexivity).
  apply (pow_neg_odd _ _ _ p384_big Ho) in H.
  change (cZ P384) with (o (-12)). rewrite (fpow_of_Z P384 (-12) _ (p - 1) p384_big He H). apply Fq_eq. vm_compute. reflexivity.
Qed.

(** The generator. *)
Lemma p384_gen_on : on_curve p (cA P384) (cB P384) (o (pgx P384)) (o (pgy P384)) = true.
Proof. vm_compute. reflexivity. Qed.

Lemma p384_gx_range : 0 <= pgx P384 < p.
Proof. split; [discriminate|reflexivity]. Qed.

Lemma p384_gy_range : 0 <= pgy P384 <= p.
Proof. split; discriminate. Qed.
Lemma p384_a_range : -3 <= 0.
Proof. discriminate. Qed.

Lemma p384_chain : check_order p sparse384 (-3) (pgx P384) (pgy P384) (pn P384) chain384 = true.
Proof. vm_compute. reflexivity. Qed.

Lemma p384_gen_order :
  zmul (Weierstrass.add p (cA P384) (cB P384)) (Inf _ _ _) (pn P384) (generator P384) = Inf _ _ _.
Proof.
  unfold generator. rewrite (point_on _ _ _ _ _ p384_gen_on).
  apply (order_ok p sparse384 sparse384_ok (-3) (pgx P384) (pgy P384) p384_prime p384_big
           (cA P384) (cB P384) eq_refl p384_no_two_torsion p384_a_range p384_gx_range p384_gy_range p384_gen_on
           (pn P384) chain384 p384_chain).
Qed.

Lemma p384_exceptional : exists r, fmul p r r =
  cubic p (cA P384) (cB P384) (fmul p (cB P384) (finv p (fmul p (cZ P384) (cA P384)))).
Proof.
  exists (o 0xf409ff49f8f12c68e973c9b47a385ac1cd9bb39c9a6f4c77137597adac5618d1b0be26d5f19a079aaac7bf09e36a5463).
  apply Fq_eq. vm_compute. reflexivity.
Qed.

Theorem p384_laws : ParamsLaws P384.
Proof.
  constructor.
  - exact p384_prime.
  - vm_compute. reflexivity.
  - discriminate.
  - exact n384_prime.
  - discriminate.
  - discriminate.
  - split; [vm_compute; repeat constructor|discriminate].
  - vm_compute. reflexivity.
  - exact p384_no_two_torsion.
  - exact p384_gen_on.
  - exact p384_gen_order.
  - apply neq_by_compute384. vm_compute. reflexivity.
  - exact p384_z_nonsquare.
  - apply Fq_eq. vm_compute. reflexivity.
  - exact p384_exceptional.
Qed.
