(** * Nist521: the parameters of P-521, and their properties by computation.

    SEC 2, version 2, section 2.6.1 (secp521r1) and RFC 9380, section 8.4:
    the constants of the crate p521. *)
From Verif Require Import NistCurve NistFacts CubicRoot Chain Chain521 Pocklington PowCert Cert521 Pow521 HexNum.
From Coq Require Import Znumtheory List.
Import ListNotations.
Open Scope Z_scope.

Definition P521 : Params := {|
  pp := 2 ^ 521 - 1;
  pa := -3;
  pb := 0x51953eb9618e1c9a1f929a21a0b68540eea2da725b99b315f3b8b489918ef109e156193951ec7e937b1652c0bd3bb1bf073573df883d2c34f1ef451fd46b503f00;
  pn := 0x1fffffffffffffffffffffffffffffffffffffffffffffffffffffffffffffffffa51868783bf2f966b7fcc0148f709a5d03bb5c9b8899c47aebb6fb71e91386409;
  pgx := 0xc6858e06b70404e9cd9e3ecb662395b4429c648139053fb521f828af606b4d3dbaa14b5e77efe75928fe1dc127a2ffa8de3348b3c1856a429bf97e7e31c2e5bd66;
  pgy := 0x11839296a789a3bc0045c8a5fb42c7d1bd998f54449579b446817afbd17273e662c97ee72995ef42640c550b9013fad0761353c7086a272c24088be94769fd16650;
  pz := -4;
  pc2 := 8;
  pw := 66; pl := 98
|}.

Lemma certs521_ok : check_certs [] cert521 = true.
Proof. vm_compute. reflexivity. Qed.
Lemma p521_prime : prime (pp P521).
Proof. apply (certified_prime cert521 _ certs521_ok). vm_compute. reflexivity. Qed.
Lemma n521_prime : prime (pn P521).
Proof. apply (certified_prime cert521 _ certs521_ok). vm_compute. reflexivity. Qed.

Lemma p521_big : 2 < pp P521. Proof. reflexivity. Qed.

Local Notation p := (pp P521).
Local Notation o := (of_Z (pp P521)).

Lemma neq_by_compute521 q (x y : Fq q) : (fval x =? fval y) = false -> x <> y.
Proof. intros H E. apply Z.eqb_neq in H. now apply H, f_equal. Qed.

(** No point of order two. *)
Definition s521 : Z := 0x137c840a0eff511c2847ec7e447c59fa802c968077ca6485b6116cafc0659bb91fbad71b6acfbe5340c81eb93928621992365c71543cd30608d651ba51aca944ea4.
Definition v521 : Z := 0x12f17a3f64b48dc96f4872147b0cb4bdb8dbc87d4f59327716c8f57a77136ee709cf14f9bed7440da1ede9fe9e9d7ad28176dfc62fe9c4e95092a6f6b8da73945e.
Definition r521 : Z := 0x32749246cef38c558b84265cbe9454c5b08624d5cb14a69636a701122712fcae5faafa042ad6c33247520b119fd582bcd5a02f43e801348f88f734ddb0b41f5b39.

Definition sparse521 : modul := ([(130%nat, 2)], [(0%nat, 1)]).
Lemma sparse521_ok : modulus_is sparse521 p = true.
Proof. vm_compute. reflexivity. Qed.

(** 3 is not a cube. *)
Lemma p521_cube : 3 ^ ((p - 1) / 3) mod p <> 1.
Proof.
  assert (H : check_pow sparse521 p 3 ((p - 1) / 3) r521 pow_c521 = true) by (vm_compute; reflexivity).
  apply check_pow_spec in H as [_ H]; [|reflexivity|exact sparse521_ok]. rewrite H. discriminate.
Qed.

Lemma p521_no_two_torsion : forall x, cubic p (cA P521) (cB P521) x <> f0 p.
Proof.
  intros x. unfold cubic.
  replace (cA P521) with (fopp p (three p)) by (apply Fq_eq; vm_compute; reflexivity).
  apply (no_root_cardano p p521_prime p521_big (cB P521) (o s521) 3 (o v521)).
  - vm_compute. reflexivity.
  - apply Fq_eq. vm_compute. reflexivity.
  - apply neq_by_compute521. vm_compute. reflexivity.
  - apply Fq_eq. vm_compute. reflexivity.
  - exact p521_cube.
Qed.

(** -4 is not a square. *)
Lemma p521_z_nonsquare : fpow P521 (cZ P521) ((p - 1) / 2) = fopp p (f1 p).
Proof.
  assert (H : check_pow sparse521 p 4 ((p - 1) / 2) 1 pow_z521 = true) by (vm_compute; reflexivity).
  apply check_pow_spec in H as [He H]; [|reflexivity|exact sparse521_ok].
  assert (Ho : Z.odd ((p - 1) / 2) = true) by (vm_compute; reflexivity).
  apply (pow_neg_odd _ _ _ p521_big Ho) in H.
  change (cZ P521) with (o (-4)). rewrite (fpow_of_Z P521 (-4) _ (p - 1) p521_big He H). apply Fq_eq. vm_compute. reflexivity.
Qed.

(** The generator. *)
Lemma p521_gen_on : on_curve p (cA P521) (cB P521) (o (pgx P521)) (o (pgy P521)) = true.
Proof. vm_compute. reflexivity. Qed.

Lemma p521_gx_range : 0 <= pgx P521 < p.
Proof. split; [discriminate|reflexivity]. Qed.

Lemma p521_gy_range : 0 <= pgy P521 <= p.
Proof. split; discriminate. Qed.
Lemma p521_a_range : -3 <= 0.
Proof. discriminate. Qed.

Lemma p521_chain : check_order p sparse521 (-3) (pgx P521) (pgy P521) (pn P521) chain521 = true.
Proof. vm_compute. reflexivity. Qed.

Lemma p521_gen_order :
  zmul (Weierstrass.add p (cA P521) (cB P521)) (Inf _ _ _) (pn P521) (generator P521) = Inf _ _ _.
Proof.
  unfold generator. rewrite (point_on _ _ _ _ _ p521_gen_on).
  apply (order_ok p sparse521 sparse521_ok (-3) (pgx P521) (pgy P521) p521_prime p521_big
           (cA P521) (cB P521) eq_refl p521_no_two_torsion p521_a_range p521_gx_range p521_gy_range p521_gen_on
           (pn P521) chain521 p521_chain).
Qed.

Lemma p521_exceptional : exists r, fmul p r r =
  cubic p (cA P521) (cB P521) (fmul p (cB P521) (finv p (fmul p (cZ P521) (cA P521)))).
Proof.
  exists (o 0x1386c4faab4b9b73ecf30fe24c43a7626603ea9ac33ef6a2456332501e77d10f589f08f8a82959f40b2dd9132b2f24046121095b8eb1b71bd9749bd5aed3e0a14f5).
  apply Fq_eq. vm_compute. reflexivity.
Qed.

Theorem p521_laws : ParamsLaws P521.
Proof.
  constructor.
  - exact p521_prime.
  - vm_compute. reflexivity.
  - discriminate.
  - exact n521_prime.
  - discriminate.
  - discriminate.
  - split; [vm_compute; repeat constructor|discriminate].
  - vm_compute. reflexivity.
  - exact p521_no_two_torsion.
  - exact p521_gen_on.
  - exact p521_gen_order.
  - apply neq_by_compute521. vm_compute. reflexivity.
  - exact p521_z_nonsquare.
  - apply Fq_eq. vm_compute. reflexivity.
  - exact p521_exceptional.
Qed.
