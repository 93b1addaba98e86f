(** * Rist25519: the parameters of ristretto255, and their properties by
    computation.

    RFC 9496, section 4.1, and RFC 8032, section 5.1 (the generator): the
    constants of curve25519-dalek. *)
From Verif Require Import Rist255 RistFacts EChain Cert25519 Pow25519 Chain25519 Primes Pocklington PowCert HexNum.
From Coq Require Import Znumtheory List Lia.
Import ListNotations.
Open Scope Z_scope.

Definition R25519 : RParams := {|
  rp := 2 ^ 255 - 19;
  rd := 37095705934669439343138083508754565189542113879843219016388785533085940283555;
  ri := 19681161376707505956807079304988542015446066515923890162744021073123829784752;
  rq := 25063068953384623474111414158702152701244531502492656460079210482610430750235;
  rc := 54469307008909316920995813868745141605393597292927456921205312896311721017578;
  rods := 1159843021668779879193775521855586647937357759715417654439879720876111806838;
  rdos := 40440834346308536858101042469323190826248399146238708352240133220865137265952;
  rbx := 15112221349535400772501151409588531511454012693041857206046113283949847762202;
  rby := 46316835694926478169428394003475163141307993866256225615783033603165251855960
|}.

Local Notation p := (rp R25519).
Local Notation o := (of_Z (rp R25519)).

Lemma r_prime : prime p.
Proof. apply (certified_prime cert25519 _); vm_compute; reflexivity. Qed.

Lemma r_big : 2 < p. Proof. reflexivity. Qed.

Definition sparse25519 : modul := ([(63%nat, 8)], [(0%nat, 19)]).
Lemma sparse25519_ok : modulus_is sparse25519 p = true.
Proof. vm_compute. reflexivity. Qed.

Lemma r_i_square : fmul p (cI R25519) (cI R25519) = fopp p (f1 p).
Proof. apply Fq_eq. vm_compute. reflexivity. Qed.

Lemma r_d_euler : rpow R25519 (cD R25519) ((p - 1) / 2) = fopp p (f1 p).
Proof.
  assert (H : check_pow sparse25519 p (rd R25519) ((p - 1) / 2) (p - 1) pow_d25519 = true) by (vm_compute; reflexivity).
  apply check_pow_spec in H as [He H]; [|reflexivity|exact sparse25519_ok].
  change (cD R25519) with (o (rd R25519)). rewrite (rpow_of_Z R25519 (rd R25519) _ (p - 1) r_big He H).
  apply Fq_eq. vm_compute. reflexivity.
Qed.

Lemma r_mod8 : p mod 8 = 5.
Proof. vm_compute. reflexivity. Qed.
Lemma r_fits : p <= 2 ^ 255.
Proof. apply Z.leb_le. vm_compute. reflexivity. Qed.
Lemma r_count : p < 8 * ell - 3.
Proof. apply Z.ltb_lt. vm_compute. reflexivity. Qed.
Lemma r_q_square : fmul p (SQRT_AD_MINUS_ONE R25519) (SQRT_AD_MINUS_ONE R25519) = fsub p (fopp p (cD R25519)) (f1 p).
Proof. apply Fq_eq. vm_compute. reflexivity. Qed.
Lemma r_c_square : fmul p (fmul p (INVSQRT_A_MINUS_D R25519) (INVSQRT_A_MINUS_D R25519))
  (fsub p (fopp p (f1 p)) (cD R25519)) = f1 p.
Proof. apply Fq_eq. vm_compute. reflexivity. Qed.
Lemma r_ods : ONE_MINUS_D_SQ R25519 = fsub p (f1 p) (fmul p (cD R25519) (cD R25519)).
Proof. apply Fq_eq. vm_compute. reflexivity. Qed.
Lemma r_dos : D_MINUS_ONE_SQ R25519 = fmul p (fsub p (cD R25519) (f1 p)) (fsub p (cD R25519) (f1 p)).
Proof. apply Fq_eq. vm_compute. reflexivity. Qed.

Lemma r_base_on : on_edwards p (cD R25519) (o (rbx R25519)) (o (rby R25519)) = true.
Proof. vm_compute. reflexivity. Qed.
Lemma r_base_even : exists w, fmul p w w = fadd p (f1 p) (fmul p (cD R25519) (fmul p (o (rby R25519)) (o (rby R25519)))).
Proof.
  exists (o 0x18f5b4eb43f8191a523a4c8aa700a62900560bb40bf06089830d5fe21c83c587). apply Fq_eq. vm_compute. reflexivity.
Qed.
Lemma r_base_nontrivial : fmul p (o (rbx R25519)) (o (rby R25519)) <> f0 p.
Proof.
  intros E. apply (f_equal fval) in E. apply Z.eqb_eq in E. revert E.
  assert (H : fval (fmul p (o (rbx R25519)) (o (rby R25519))) =? fval (f0 p) = false) by (vm_compute; reflexivity).
  intros E. rewrite H in E. discriminate.
Qed.

Lemma r_d_nonsquare : forall r, fmul p r r <> cD R25519.
Proof. exact (euler_nonsquare R25519 r_prime r_mod8 r_d_euler). Qed.

Lemma r_chain : echeck_order p sparse25519 (rd R25519) (rbx R25519) (rby R25519) ell chain25519 = true.
Proof. vm_compute. reflexivity. Qed.
Lemma r_d_range : 0 <= rd R25519. Proof. discriminate. Qed.
Lemma r_bx_range : 0 <= rbx R25519 <= p. Proof. split; discriminate. Qed.
Lemma r_by_range : 0 <= rby R25519. Proof. discriminate. Qed.

Lemma r_base_order :
  zmul (eadd p (cD R25519) r_prime) (eid p (cD R25519) r_prime) ell
    (epoint p (cD R25519) r_prime (o (rbx R25519)) (o (rby R25519))) = eid p (cD R25519) r_prime.
Proof.
  exact (eorder_epoint p sparse25519 sparse25519_ok (rd R25519) (rbx R25519) (rby R25519) r_prime r_big
    (cD R25519) eq_refl (cI R25519) r_i_square r_d_nonsquare r_d_range r_bx_range r_by_range r_base_on ell chain25519 r_chain).
Qed.

Definition r25519_laws : RLaws R25519 :=
  Build_RLaws R25519 r_prime r_mod8 r_fits r_count r_i_square r_d_euler r_q_square r_c_square r_ods r_dos
    r_base_on r_base_even r_base_nontrivial r_base_order.
