(** * NistCheck: a cheap check that a string hashes to a given point.

    The points are found outside; Coq checks them against the RFC's
    definition, with [rfc_sswu_unique]. *)
From Verif Require Import NistCurve NistFacts NistSpec NistProps EllipticCurveFacts.
From Coq Require Import Znumtheory Field.
Open Scope Z_scope.

Section Check.
Context (P : Params).
Local Notation p := (pp P).
Local Notation A := (cA P).
Local Notation B := (cB P).
Local Notation f := (of_Z (pp P)).

(** [c] = (u, i, x, y): i is the inverse of Z^2 u^4 + Z u^2, y^2 = g(x), x is
    the first candidate for u, and y has the sign of u. *)
Definition sswu_check (c : Z * Z * Z * Z) : bool :=
  let '(u, i, x, y) := c in
  let t := fmul p (cZ P) (f (u * u)) in
  (fval (fmul p (fadd p (fmul p t t) t) (f i)) =? 1) &&
  (fval (fmul p (f x) A) =? fval (fmul p (fopp p B) (fadd p (f1 p) (f i)))) &&
  (x <? p) && (y <? p) && (0 <=? x) && (0 <=? y) &&
  (fval (f (y * y)) =? fval (rfc_g p A B (f x))) &&
  Bool.eqb (Z.odd y) (rfc_sgn0 p (f u)).

Context (PL : ParamsLaws P).
Add Field Fp : (fq_field (pp P) (pp_prime P PL)).

Lemma sswu_checked u i x y : sswu_check (u, i, x, y) = true -> rfc_sswu p A B (cZ P) (f u) (f x) (f y).
Proof.
  unfold sswu_check. cbv zeta. rewrite !andb_true_iff, !Z.eqb_eq, !Z.ltb_lt, !Z.leb_le.
  intros (((((((Hi & H1) & H2) & H3) & H4) & H5) & H6) & H7). apply Bool.eqb_prop in H7. apply Fq_eq in H6, H1.
  rewrite <- (of_Z_mul P) in H6, Hi.
  pose proof (a_neq P PL) as Ha.
  assert (E1 : f x = rfc_x1 p A B (cZ P) (f u)).
  { set (t := fadd p (fmul p (fmul p (cZ P) (cZ P)) (fmul p (fmul p (fmul p (f u) (f u)) (f u)) (f u)))
                (fmul p (cZ P) (fmul p (f u) (f u)))).
    assert (Ht : fmul p t (f i) = f1 p).
    { apply Fq_eq. etransitivity; [|etransitivity; [exact Hi|]].
      - apply f_equal. unfold t. ring.
      - symmetry. change (1 mod p = 1). pose proof (p_big P PL). apply Z.mod_1_l. lia. }
    assert (Ht0 : t <> f0 p).
    { intros E. rewrite E in Ht. apply (F_1_neq_0 (fq_field p (pp_prime P PL))). rewrite <- Ht. ring. }
    assert (Ei : finv p t = f i).
    { transitivity (fmul p (finv p t) (fmul p t (f i))); [rewrite Ht; ring|]. field. exact Ht0. }
    unfold rfc_x1. cbv zeta. unfold rfc_inv0. fold t. rewrite Ei.
    assert (Hi0 : feqb p (f i) (f0 p) = false).
    { apply not_true_is_false. rewrite feqb_spec. intros E. rewrite E in Ht.
      apply (F_1_neq_0 (fq_field p (pp_prime P PL))). rewrite <- Ht. ring. }
    rewrite Hi0. transitivity (fmul p (fmul p (f x) A) (finv p A)); [field; exact Ha|].
    rewrite H1. ring. }
  split; [intros _; exact E1|]. split; [|split].
  - intros Hn. destruct Hn. exists (f y). rewrite <- E1. exact H6.
  - exact H6.
  - unfold rfc_sgn0 at 1. change (fval (f y)) with (y mod p). rewrite Z.mod_small by lia. exact H7.
Qed.

Definition hash_check (uniform : bytes) (c : (Z * Z * Z * Z) * (Z * Z * Z * Z)) : bool :=
  let '((u0, i0, x0, y0), (u1, i1, x1, y1)) := c in
  let L := N.to_nat (pl P) in
  (be_Z (firstn L uniform) mod p =? u0 mod p) && (be_Z (skipn L uniform) mod p =? u1 mod p) &&
  sswu_check (u0, i0, x0, y0) && sswu_check (u1, i1, x1, y1) && negb (x0 =? x1).

Context (pick : bytes -> bool).
Local Notation C := (NistCurve P pick).

(** The hash is the sum of the two points, which is not the identity. *)
Lemma hash_checked (H : HashFn) (HL : HashLaws H) (Hokm : okm_fits (C := C) (H := H))
  fuel msg tag u0 i0 x0 y0 u1 i1 x1 y1 :
  tag <> [] ->
  hash_check (expand_message_xmd (digest H) (output_size H) (block_size H) msg tag (2 * pl P))
    ((u0, i0, x0, y0), (u1, i1, x1, y1)) = true ->
  let G := CurveGroup C fuel in
  exists Q, hash_to_curve G H [msg] [tag] = Ok Q /\ Q <> identity_elem G /\
  exists P0 P1, affine P P0 = Some (x0, y0) /\ affine P P1 = Some (x1, y1) /\ Q = elem_add G P0 P1.
Proof.
  intros Ht Hc G. unfold hash_check in Hc. cbv zeta in Hc.
  rewrite !andb_true_iff, !Z.eqb_eq, negb_true_iff, Z.eqb_neq in Hc. destruct Hc as ((((H1 & H2) & H3) & H4) & H5).
  destruct (hash_point P PL pick H HL Hokm fuel [msg] [tag]) as (a0 & b0 & K0 & a1 & b1 & K1 & S0 & S1 & E).
  { cbn [concat]. now rewrite app_nil_r. }
  cbn [concat] in *. rewrite !app_nil_r in *.
  rewrite (of_Z_eq p _ _ H1) in S0. rewrite (of_Z_eq p _ _ H2) in S1.
  destruct (rfc_sswu_unique P PL _ _ _ _ _ S0 (sswu_checked _ _ _ _ H3)) as [-> ->].
  destruct (rfc_sswu_unique P PL _ _ _ _ _ S1 (sswu_checked _ _ _ _ H4)) as [-> ->].
  unfold sswu_check in H3, H4. rewrite !andb_true_iff, !Z.eqb_eq, !Z.ltb_lt, !Z.leb_le in H3, H4.
  destruct H3 as (((((((_ & _) & A1) & A2) & A3) & A4) & _) & _).
  destruct H4 as (((((((_ & _) & B1) & B2) & B3) & B4) & _) & _).
  assert (F0 : fval (f x0) = x0) by (cbn [of_Z fval]; apply Z.mod_small; lia).
  assert (F1 : fval (f x1) = x1) by (cbn [of_Z fval]; apply Z.mod_small; lia).
  assert (F2 : fval (f y0) = y0) by (cbn [of_Z fval]; apply Z.mod_small; lia).
  assert (F3 : fval (f y1) = y1) by (cbn [of_Z fval]; apply Z.mod_small; lia).
  eexists. split; [exact E|]. split.
  - intros Hid. assert (Hx : f x0 <> f x1) by (intros Hx; apply H5; congruence).
    assert (D : forall (S Q : Point p A B), add p A B S Q = Inf _ _ _ ->
      option_map fst (affine P S) = option_map fst (affine P Q)).
    { intros S Q HSQ.
      assert (HN : S = neg p (pp_prime P PL) A B Q).
      { pose proof (f_equal (fun T => add p A B T (neg p (pp_prime P PL) _ _ Q)) HSQ) as HE.
        cbv beta in HE. rewrite (padd_assoc P PL), (add_neg p (pp_prime P PL)) in HE.
        rewrite (padd_comm P PL) in HE. exact HE. }
      rewrite HN. destruct Q; reflexivity. }
    specialize (D _ _ Hid). cbn [affine option_map fst] in D. congruence.
  - exists (Aff p A B (f x0) (f y0) K0), (Aff p A B (f x1) (f y1) K1).
    split; [cbn [affine]; congruence|]. split; [cbn [affine]; congruence|]. reflexivity.
Qed.

Lemma hash_checked' (H : HashFn) (HL : HashLaws H) (Hokm : okm_fits (C := C) (H := H))
  fuel msg tag uniform c :
  tag <> [] ->
  expand_message_xmd (digest H) (output_size H) (block_size H) msg tag (2 * pl P) = uniform ->
  hash_check uniform c = true ->
  let G := CurveGroup C fuel in
  exists Q, hash_to_curve G H [msg] [tag] = Ok Q /\ Q <> identity_elem G /\
  exists P0 P1, affine P P0 = Some (snd (fst (fst c)), snd (fst c)) /\
                affine P P1 = Some (snd (fst (snd c)), snd (snd c)) /\ Q = elem_add G P0 P1.
Proof.
  intros Ht Hu Hc. subst uniform. destruct c as [[[[u0 i0] x0] y0] [[[u1 i1] x1] y1]].
  exact (hash_checked H HL Hokm fuel msg tag u0 i0 x0 y0 u1 i1 x1 y1 Ht Hc).
Qed.
End Check.
