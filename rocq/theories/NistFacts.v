(** * NistFacts: what [NistCurve] computes is a prime-order group with the
    encodings and the hash-to-curve map of the standards, for every choice of
    parameters satisfying [ParamsLaws]. *)
From Verif Require Export NistCurve NistSpec EllipticCurveFacts.
From Verif Require Import Pocklington Fermat.
From Coq Require Import Znumtheory Zpow_facts Field.
Open Scope Z_scope.

(** Facts about numbers, which [Nist256] etc. establish by computation. *)
Record ParamsLaws (P : Params) : Prop := {
  pp_prime : prime (pp P);
  pp_mod4 : pp P mod 4 = 3;
  pp_fits : pp P <= 256 ^ Z.of_nat (pw P);
  pn_prime : prime (pn P);
  pn_odd : pn P <> 2;
  pn_fits : pn P <= 256 ^ Z.of_nat (pw P);
  pw_bound : (1 <= pw P)%nat /\ (N.of_nat (pw P) <= 65534)%N;
  pn_large : 2 * pp P + 1 < 3 * pn P;
  no_two_torsion : forall x, cubic (pp P) (cA P) (cB P) x <> f0 (pp P);
  gen_on : on_curve (pp P) (cA P) (cB P) (of_Z (pp P) (pgx P)) (of_Z (pp P) (pgy P)) = true;
  gen_order : zmul (add (pp P) (cA P) (cB P)) (Inf _ _ _) (pn P) (generator P) = Inf _ _ _;
  a_neq : cA P <> f0 (pp P);
  z_nonsquare : fpow P (cZ P) ((pp P - 1) / 2) = fopp (pp P) (f1 (pp P));
  c2_spec : fmul (pp P) (cC2 P) (cC2 P) =
    fopp (pp P) (fmul (pp P) (fmul (pp P) (cZ P) (cZ P)) (cZ P));
  exceptional : exists r, fmul (pp P) r r =
    cubic (pp P) (cA P) (cB P)
      (fmul (pp P) (cB P) (finv (pp P) (fmul (pp P) (cZ P) (cA P))))
}.

(** Powers of small numbers. *)
Lemma fpow_of_Z P z e r : 2 < pp P -> 0 <= e -> z ^ e mod pp P = r ->
  fpow P (of_Z (pp P) z) e = of_Z (pp P) r.
Proof.
  intros Hp He H. unfold fpow. apply of_Z_eq. rewrite powmod_spec by exact He. cbn [of_Z fval].
  rewrite Z.mod_mod by lia. rewrite <- Zpower_mod by lia. rewrite H, <- H. now rewrite Z.mod_mod by lia.
Qed.

Section Facts.
Context (P : Params) (PL : ParamsLaws P).
Local Notation p := (pp P).
Local Notation F := (Fq (pp P)).
Local Notation "x [+] y" := (fadd (pp P) x y) (at level 50, left associativity).
Local Notation "x [-] y" := (fsub (pp P) x y) (at level 50, left associativity).
Local Notation "x [*] y" := (fmul (pp P) x y) (at level 40, left associativity).
Local Notation "[~] x" := (fopp (pp P) x) (at level 35).
Local Notation "0f" := (f0 (pp P)).
Local Notation "1f" := (f1 (pp P)).
Local Notation EP := (Point (pp P) (cA P) (cB P)).
Local Notation Hp := (pp_prime P PL).
Add Field Fp : (fq_field (pp P) (pp_prime P PL)).

Lemma p_big : 2 < p.
Proof. pose proof (pp_mod4 P PL) as H. pose proof (prime_ge_2 _ Hp). assert (p <> 2); [|lia]. intros E. rewrite E in H. discriminate. Qed.
Local Notation Hp2 := p_big.

Lemma p_form : exists k, 0 <= k /\ p = 4 * k + 3.
Proof.
  exists (p / 4). pose proof p_big. split; [apply Z.div_pos; lia|].
  pose proof (Z.div_mod p 4). rewrite (pp_mod4 P PL) in *. lia.
Qed.

(** ** Powers *)
Lemma fval_of_Z z : fval (of_Z p z) = z mod p. Proof. reflexivity. Qed.

Lemma fpow_val x e : 0 <= e -> fval (fpow P x e) = fval x ^ e mod p.
Proof. intros He. unfold fpow. rewrite fval_of_Z, powmod_spec by exact He. apply Z.mod_mod. pose proof p_big. lia. Qed.

Lemma fpow_add x e f : 0 <= e -> 0 <= f -> fpow P x (e + f) = fpow P x e [*] fpow P x f.
Proof.
  intros He Hf. apply Fq_eq. unfold fmul. rewrite fpow_val by lia. rewrite (fval_of_Z (fval (fpow P x e) * fval (fpow P x f))), !fpow_val by lia.
  rewrite Z.pow_add_r, <- Zmult_mod by lia. reflexivity.
Qed.

Lemma fpow_0 x : fpow P x 0 = 1f.
Proof. apply Fq_eq. rewrite fpow_val by lia. reflexivity. Qed.

Lemma fpow_1 x : fpow P x 1 = x.
Proof. apply Fq_eq. rewrite fpow_val, Z.pow_1_r by lia. apply fval_mod. Qed.

Lemma fpow_mul x y e : 0 <= e -> fpow P (x [*] y) e = fpow P x e [*] fpow P y e.
Proof.
  intros He. apply Fq_eq. unfold fmul. rewrite fpow_val by lia.
  rewrite (fval_of_Z (fval (fpow P x e) * fval (fpow P y e))), !fpow_val, fval_of_Z by lia.
  rewrite <- Zmult_mod, <- Z.pow_mul_l. pose proof p_big. symmetry. now apply Zpower_mod; lia.
Qed.

Lemma fpow_sq x e : 0 <= e -> fpow P x (2 * e) = fpow P (x [*] x) e.
Proof. intros He. rewrite fpow_mul by lia. rewrite <- fpow_add by lia. f_equal. lia. Qed.

Lemma fermat x : x <> 0f -> fpow P x (p - 1) = 1f.
Proof.
  intros Hx. pose proof p_big. apply Fq_eq. rewrite fpow_val by lia.
  rewrite (fermat_one p Hp); [symmetry; apply Z.mod_small; lia|].
  intros Hd. apply Hx, Fq_eq. cbn [f0 of_Z fval]. rewrite Z.mod_0_l by lia.
  pose proof (fval_range p Hp x). destruct (Z.eq_dec (fval x) 0); auto.
  apply Z.divide_pos_le in Hd; lia.
Qed.

Definition is_square (x : F) : Prop := exists r, r [*] r = x.

(** The quadratic character. *)
Definition chi (x : F) : F := fpow P x ((p - 1) / 2).

Lemma half : (p - 1) / 2 + (p - 1) / 2 = p - 1 /\ 0 <= (p - 1) / 2.
Proof.
  destruct p_form as (k & Hk & E). rewrite E. replace (4 * k + 3 - 1) with ((2 * k + 1) * 2) by lia.
  rewrite Z.div_mul by lia. lia.
Qed.

Lemma chi_mul x y : chi (x [*] y) = chi x [*] chi y.
Proof. apply fpow_mul. apply half. Qed.

Lemma chi_square r : r <> 0f -> chi (r [*] r) = 1f.
Proof.
  intros Hr. unfold chi. rewrite fpow_mul by apply half. rewrite <- fpow_add by apply half.
  rewrite (proj1 half). now apply fermat.
Qed.

Lemma f_int x y : x [*] y = 0f -> x = 0f \/ y = 0f.
Proof. exact (f_integral p Hp x y). Qed.
Lemma fdec (x y : F) : x = y \/ x <> y.
Proof. exact (f_dec p x y). Qed.
Lemma sub0 (x y : F) : x [-] y = 0f -> x = y.
Proof. exact (proj1 (f_sub_zero p Hp x y)). Qed.

Lemma one_neq : 1f <> 0f.
Proof. exact (F_1_neq_0 (fq_field p Hp)). Qed.

Lemma one_neq_opp : 1f <> [~] 1f.
Proof. intros E. apply one_neq. exact (f_neg_eq p Hp Hp2 1f E). Qed.

Lemma chi_values x : x <> 0f -> chi x = 1f \/ chi x = [~] 1f.
Proof.
  intros Hx. assert (E : chi x [*] chi x = 1f).
  { unfold chi. rewrite <- fpow_add by apply half. rewrite (proj1 half). now apply fermat. }
  destruct (f_int (chi x [-] 1f) (chi x [+] 1f)) as [H|H].
  - transitivity (chi x [*] chi x [-] 1f); [ring|]. rewrite E. ring.
  - left. now apply sub0.
  - right. apply sub0. rewrite <- H. ring.
Qed.

Lemma fsqrt_some x r : fsqrt P x = Some r -> r [*] r = x.
Proof.
  unfold fsqrt. destruct (feqb _ _ _) eqn:E; [|discriminate]. intros [= <-]. now apply feqb_spec.
Qed.

Lemma sqrt_pow x : let r := fpow P x ((p + 1) / 4) in r [*] r = chi x [*] x.
Proof.
  cbv zeta. destruct p_form as (k & Hk & E). unfold chi.
  rewrite <- fpow_add by (apply Z.div_pos; lia).
  rewrite <- (fpow_1 x) at 3. rewrite <- fpow_add by (try apply half; lia). f_equal.
  rewrite E. replace (4 * k + 3 + 1) with ((k + 1) * 4) by lia.
  replace (4 * k + 3 - 1) with ((2 * k + 1) * 2) by lia. rewrite !Z.div_mul by lia. lia.
Qed.

Lemma fsqrt_square r : exists r', fsqrt P (r [*] r) = Some r'.
Proof.
  unfold fsqrt. pose proof (sqrt_pow (r [*] r)) as E. cbv zeta in E. rewrite E.
  destruct (fdec r 0f) as [->|Hr].
  - replace (0f [*] 0f) with 0f by ring.
    replace (chi 0f [*] 0f) with 0f by ring. rewrite (proj2 (feqb_spec _ _) eq_refl). eauto.
  - rewrite chi_square by exact Hr. replace (1f [*] (r [*] r)) with (r [*] r) by ring.
    rewrite (proj2 (feqb_spec _ _) eq_refl). eauto.
Qed.

Lemma is_square_sqrt x : is_square x <-> exists r, fsqrt P x = Some r.
Proof.
  split.
  - intros [r <-]. apply fsqrt_square.
  - intros [r E]. exists r. now apply fsqrt_some.
Qed.

Lemma chi_is_square x : x <> 0f -> is_square x <-> chi x = 1f.
Proof.
  intros Hx. split.
  - intros [r <-]. apply chi_square. intros ->. apply Hx. ring.
  - intros E. exists (fpow P x ((p + 1) / 4)). pose proof (sqrt_pow x) as H. cbv zeta in H. rewrite H, E. ring.
Qed.

(** ** Parity *)
Lemma sgn0_opp x : x <> 0f -> sgn0 P ([~] x) = negb (sgn0 P x).
Proof.
  intros Hx. unfold sgn0, fopp. rewrite fval_of_Z. pose proof (fval_range p Hp x) as Hr.
  assert (fval x <> 0). { intros E. apply Hx, Fq_eq. cbn [f0 of_Z fval]. rewrite Z.mod_0_l; lia. }
  replace (- fval x) with (p - fval x + (-1) * p) by lia. rewrite Z_mod_plus_full, Z.mod_small by lia.
  rewrite Z.odd_sub. assert (Ho : Z.odd p = true).
  { destruct p_form as (k & _ & E). rewrite E.
    replace (4 * k + 3) with (1 + 2 * (2 * k + 1)) by lia. now rewrite Z.odd_add_mul_2. }
  rewrite Ho. now destruct (Z.odd (fval x)).
Qed.

Lemma curve_y x y : on_curve p (cA P) (cB P) x y = true -> y <> 0f.
Proof. intros H. apply (y_neq p Hp (cA P) (cB P) (no_two_torsion P PL) x y). now apply on_on. Qed.

(** A root of given parity. *)
Lemma same_x_sgn x y y' : on_curve p (cA P) (cB P) x y = true -> on_curve p (cA P) (cB P) x y' = true ->
  sgn0 P y = sgn0 P y' -> y = y'.
Proof.
  intros H H' E. pose proof (curve_y _ _ H') as Hy'.
  destruct (same_x p Hp (cA P) (cB P) x y y') as [->| ->]; try (now apply on_on); [reflexivity|].
  exfalso. rewrite sgn0_opp in E by exact Hy'. now destruct (sgn0 P y').
Qed.

(** ** The group *)
Local Notation A := (cA P).
Local Notation B := (cB P).
Local Notation Pt := (Point (pp P) (cA P) (cB P)).
Local Notation padd := (add (pp P) (cA P) (cB P)).
Local Notation O := (Inf (pp P) (cA P) (cB P)).

Lemma padd_comm Q T : padd Q T = padd T Q.
Proof. exact (add_comm p Hp Hp2 A B Q T). Qed.
Lemma padd_assoc Q T U : padd (padd Q T) U = padd Q (padd T U).
Proof. exact (add_assoc p Hp Hp2 A B (no_two_torsion P PL) Q T U). Qed.
Lemma padd_O Q : padd O Q = Q. Proof. reflexivity. Qed.

Definition code (Q : Pt) : Z :=
  match Q with
  | Inf _ _ _ => 0
  | Aff _ _ _ x y _ => 1 + 2 * fval x + (if sgn0 P y then 1 else 0)
  end.

Lemma code_range Q : 0 <= code Q < 2 * p + 1.
Proof.
  destruct Q as [|x y H]; cbn [code]; pose proof p_big; [lia|].
  pose proof (fval_range p Hp x). destruct (sgn0 P y); lia.
Qed.

Lemma code_inj Q T : code Q = code T -> Q = T.
Proof.
  destruct Q as [|x y H], T as [|x' y' H']; cbn [code]; [reflexivity| | |].
  - pose proof (fval_range p Hp x'). destruct (sgn0 P y'); lia.
  - pose proof (fval_range p Hp x). destruct (sgn0 P y); lia.
  - intros E. assert (Ex : x = x') by (apply Fq_eq; destruct (sgn0 P y), (sgn0 P y'); lia). subst x'.
    assert (Es : sgn0 P y = sgn0 P y') by (destruct (sgn0 P y), (sgn0 P y'); auto; lia).
    apply Aff_eq; [reflexivity|]. now apply (same_x_sgn x).
Qed.

Lemma point_dec (Q T : Pt) : {Q = T} + {Q <> T}.
Proof.
  destruct (peqb p A B Q T) eqn:E.
  - left. now apply peqb_spec.
  - right. intros H. apply peqb_spec in H. congruence.
Qed.

Lemma no_two Q : padd Q Q = O -> Q = O.
Proof.
  destruct Q as [|x y H]; [reflexivity|]. intros E. exfalso.
  destruct (opposite_dec p x y x y) as [[_ Hy]|Hn].
  - apply (curve_y x y H). exact (f_neg_eq p Hp Hp2 y Hy).
  - assert (Hon : on p A B x y) by (now apply on_on).
    destruct (add_aff p Hp Hp2 A B x y H x y H _ Hn (slope_ok p Hp Hp2 A B x y x y Hon Hon Hn)) as [H' E'].
    rewrite E' in E. discriminate.
Qed.

Lemma gen_aff : generator P = Aff _ _ _ _ _ (gen_on P PL).
Proof. apply point_on. Qed.
Lemma gen_neq : generator P <> O.
Proof. rewrite gen_aff. discriminate. Qed.

Lemma all_generated Q : exists k, 0 <= k < pn P /\ Q = zmul padd O k (generator P).
Proof.
  apply (generated padd O padd_comm padd_assoc padd_O (neg p Hp A B) (add_neg p Hp A B) point_dec
           code (2 * p + 1) code_range code_inj no_two (pn P) (generator P)
           (pn_prime P PL) (pn_odd P PL) (gen_order P PL) gen_neq (pn_large P PL)).
Qed.

Lemma order_point Q : zmul padd O (pn P) Q = O.
Proof.
  apply (order_all padd O padd_comm padd_assoc padd_O (neg p Hp A B) (add_neg p Hp A B) point_dec
           code (2 * p + 1) code_range code_inj no_two (pn P) (generator P)
           (pn_prime P PL) (pn_odd P PL) (gen_order P PL) gen_neq (pn_large P PL)).
Qed.

(** ** Encodings *)
Lemma coords_roundtrip x y H : exists xb, coords P (Aff p A B x y H) = Some (xb, sgn0 P y) /\
  length xb = pw P /\ decompress P xb (sgn0 P y) = Some (Aff p A B x y H).
Proof.
  pose proof (fval_range p Hp x) as Hr. pose proof (pp_fits P PL) as Hf.
  exists (I2OSP (Z.to_N (fval x)) (pw P)). split; [reflexivity|].
  split; [apply I2OSP_length|]. unfold decompress.
  rewrite be_Z_to_bytes by lia. destruct (Z.ltb_spec (fval x) p) as [_|]; [|lia].
  rewrite of_Z_fval. pose proof H as Hon. unfold on_curve in Hon. apply feqb_spec in Hon.
  rewrite <- Hon. destruct (fsqrt_square y) as [r Er]. rewrite Er. apply fsqrt_some in Er. f_equal.
  assert (Hc : on_curve p A B x r = true) by (unfold on_curve; rewrite Er; exact H).
  set (r' := if Bool.eqb _ _ then r else _).
  assert (Hr' : on_curve p A B x r' = true).
  { subst r'. destruct (Bool.eqb _ _); [exact Hc|]. exact (on_curve_neg p Hp A B x r Hc). }
  rewrite (point_on p A B x r' Hr'). apply Aff_eq; [reflexivity|].
  apply (same_x_sgn x); auto. subst r'. pose proof (curve_y _ _ Hc) as Hr0.
  destruct (Bool.eqb _ _) eqn:E; [now apply Bool.eqb_prop|]. rewrite sgn0_opp by exact Hr0.
  destruct (sgn0 P r), (sgn0 P y); cbn in *; congruence.
Qed.

Lemma decompress_some xb odd Q : decompress P xb odd = Some Q ->
  exists x y H, Q = Aff p A B x y H /\ be_Z xb = fval x /\ sgn0 P y = odd.
Proof.
  unfold decompress. destruct (Z.ltb_spec (be_Z xb) p) as [Hb|]; [|discriminate].
  set (x := of_Z p (be_Z xb)).
  destruct (fsqrt P (cubic p A B x)) as [r|] eqn:Er; [|discriminate]. apply fsqrt_some in Er.
  assert (Hc : on_curve p A B x r = true) by (unfold on_curve; now apply feqb_spec).
  intros [= <-]. set (r' := if Bool.eqb _ _ then r else _).
  assert (Hr' : on_curve p A B x r' = true).
  { subst r'. destruct (Bool.eqb _ _); [exact Hc|]. exact (on_curve_neg p Hp A B x r Hc). }
  exists x, r', Hr'. split; [exact (point_on p A B x r' Hr')|]. split.
  - unfold x. rewrite fval_of_Z, Z.mod_small; [reflexivity|]. pose proof (be_Z_range xb). lia.
  - subst r'. pose proof (curve_y _ _ Hc) as Hr0.
    destruct (Bool.eqb _ _) eqn:E; [now apply Bool.eqb_prop|]. rewrite sgn0_opp by exact Hr0.
    destruct (sgn0 P r), odd; cbn in *; congruence.
Qed.

Lemma coords_decompress xb odd Q : length xb = pw P -> decompress P xb odd = Some Q -> coords P Q = Some (xb, odd).
Proof.
  intros Hl E. destruct (decompress_some _ _ _ E) as (x & y & H & -> & Hx & Hy). cbn [coords].
  rewrite Hy. f_equal. f_equal. apply be_Z_inj; [rewrite I2OSP_length; congruence|].
  rewrite Hx. apply be_Z_to_bytes. pose proof (fval_range p Hp x). pose proof (pp_fits P PL). lia.
Qed.

(** Whether an x coordinate is one of a point does not depend on the parity
    asked for. *)
Lemma decompress_other xb odd odd' Q : decompress P xb odd = Some Q -> exists Q', decompress P xb odd' = Some Q'.
Proof.
  unfold decompress. destruct (be_Z xb <? p); [|discriminate].
  destruct (fsqrt P _); [|discriminate]. eauto.
Qed.

Lemma from_xy_some xb yb Q : from_xy P xb yb = Some Q -> Q <> O.
Proof.
  unfold from_xy. destruct (andb _ _); [|discriminate].
  destruct (on_curve _ _ _ _ _) eqn:E; [|discriminate]. intros [= <-]. rewrite (point_on _ _ _ _ _ E). discriminate.
Qed.

(** ** [Curve] laws *)
Context (pick : bytes -> bool).

Lemma fval_n (k : Fq (pn P)) : 0 <= fval k < pn P.
Proof. exact (fval_range (pn P) (pn_prime P PL) k). Qed.

Lemma mul_mod k Q : 0 <= k -> zmul padd O (k mod pn P) Q = zmul padd O k Q.
Proof.
  intros Hk. pose proof (prime_ge_2 _ (pn_prime P PL)).
  apply (zmul_mod padd O padd_comm padd_assoc padd_O); auto; [lia|]. apply order_point.
Qed.

Theorem nist_curve_laws : CurveLaws (NistCurve P pick).
Proof.
  pose proof (prime_ge_2 _ (pn_prime P PL)) as Hn2.
  constructor; cbn [NistCurve order field_bytes field_okm scalar_okm FieldElem field_from_okm EPoint
    map_to_curve clear_cofactor ep_eq ep_add ep_mul ep_generator ep_identity ep_coords ep_decompress
    ep_decompact ep_from_xy].
  - exact (pn_prime P PL).
  - exact (pn_fits P PL).
  - exact (pw_bound P PL).
  - intros Q T. apply peqb_spec.
  - exact padd_comm.
  - intros Q T U. symmetry. apply padd_assoc.
  - exact padd_O.
  - intros Q a b. unfold nist_mul. pose proof (fval_n a). pose proof (fval_n b).
    unfold fadd. cbn [of_Z fval]. rewrite mul_mod by lia.
    apply (zmul_add padd O padd_comm padd_assoc padd_O); lia.
  - intros Q T a. apply (zmul_dist padd O padd_comm padd_assoc padd_O).
  - intros Q a b. unfold nist_mul. pose proof (fval_n a). pose proof (fval_n b).
    unfold fmul. cbn [of_Z fval]. rewrite mul_mod by nia. rewrite Z.mul_comm.
    apply (zmul_mul padd O padd_comm padd_assoc padd_O); lia.
  - intros Q. unfold nist_mul, f1. cbn [of_Z fval]. rewrite Z.mod_1_l by lia. reflexivity.
  - intros Q. unfold nist_mul, f0. cbn [of_Z fval]. rewrite Z.mod_0_l by lia. reflexivity.
  - intros Q. destruct (all_generated Q) as (k & Hk & ->). exists (of_Z (pn P) k).
    unfold nist_mul. cbn [of_Z fval]. now rewrite Z.mod_small by lia.
  - exact gen_neq.
  - reflexivity.
  - intros [|x y H] Hq; [contradiction|]. destruct (coords_roundtrip x y H) as (xb & H1 & H2 & H3).
    exists xb, (sgn0 P y). auto.
  - intros x odd Q E. destruct (decompress_some _ _ _ E) as (x' & y & H & -> & _). discriminate.
  - intros x Q E. destruct (decompress_some _ _ _ E) as (x' & y & H & -> & _). discriminate.
  - intros x y Q E. now apply from_xy_some in E.
Qed.

(** ** The map to the curve *)
Local Notation Zc := (cZ P).
Local Notation g := (cubic (pp P) (cA P) (cB P)).

Lemma fpow_0_base e : 0 < e -> fpow P 0f e = 0f.
Proof.
  intros He. pose proof p_big. apply Fq_eq. rewrite fpow_val by lia. cbn [f0 of_Z fval].
  rewrite Z.mod_0_l by lia. rewrite Z.pow_0_l by lia. apply Z.mod_0_l. lia.
Qed.

Lemma opp_one_neq : [~] 1f <> 0f.
Proof. intros E. apply one_neq. transitivity ([~] ([~] 1f)); [ring|]. rewrite E. ring. Qed.

Lemma z_neq : Zc <> 0f.
Proof.
  intros E. pose proof (z_nonsquare P PL) as H. rewrite E, fpow_0_base in H.
  - now apply opp_one_neq.
  - destruct p_form as (k & Hk & E'). rewrite E'. replace (4 * k + 3 - 1) with ((2 * k + 1) * 2) by lia.
    rewrite Z.div_mul by lia. lia.
Qed.

Lemma chi_pow t : let r := fpow P t ((p - 3) / 4) in r [*] r [*] t = chi t.
Proof.
  cbv zeta. destruct p_form as (k & Hk & E). unfold chi.
  rewrite <- fpow_add by (apply Z.div_pos; lia).
  rewrite <- (fpow_1 t) at 2. rewrite <- fpow_add by (try (apply Z.add_nonneg_nonneg; apply Z.div_pos); lia). f_equal.
  rewrite E. replace (4 * k + 3 - 3) with (k * 4) by lia.
  replace (4 * k + 3 - 1) with ((2 * k + 1) * 2) by lia. rewrite !Z.div_mul by lia. lia.
Qed.

Lemma neq_mul x y : x <> 0f -> y <> 0f -> x [*] y <> 0f.
Proof. intros Hx Hy E. apply f_int in E as [E|E]; contradiction. Qed.

Lemma feqb_neq (x y : F) : x <> y -> feqb p x y = false.
Proof. intros H. destruct (feqb p x y) eqn:E; auto. apply feqb_spec in E. contradiction. Qed.
Lemma feqb_same (x : F) : feqb p x x = true.
Proof. now apply feqb_spec. Qed.

Lemma finv_neq x : x <> 0f -> finv p x <> 0f.
Proof. intros Hx E. apply one_neq. transitivity (finv p x [*] x); [field; exact Hx|]. rewrite E. ring. Qed.

(** The fraction x1n / xd is the x1 of the RFC. *)
Lemma osswu_x1 u :
  let d := Zc [*] (u [*] u) [*] (Zc [*] (u [*] u)) [+] Zc [*] (u [*] u) in
  let xd := if feqb p (d [*] [~] A) 0f then Zc [*] A else d [*] [~] A in
  xd <> 0f /\ B [*] (d [+] 1f) [*] finv p xd = rfc_x1 p A B Zc u /\
  (d = 0f -> rfc_is_square p (rfc_g p A B (rfc_x1 p A B Zc u))) /\
  (d <> 0f -> rfc_g p A B (rfc_x2 p A B Zc u) =
    Zc [*] Zc [*] Zc [*] (u [*] u [*] u) [*] (u [*] u [*] u) [*] rfc_g p A B (rfc_x1 p A B Zc u)).
Proof.
  cbv zeta. unfold rfc_x2, rfc_x1, rfc_inv0.
  replace (Zc [*] Zc [*] (u [*] u [*] u [*] u) [+] Zc [*] (u [*] u)) with
    (Zc [*] (u [*] u) [*] (Zc [*] (u [*] u)) [+] Zc [*] (u [*] u)) by ring.
  set (t := Zc [*] (u [*] u)). set (d := t [*] t [+] t).
  pose proof (a_neq P PL) as Ha. pose proof z_neq as Hz.
  assert (Hna : [~] A <> 0f).
  { intros E. apply Ha. transitivity ([~] ([~] A)); [ring|]. rewrite E. ring. }
  destruct (fdec d 0f) as [Hd|Hd].
  - rewrite Hd. replace (0f [*] [~] A) with 0f by ring. rewrite feqb_same, (finv_zero p Hp), feqb_same.
    split; [|split; [|split]].
    + now apply neq_mul.
    + f_equal. ring.
    + intros _. destruct (exceptional P PL) as [r Hr]. exists r. rewrite Hr. reflexivity.
    + intros H. now elim H.
  - assert (He : d [*] [~] A <> 0f).
    { now apply neq_mul. }
    rewrite (feqb_neq _ _ He), (feqb_neq _ _ (finv_neq _ Hd)). split; [|split; [|split]].
    + exact He.
    + field. auto.
    + intros E. contradiction.
    + intros _. unfold rfc_g.
      assert (E3 : Zc [*] Zc [*] Zc [*] (u [*] u [*] u) [*] (u [*] u [*] u) = t [*] t [*] t) by (unfold t; ring).
      rewrite E3. unfold d in *. clearbody t. field. auto.
Qed.

Lemma osswu_parts u :
  let d := Zc [*] (u [*] u) [*] (Zc [*] (u [*] u)) [+] Zc [*] (u [*] u) in
  let x1n := B [*] (d [+] 1f) in
  let xd := if feqb p (d [*] [~] A) 0f then Zc [*] A else d [*] [~] A in
  let gxd := xd [*] xd [*] xd in
  let gx1 := x1n [*] (xd [*] xd [*] A [+] x1n [*] x1n) [+] gxd [*] B in
  let y1 := fpow P (gxd [*] gxd [*] (gx1 [*] gxd)) ((p - 3) / 4) [*] (gx1 [*] gxd) in
  let y2 := y1 [*] cC2 P [*] (u [*] u) [*] u in
  let e2 := feqb p (y1 [*] y1 [*] gxd) gx1 in
  let x := (if e2 then x1n else Zc [*] (u [*] u) [*] x1n) [*] finv p xd in
  let y := if e2 then y1 else y2 in
  osswu P u = (x, if xorb (sgn0 P u) (sgn0 P y) then [~] y else y).
Proof. reflexivity. Qed.

Theorem osswu_is_sswu u : let '(x, y) := osswu P u in rfc_sswu p A B Zc u x y.
Proof.
  pose proof (osswu_parts u) as E. pose proof (osswu_x1 u) as X. cbv zeta in E, X. rewrite E. clear E.
  set (d := Zc [*] (u [*] u) [*] (Zc [*] (u [*] u)) [+] Zc [*] (u [*] u)) in *.
  set (xd := if feqb p (d [*] [~] A) 0f then Zc [*] A else d [*] [~] A) in *.
  set (x1n := B [*] (d [+] 1f)) in *.
  destruct X as (Hxd & Hx1 & Hexc & Hx2).
  set (x1 := rfc_x1 p A B Zc u) in *.
  set (gxd := xd [*] xd [*] xd).
  assert (Hgxd : gxd <> 0f) by (apply neq_mul; [now apply neq_mul|exact Hxd]).
  set (gx1 := x1n [*] (xd [*] xd [*] A [+] x1n [*] x1n) [+] gxd [*] B).
  assert (Hn : x1n = x1 [*] xd) by (rewrite <- Hx1; field; exact Hxd).
  assert (HN : gx1 = gxd [*] g x1) by (unfold gx1, gxd, cubic; rewrite Hn; ring).
  assert (Hg : g x1 <> 0f) by apply (no_two_torsion P PL).
  change (rfc_g p A B x1) with (g x1) in *.
  set (t := gxd [*] gxd [*] (gx1 [*] gxd)).
  assert (Ht : chi t = chi (g x1)).
  { unfold t. rewrite HN.
    replace (gxd [*] gxd [*] (gxd [*] g x1 [*] gxd)) with (gxd [*] gxd [*] (gxd [*] gxd) [*] g x1) by ring.
    rewrite chi_mul, chi_square by (apply neq_mul; assumption). ring. }
  pose proof (chi_pow t) as Hr. cbv zeta in Hr. set (r := fpow P t ((p - 3) / 4)) in *.
  set (y1 := r [*] (gx1 [*] gxd)).
  assert (Hy1 : y1 [*] y1 = chi (g x1) [*] g x1).
  { rewrite <- Ht, <- Hr. unfold y1, t. rewrite HN. ring. }
  assert (Hsg : forall y, y <> 0f -> sgn0 P (if xorb (sgn0 P u) (sgn0 P y) then [~] y else y) = sgn0 P u).
  { intros y Hy. destruct (sgn0 P u) eqn:E1, (sgn0 P y) eqn:E2; cbn [xorb]; rewrite ?sgn0_opp by exact Hy;
    rewrite ?E2; reflexivity. }
  assert (Hsq : forall (b : bool) y, (if b then [~] y else y) [*] (if b then [~] y else y) = y [*] y)
    by (intros [] y; ring).
  assert (Hiff : rfc_is_square p (g x1) <-> chi (g x1) = 1f) by (apply chi_is_square; exact Hg).
  set (y2 := y1 [*] cC2 P [*] (u [*] u) [*] u).
  destruct (chi_values (g x1) Hg) as [Hc|Hc]; rewrite Hc in Hy1.
  - replace (feqb p (y1 [*] y1 [*] gxd) gx1) with true
      by (symmetry; apply feqb_spec; rewrite Hy1, HN; ring).
    cbv beta iota. rewrite Hx1. assert (Hs : rfc_is_square p (g x1)) by (apply Hiff; exact Hc).
    assert (Hy : y1 <> 0f).
    { intros Ey. apply Hg. transitivity (1f [*] g x1); [ring|]. rewrite <- Hy1, Ey. ring. }
    split; [|split; [|split]].
    + reflexivity.
    + intros Hns. contradiction.
    + rewrite Hsq, Hy1. change (rfc_g p A B x1) with (g x1). ring.
    + exact (Hsg _ Hy).
  - assert (Hns : ~ rfc_is_square p (g x1)).
    { intros Hs. apply Hiff in Hs. rewrite Hc in Hs. now apply one_neq_opp. }
    assert (Hd : d <> 0f) by (intros Hd; apply Hns, Hexc, Hd).
    specialize (Hx2 Hd).
    replace (feqb p (y1 [*] y1 [*] gxd) gx1) with false.
    2:{ symmetry. apply feqb_neq. rewrite Hy1, HN. intros Ee.
        apply (neq_mul _ _ Hgxd Hg). apply (f_neg_eq p Hp Hp2). rewrite <- Ee at 1. ring. }
    cbv beta iota.
    assert (Ex : Zc [*] (u [*] u) [*] x1n [*] finv p xd = rfc_x2 p A B Zc u).
    { unfold rfc_x2. fold x1. rewrite <- Hx1. ring. }
    rewrite Ex.
    assert (Hy2 : y2 [*] y2 = g (rfc_x2 p A B Zc u)).
    { change (g (rfc_x2 p A B Zc u)) with (rfc_g p A B (rfc_x2 p A B Zc u)). rewrite Hx2.
      transitivity (y1 [*] y1 [*] (cC2 P [*] cC2 P) [*] (u [*] u [*] u) [*] (u [*] u [*] u)); [unfold y2; ring|].
      rewrite Hy1, (c2_spec P PL). ring. }
    assert (Hy : y2 <> 0f).
    { intros Ey. apply (no_two_torsion P PL (rfc_x2 p A B Zc u)). rewrite <- Hy2, Ey. ring. }
    split; [|split; [|split]].
    + intros Hs. contradiction.
    + reflexivity.
    + rewrite Hsq. exact Hy2.
    + exact (Hsg _ Hy).
Qed.

(** The map always lands on the curve, at the point of the RFC. *)
Theorem map_to_curve_spec u : exists x y H,
  map_to_curve (NistCurve P pick) u = Aff p A B x y H /\ rfc_sswu p A B Zc u x y.
Proof.
  pose proof (osswu_is_sswu u) as H. cbn [map_to_curve NistCurve]. destruct (osswu P u) as [x y].
  assert (Hc : on_curve p A B x y = true) by (unfold on_curve; apply feqb_spec; apply H).
  exists x, y, Hc. split; [exact (point_on p A B x y Hc)|exact H].
Qed.

(** The RFC determines the result. *)
Lemma rfc_sswu_unique u x y x' y' : rfc_sswu p A B Zc u x y -> rfc_sswu p A B Zc u x' y' -> x = x' /\ y = y'.
Proof.
  intros (H1 & H2 & H3 & H4) (K1 & K2 & K3 & K4).
  assert (Ex : x = x').
  { destruct (fdec (rfc_g p A B (rfc_x1 p A B Zc u)) 0f) as [Hz|Hz].
    - now apply (no_two_torsion P PL) in Hz.
    - destruct (chi_values _ Hz) as [Hc|Hc].
      + apply chi_is_square in Hc; [|exact Hz]. rewrite H1, K1 by exact Hc. reflexivity.
      + assert (Hn : ~ rfc_is_square p (rfc_g p A B (rfc_x1 p A B Zc u))).
        { intros Hs. apply chi_is_square in Hs; [|exact Hz]. rewrite Hc in Hs. now apply one_neq_opp. }
        rewrite H2, K2 by exact Hn. reflexivity. }
  subst x'. split; [reflexivity|]. apply (same_x_sgn x).
  - unfold on_curve. now apply feqb_spec.
  - unfold on_curve. now apply feqb_spec.
  - change (sgn0 P y) with (rfc_sgn0 p y). change (sgn0 P y') with (rfc_sgn0 p y'). congruence.
Qed.
End Facts.
