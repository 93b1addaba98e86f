(** * Chain: checking a multiple of a point of a curve with a certificate.

    Library mathematics; models no code.  The certificate lists the slopes and
    points of a double-and-add computation, with the quotients of the
    congruences to check, so that no division is needed. *)
From Verif Require Import Fq Weierstrass Cyclic HexNum.
From Coq Require Import Znumtheory List Lia Field.
Import ListNotations.
Open Scope Z_scope.

(** Slope, result, difference of the abscissas, quotients. *)
Inductive step : Set :=
| Dbl (l x y d qd q1 q2 q3 : Z)             (* double *)
| Add (l x y d qd e qe q1 q2 q3 : Z)        (* add the generator *)
| Sub (l x y d qd e qe q1 q2 q3 : Z).       (* subtract it *)

Section Chain.
Context (p : Z) (m : modul) (m_ok : modulus_is m p = true).
Context (a gx gy : Z).

(** The multiple reached and its coordinates, or [None] if a check fails. *)
Definition check_add (g : Z) (k x y dk l x' y' d qd e qe q1 q2 q3 : Z) : option (Z * Z * Z) :=
  let l_ := ofZ l in let x_ := ofZ x in let y_ := ofZ y in let x1 := ofZ x' in let y1 := ofZ y' in
  let d_ := ofZ d in let e_ := ofZ e in let gx_ := ofZ gx in
  if ((x <? p) && negb (x =? gx) && (0 <=? l) && (0 <=? x') && (0 <=? y') && (0 <=? d) && (0 <=? e) &&
      congr m (HexNum.add e_ gx_) x_ qe &&
      congr m (HexNum.add (HexNum.mul l_ e_) (ofZ g)) y_ q1 &&
      congr m (HexNum.mul l_ l_) (HexNum.add x_ (HexNum.add gx_ x1)) q2 &&
      congr m (HexNum.add d_ x1) x_ qd &&
      congr m (HexNum.mul l_ d_) (HexNum.add y_ y1) q3)%bool
  then Some (k + dk, x', y') else None.
Definition check_step (st : Z * Z * Z) (s : step) : option (Z * Z * Z) :=
  let '(k, x, y) := st in
  match s with
  | Dbl l x' y' d qd q1 q2 q3 =>
      let l_ := ofZ l in let x_ := ofZ x in let y_ := ofZ y in let x1 := ofZ x' in let y1 := ofZ y' in
      let d_ := ofZ d in
      if ((0 <=? l) && (0 <=? x') && (0 <=? y') && (0 <=? d) &&
          congr m (HexNum.add (HexNum.mul l_ (HexNum.add y_ y_)) (ofZ (- a))) (HexNum.mul (X3 E) (HexNum.mul x_ x_)) q1 &&
          congr m (HexNum.mul l_ l_) (HexNum.add x_ (HexNum.add x_ x1)) q2 &&
          congr m (HexNum.add d_ x1) x_ qd &&
          congr m (HexNum.mul l_ d_) (HexNum.add y_ y1) q3)%bool
      then Some (2 * k, x', y') else None
  | Add l x' y' d qd e qe q1 q2 q3 => check_add gy k x y 1 l x' y' d qd e qe q1 q2 q3
  | Sub l x' y' d qd e qe q1 q2 q3 => check_add (p - gy) k x y (-1) l x' y' d qd e qe q1 q2 q3
  end.
Fixpoint check_chain (st : Z * Z * Z) (ss : list step) : option (Z * Z * Z) :=
  match ss with
  | [] => Some st
  | s :: ss => match check_step st s with Some st' => check_chain st' ss | None => None end
  end.

(** [ss] computes (n - 1) G = - G. *)
Definition check_order (n : Z) (ss : list step) : bool :=
  match check_chain (1, gx, gy) ss with
  | Some (k, x, y) => (k =? n - 1) && (x =? gx) && (y + gy =? p)
  | None => false
  end.

Context (Hp : prime p) (Hp2 : 2 < p).
Context (A B : Fq p) (HA : A = of_Z p a).
Context (no_root : forall x, cubic p A B x <> f0 p).
Context (Ha : a <= 0) (Hgx : 0 <= gx < p) (Hgy : 0 <= gy <= p) (Hg : on_curve p A B (of_Z p gx) (of_Z p gy) = true).
Local Notation F := (Fq p).
Local Notation o := (of_Z p).
Local Notation G := (Aff p A B _ _ Hg).
Local Notation mul := (zmul (Weierstrass.add p A B) (Inf p A B)).
Local Notation padd := (Weierstrass.add p A B).
Add Field Fp : (fq_field p Hp).

Lemma o_add x y : fadd p (o x) (o y) = o (x + y).
Proof. unfold fadd. apply of_Z_eq. cbn [of_Z fval]. now rewrite <- Zplus_mod. Qed.
Lemma o_mul x y : fmul p (o x) (o y) = o (x * y).
Proof. unfold fmul. apply of_Z_eq. cbn [of_Z fval]. now rewrite <- Zmult_mod. Qed.
Lemma o_sub x y : fsub p (o x) (o y) = o (x - y).
Proof. unfold fsub. apply of_Z_eq. cbn [of_Z fval]. now rewrite <- Zminus_mod. Qed.
Lemma o_opp x : fopp p (o x) = o (- x).
Proof.
  transitivity (fsub p (f0 p) (o x)); [ring|]. unfold f0. rewrite o_sub. f_equal.
Qed.
Lemma o_eq x y q : x - y = p * q -> o x = o y.
Proof.
  intros E. apply of_Z_eq. replace x with (y + q * p) by lia. apply Z_mod_plus_full.
Qed.

Lemma o_two : two p = o 2. Proof. unfold two, f1. now rewrite o_add. Qed.
Lemma o_three : three p = o 3. Proof. unfold three, f1. now rewrite !o_add. Qed.
Lemma o_f1 : f1 p = o 1. Proof. reflexivity. Qed.

Lemma dbl_ok x y (H : on_curve p A B (o x) (o y) = true) l x' y' q1 q2 q3 :
  l * (2 * y) - (3 * (x * x) + a) = p * q1 ->
  l * l - x - x - x' = p * q2 -> l * (x - x') - y - y' = p * q3 ->
  exists H', padd (Aff p A B _ _ H) (Aff p A B _ _ H) = Aff p A B (o x') (o y') H'.
Proof.
  intros E1 E2 E3. assert (Hon : on p A B (o x) (o y)) by (now apply on_on).
  pose proof (y_neq p Hp A B no_root _ _ Hon) as Hy.
  assert (Hn : ~ opposite p (o x) (o y) (o x) (o y)).
  { intros [_ E]. apply Hy. exact (f_neg_eq p Hp Hp2 _ E). }
  assert (Hs : slope p A (o x) (o y) (o x) (o y) = o l).
  { unfold slope. rewrite (proj2 (feqb_spec _ _) eq_refl).
    assert (E : o (l * (2 * y)) = o (3 * (x * x) + a)) by (now apply (o_eq _ _ q1)).
    assert (Hd : fmul p (two p) (o y) <> f0 p).
    { intros E'. apply f_integral in E' as [E'|E']; auto. now apply (two_neq p Hp2). }
    replace (fadd p (fmul p (fmul p (three p) (o x)) (o x)) A) with (fmul p (o l) (fmul p (two p) (o y))).
    - field. split; [exact Hy|exact (two_neq p Hp2)].
    - rewrite HA, o_two, o_three, !o_mul, o_add, E. f_equal. lia. }
  pose proof (slope_ok p Hp Hp2 A B _ _ _ _ Hon Hon Hn) as Hok. rewrite Hs in Hok.
  destruct (add_aff p Hp Hp2 A B _ _ H _ _ H _ Hn Hok) as [H' E']. rewrite E'.
  assert (Ex : sum_x p (o x) (o x) (o l) = o x').
  { unfold sum_x. rewrite o_mul, !o_sub. apply (o_eq _ _ q2). lia. }
  assert (Ey : sum_y p (o x) (o y) (o x) (o l) = o y').
  { unfold sum_y. rewrite Ex, o_sub, o_mul, o_sub. apply (o_eq _ _ q3). lia. }
  revert H' E'. rewrite Ex, Ey. intros H' _. now exists H'.
Qed.

Lemma add_ok x y (H : on_curve p A B (o x) (o y) = true) g (Hgo : on_curve p A B (o gx) (o g) = true) l x' y' q1 q2 q3 :
  0 <= x < p -> x <> gx ->
  l * (x - gx) - (y - g) = p * q1 ->
  l * l - x - gx - x' = p * q2 -> l * (x - x') - y - y' = p * q3 ->
  exists H', padd (Aff p A B _ _ H) (Aff p A B _ _ Hgo) = Aff p A B (o x') (o y') H'.
Proof.
  intros Hx Hne E1 E2 E3. assert (Hon : on p A B (o x) (o y)) by (now apply on_on).
  assert (Hong : on p A B (o gx) (o g)) by (now apply on_on).
  assert (Hxg : o x <> o gx).
  { intros E. apply (f_equal fval) in E. cbn [of_Z fval] in E. rewrite !Z.mod_small in E by lia. lia. }
  assert (Hn : ~ opposite p (o x) (o y) (o gx) (o g)) by (intros [E _]; contradiction).
  assert (Hs : slope p A (o x) (o y) (o gx) (o g) = o l).
  { unfold slope. destruct (feqb p (o x) (o gx)) eqn:Ef; [apply feqb_spec in Ef; contradiction|].
    assert (E : o (l * (x - gx)) = o (y - g)) by (now apply (o_eq _ _ q1)).
    assert (Hd : fsub p (o x) (o gx) <> f0 p) by (intros E'; apply Hxg; exact (proj1 (f_sub_zero p Hp _ _) E')).
    replace (fsub p (o y) (o g)) with (fmul p (o l) (fsub p (o x) (o gx))).
    - field. exact Hd.
    - rewrite !o_sub, o_mul. exact E. }
  pose proof (slope_ok p Hp Hp2 A B _ _ _ _ Hon Hong Hn) as Hok. rewrite Hs in Hok.
  destruct (add_aff p Hp Hp2 A B _ _ H _ _ Hgo _ Hn Hok) as [H' E']. rewrite E'.
  assert (Ex : sum_x p (o x) (o gx) (o l) = o x').
  { unfold sum_x. rewrite o_mul, !o_sub. apply (o_eq _ _ q2). lia. }
  assert (Ey : sum_y p (o x) (o y) (o gx) (o l) = o y').
  { unfold sum_y. rewrite Ex, o_sub, o_mul, o_sub. apply (o_eq _ _ q3). lia. }
  revert H' E'. rewrite Ex, Ey. intros H' _. now exists H'.
Qed.

Definition reached (st : Z * Z * Z) : Prop :=
  let '(k, x, y) := st in 0 < k /\ 0 <= x /\ 0 <= y /\ exists H, mul k G = Aff p A B (o x) (o y) H.

Lemma assoc P Q T : padd (padd P Q) T = padd P (padd Q T).
Proof. exact (add_assoc p Hp Hp2 A B no_root P Q T). Qed.
Lemma comm P Q : padd P Q = padd Q P.
Proof. exact (add_comm p Hp Hp2 A B P Q). Qed.
Lemma zl P : padd (Inf p A B) P = P. Proof. reflexivity. Qed.

Lemma neg_on : on_curve p A B (o gx) (o (p - gy)) = true.
Proof.
  replace (o (p - gy)) with (fopp p (o gy)); [exact (on_curve_neg p Hp A B _ _ Hg)|].
  rewrite o_opp. apply of_Z_eq. replace (p - gy) with (- gy + 1 * p) by lia. symmetry. apply Z_mod_plus_full.
Qed.

Local Ltac norm C := repeat (rewrite add_val in C || rewrite mul_val in C || rewrite ofZ_val in C by lia).

Lemma check_add_ok g k x y dk l x' y' d qd e qe q1 q2 q3 st'
  (H : on_curve p A B (o x) (o y) = true) (Hgo : on_curve p A B (o gx) (o g) = true) :
  0 <= x -> 0 <= y -> 0 <= g ->
  check_add g k x y dk l x' y' d qd e qe q1 q2 q3 = Some st' ->
  st' = (k + dk, x', y') /\ 0 <= x' /\ 0 <= y' /\ x <> gx /\ x < p /\
  exists H', padd (Aff p A B _ _ H) (Aff p A B _ _ Hgo) = Aff p A B (o x') (o y') H'.
Proof.
  intros Hx Hy Hg0. unfold check_add. cbv zeta. destruct (andb _ _) eqn:Hc; [|discriminate]. intros [= <-].
  rewrite !Bool.andb_true_iff, !Z.leb_le, Z.ltb_lt, Bool.negb_true_iff, Z.eqb_neq in Hc.
  destruct Hc as (((((((((((Hxp & Hne) & L0) & L1) & L2) & L3) & L4) & C1) & C2) & C3) & C4) & C5).
  apply (congr_spec m p _ _ _ m_ok) in C1, C2, C3, C4, C5.
  norm C1. norm C2. norm C3. norm C4. norm C5.
  assert (F1 : l * (x - gx) - (y - g) = p * (q1 - l * qe)) by (replace (x - gx) with (e - qe * p) by lia; lia).
  assert (F2 : l * l - x - gx - x' = p * q2) by lia.
  assert (F3 : l * (x - x') - y - y' = p * (q3 - l * qd)) by (replace (x - x') with (d - qd * p) by lia; lia).
  split; [reflexivity|]. split; [exact L1|]. split; [exact L2|]. split; [exact Hne|]. split; [exact Hxp|].
  exact (add_ok x y H g Hgo l x' y' _ _ _ (conj Hx Hxp) Hne F1 F2 F3).
Qed.

Lemma step_ok st s st' : reached st -> check_step st s = Some st' -> reached st'.
Proof.
  destruct st as [[k x] y]. intros (Hk & Hx & Hy & H & E).
  destruct s as [l x' y' d qd q1 q2 q3|l x' y' d qd e qe q1 q2 q3|l x' y' d qd e qe q1 q2 q3]; cbn [check_step].
  - cbv zeta. destruct (andb _ _) eqn:Hc; [|discriminate]. intros [= <-].
    rewrite !Bool.andb_true_iff, !Z.leb_le in Hc.
    destruct Hc as (((((((L0 & L1) & L2) & L3) & C1) & C2) & C3) & C4).
    apply (congr_spec m p _ _ _ m_ok) in C1, C2, C3, C4.
    norm C1. norm C2. norm C3. norm C4. change (val (X3 HexNum.E)) with 3 in C1.
    split; [change (0 < 2 * k); lia|]. split; [exact L1|]. split; [exact L2|].
    destruct (dbl_ok x y H l x' y' q1 q2 (q3 - l * qd)) as [H' E'].
    { lia. } { lia. } { replace (x - x') with (d - qd * p) by lia. lia. }
    exists H'. change (mul (2 * k) G = Aff p A B (o x') (o y') H'). replace (2 * k) with (k + k) by lia.
    rewrite (zmul_add _ _ comm assoc zl) by lia. rewrite E. exact E'.
  - intros Hc. destruct (check_add_ok gy k x y 1 l x' y' d qd e qe q1 q2 q3 st' H Hg Hx Hy (proj1 Hgy) Hc)
      as (-> & L1 & L2 & Hne & Hxp & H' & E').
    split; [lia|]. split; [exact L1|]. split; [exact L2|]. exists H'.
    rewrite (zmul_add _ _ comm assoc zl) by lia. rewrite E. exact E'.
  - intros Hc. assert (Hg0 : 0 <= p - gy) by lia.
    destruct (check_add_ok (p - gy) k x y (-1) l x' y' d qd e qe q1 q2 q3 st' H neg_on Hx Hy Hg0 Hc)
      as (-> & L1 & L2 & Hne & Hxp & H' & E').
    assert (Hneg : padd G (Aff p A B _ _ neg_on) = Inf p A B).
    { apply (add_opposite p). split; [reflexivity|]. rewrite o_opp. apply of_Z_eq.
      replace (- (p - gy)) with (gy + -1 * p) by lia. symmetry. apply Z_mod_plus_full. }
    assert (Hk1 : 1 < k).
    { assert (k <> 1); [|lia]. intros ->. rewrite (zmul_one _ _) in E. injection E as E4 _.
      rewrite !Z.mod_small in E4 by lia. lia. }
    assert (Em : exists z, k + -1 = z /\ k = z + 1 /\ 0 < z) by (exists (k + -1); lia).
    destruct Em as (z & Em & -> & Hz). cbv beta iota. rewrite Em.
    split; [exact Hz|]. split; [exact L1|]. split; [exact L2|]. exists H'. rewrite <- E', <- E.
    rewrite (zmul_add _ _ comm assoc zl) by lia. rewrite (zmul_one _ _), assoc, Hneg.
    now rewrite comm.
Qed.

Lemma chain_ok ss : forall st st', reached st -> check_chain st ss = Some st' -> reached st'.
Proof.
  induction ss as [|s ss IH]; intros st st' H E; cbn [check_chain] in E; [now injection E as <-|].
  destruct (check_step st s) as [st1|] eqn:Es; [|discriminate].
  apply (IH st1); auto. now apply (step_ok st s).
Qed.

Theorem order_ok n ss : check_order n ss = true -> mul n G = Inf p A B.
Proof.
  unfold check_order. destruct (check_chain (1, gx, gy) ss) as [[[k x] y]|] eqn:E; [|discriminate].
  intros Hc. apply andb_prop in Hc as [Hc E3]. apply andb_prop in Hc as [E1 E2]. apply Z.eqb_eq in E1, E2, E3.
  assert (Hr : reached (k, x, y)).
  { apply (chain_ok ss (1, gx, gy)); auto. split; [lia|]. split; [lia|]. split; [lia|]. exists Hg. apply (zmul_one _ _). }
  destruct Hr as (Hk & _ & _ & H & Er). subst k x. replace n with (n - 1 + 1) by lia.
  rewrite (zmul_add _ _ comm assoc zl) by lia. rewrite Er, (zmul_one _ _).
  apply (add_opposite p). split; [reflexivity|]. rewrite o_opp. apply of_Z_eq.
  replace y with (- gy + 1 * p) by lia. apply Z_mod_plus_full.
Qed.
End Chain.
