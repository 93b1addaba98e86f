(** * EChain: checking a multiple of a point of an Edwards curve with a
    certificate.

    Library mathematics; models no code.  As [Chain], for [Edwards]. *)
From Verif Require Import Fq Weierstrass Edwards Cyclic.
From Coq Require Import Znumtheory List Lia Field.
Import ListNotations.
From Verif Require Import HexNum.
Open Scope Z_scope.

(** The result, intermediate products, and the quotients of the congruences. *)
Inductive estep : Set :=
| EDbl (x y s t c qs qt qc q1 q2 : Z)               (* double *)
| EAdd (x y u w f e qu qw qf qe q1 q2 : Z)          (* add the generator *)
| ESub (x y u w f e qu qw qf qe q1 q2 : Z).         (* subtract it *)

Section Chain.
Context (p : Z) (m : modul) (m_ok : modulus_is m p = true).
Context (d gx gy : Z).

Definition echeck_add (g : Z) (k x y dk x' y' u w f e qu qw qf qe q1 q2 : Z) : option (Z * Z * Z) :=
  let x_ := ofZ x in let y_ := ofZ y in let x1 := ofZ x' in let y1 := ofZ y' in
  let u_ := ofZ u in let w_ := ofZ w in let f_ := ofZ f in let e_ := ofZ e in
  let gx_ := ofZ g in let gy_ := ofZ gy in
  if ((0 <=? x') && (0 <=? y') && (0 <=? u) && (0 <=? w) && (0 <=? f) && (0 <=? e) &&
      congr m (mul x_ gx_) u_ qu &&
      congr m (mul y_ gy_) w_ qw &&
      congr m (mul (ofZ d) u_) f_ qf &&
      congr m (mul f_ w_) e_ qe &&
      congr m (add x1 (mul x1 e_)) (add (mul x_ gy_) (mul y_ gx_)) q1 &&
      congr m y1 (add (add w_ u_) (mul y1 e_)) q2)%bool
  then Some (k + dk, x', y') else None.
Definition echeck_step (st : Z * Z * Z) (s : estep) : option (Z * Z * Z) :=
  let '(k, x, y) := st in
  match s with
  | EDbl x' y' s t c qs qt qc q1 q2 =>
      let x_ := ofZ x in let y_ := ofZ y in let x1 := ofZ x' in let y1 := ofZ y' in
      let s_ := ofZ s in let t_ := ofZ t in let c_ := ofZ c in
      if ((0 <=? x') && (0 <=? y') && (0 <=? s) && (0 <=? t) && (0 <=? c) &&
          congr m (mul x_ x_) s_ qs &&
          congr m (mul y_ y_) t_ qt &&
          congr m (add c_ s_) t_ qc &&
          congr m (mul x1 c_) (mul x_ (add y_ y_)) q1 &&
          congr m (add y1 y1) (add (add s_ t_) (mul y1 c_)) q2)%bool
      then Some (2 * k, x', y') else None
  | EAdd x' y' u w f e qu qw qf qe q1 q2 => echeck_add gx k x y 1 x' y' u w f e qu qw qf qe q1 q2
  | ESub x' y' u w f e qu qw qf qe q1 q2 =>
      if 1 <=? k then echeck_add (p - gx) k x y (-1) x' y' u w f e qu qw qf qe q1 q2 else None
  end.
Fixpoint echeck_chain (st : Z * Z * Z) (ss : list estep) : option (Z * Z * Z) :=
  match ss with
  | [] => Some st
  | s :: ss => match echeck_step st s with Some st' => echeck_chain st' ss | None => None end
  end.

(** [ss] computes n G = (0, 1). *)
Definition echeck_order (n : Z) (ss : list estep) : bool :=
  match echeck_chain (1, gx, gy) ss with
  | Some (k, x, y) => (k =? n) && (x =? 0) && (y =? 1)
  | None => false
  end.

Context (Hp : prime p) (Hp2 : 2 < p).
Local Notation o := (of_Z p).
Context (D : Fq p) (HD : D = o d) (i : Fq p) (i_sq : fmul p i i = fopp p (f1 p)) (d_nonsquare : forall r, fmul p r r <> D).
Context (Hd : 0 <= d) (Hgx : 0 <= gx <= p) (Hgy : 0 <= gy) (Hg : on_edwards p D (o gx) (o gy) = true).
Local Notation F := (Fq p).
Local Notation EP := (EPoint p D).
Local Notation G := (mkE p D _ _ Hg).
Local Notation padd := (eadd p D Hp).
Local Notation pid := (eid p D Hp).
Local Notation pneg := (eneg p D Hp).
Local Notation zm := (zmul (eadd p D Hp) (eid p D Hp)).
Add Field Fpe : (fq_field p Hp).

Lemma oe_add x y : o (x + y) = fadd p (o x) (o y).
Proof. unfold fadd. apply of_Z_eq. cbn [of_Z fval]. now rewrite <- Zplus_mod. Qed.
Lemma oe_mul x y : o (x * y) = fmul p (o x) (o y).
Proof. unfold fmul. apply of_Z_eq. cbn [of_Z fval]. now rewrite <- Zmult_mod. Qed.
Lemma oe_eq x y q : x - y = q * p -> o x = o y.
Proof. intros E. apply of_Z_eq. replace x with (y + q * p) by lia. apply Z_mod_plus_full. Qed.

Lemma comm P Q : padd P Q = padd Q P.
Proof. exact (eadd_comm p D Hp Hp2 i i_sq d_nonsquare P Q). Qed.
Lemma assoc P Q T : padd (padd P Q) T = padd P (padd Q T).
Proof. exact (eadd_assoc p D Hp Hp2 i i_sq d_nonsquare P Q T). Qed.
Lemma zl P : padd pid P = P.
Proof. exact (eadd_id p D Hp Hp2 i i_sq d_nonsquare P). Qed.
Lemma aneg P : padd P (pneg P) = pid.
Proof. exact (eadd_neg p D Hp Hp2 i i_sq d_nonsquare P). Qed.
Local Notation unique := (eadd_unique p D Hp Hp2 i i_sq d_nonsquare).

Definition at_xy (P : EP) (x y : Z) : Prop := ex p D P = o x /\ ey p D P = o y.
Definition ereached (st : Z * Z * Z) : Prop :=
  let '(k, x, y) := st in 0 <= k /\ 0 <= x /\ 0 <= y /\ at_xy (zm k G) x y.

Local Ltac norm C := repeat (rewrite add_val in C || rewrite mul_val in C || rewrite ofZ_val in C by lia).
Local Ltac toF C := apply oe_eq in C; rewrite ?oe_add, ?oe_mul, ?oe_add, ?oe_mul, ?oe_add, ?oe_mul in C.

Lemma sub_neq (a b c : F) : fadd p a b = c -> a = fsub p c b.
Proof. intros <-. ring. Qed.

Lemma dbl_ok P x y x' y' s t c qs qt qc q1 q2 : at_xy P x y ->
  x * x - s = qs * p -> y * y - t = qt * p -> c + s - t = qc * p ->
  x' * c - x * (y + y) = q1 * p -> y' + y' - (s + t + y' * c) = q2 * p ->
  at_xy (padd P P) x' y'.
Proof.
  intros [Ex Ey] E1 E2 E3 E4 E5. toF E1. toF E2. toF E3. toF E4. toF E5.
  pose proof (on_eq p D P) as C. rewrite Ex, Ey in C.
  apply sub_neq in E3. rewrite E3, <- E1, <- E2 in E4, E5. rewrite C in E4, E5.
  apply unique; rewrite Ex, Ey.
  - transitivity (fmul p (o x') (fadd p (f1 p) (fmul p (fmul p (fmul p (fmul p D (o x)) (o x)) (o y)) (o y)))); [ring|].
    rewrite E4. ring.
  - set (k := fmul p (fmul p (fmul p (fmul p D (o x)) (o x)) (o y)) (o y)) in *.
    transitivity (fsub p (fadd p (o y') (o y')) (fmul p (o y') (fadd p (f1 p) k))); [ring|]. rewrite E5. ring.
Qed.

Lemma add_ok P x y g Q x' y' u w f e qu qw qf qe q1 q2 : at_xy P x y -> at_xy Q g gy ->
  x * g - u = qu * p -> y * gy - w = qw * p -> d * u - f = qf * p -> f * w - e = qe * p ->
  x' + x' * e - (x * gy + y * g) = q1 * p -> y' - (w + u + y' * e) = q2 * p ->
  at_xy (padd P Q) x' y'.
Proof.
  intros [Ex Ey] [Ex2 Ey2] E1 E2 E3 E4 E5 E6. toF E1. toF E2. toF E3. toF E4. toF E5. toF E6.
  rewrite <- HD in E3. apply unique; rewrite Ex, Ey, Ex2, Ey2.
  - rewrite <- E4, <- E3, <- E2, <- E1 in E5.
    transitivity (fadd p (o x') (fmul p (o x') (fmul p (fmul p D (fmul p (o x) (o g))) (fmul p (o y) (o gy))))); [ring|].
    exact E5.
  - rewrite <- E4, <- E3, <- E2, <- E1 in E6.
    transitivity (fsub p (o y') (fmul p (o y') (fmul p (fmul p D (fmul p (o x) (o g))) (fmul p (o y) (o gy))))); [ring|].
    rewrite E6 at 1. ring.
Qed.

Lemma echeck_add_ok g k x y dk x' y' u w f e qu qw qf qe q1 q2 st' P Q :
  0 <= x -> 0 <= y -> 0 <= g -> at_xy P x y -> at_xy Q g gy ->
  echeck_add g k x y dk x' y' u w f e qu qw qf qe q1 q2 = Some st' ->
  st' = (k + dk, x', y') /\ 0 <= x' /\ 0 <= y' /\ at_xy (padd P Q) x' y'.
Proof.
  intros Hx Hy Hg0 HP HQ. unfold echeck_add. cbv zeta. destruct (andb _ _) eqn:Hc; [|discriminate]. intros [= <-].
  rewrite !Bool.andb_true_iff, !Z.leb_le in Hc.
  destruct Hc as (((((((((((L1 & L2) & L3) & L4) & L5) & L6) & C1) & C2) & C3) & C4) & C5) & C6).
  apply (congr_spec m p _ _ _ m_ok) in C1, C2, C3, C4, C5, C6.
  norm C1. norm C2. norm C3. norm C4. norm C5. norm C6.
  split; [reflexivity|]. split; [exact L1|]. split; [exact L2|].
  apply (add_ok P x y g Q x' y' u w f e qu qw qf qe q1 q2); auto; lia.
Qed.

Lemma g_at : at_xy G gx gy. Proof. split; reflexivity. Qed.
Lemma neg_g_at : at_xy (pneg G) (p - gx) gy.
Proof.
  split; [|reflexivity]. cbn [ex eneg]. unfold fopp. apply of_Z_eq. cbn [of_Z fval].
  replace (p - gx) with (- gx + 1 * p) by lia. rewrite Z_mod_plus_full.
  rewrite <- (Z.sub_0_l (gx mod p)), Zminus_mod_idemp_r. f_equal.
Qed.

Lemma estep_ok st s st' : ereached st -> echeck_step st s = Some st' -> ereached st'.
Proof.
  destruct st as [[k x] y]. intros (Hk & Hx & Hy & H).
  destruct s as [x' y' s t c qs qt qc q1 q2|x' y' u w f e qu qw qf qe q1 q2|x' y' u w f e qu qw qf qe q1 q2]; cbn [echeck_step].
  - cbv zeta. destruct (andb _ _) eqn:Hc; [|discriminate]. intros [= <-].
    rewrite !Bool.andb_true_iff, !Z.leb_le in Hc.
    destruct Hc as (((((((((L1 & L2) & L3) & L4) & L5) & C1) & C2) & C3) & C4) & C5).
    apply (congr_spec m p _ _ _ m_ok) in C1, C2, C3, C4, C5.
    norm C1. norm C2. norm C3. norm C4. norm C5.
    split; [change (0 <= 2 * k); lia|]. split; [exact L1|]. split; [exact L2|].
    change (at_xy (zm (2 * k) G) x' y'). replace (2 * k) with (k + k) by lia.
    rewrite (zmul_add _ _ comm assoc zl) by lia.
    apply (dbl_ok _ x y x' y' s t c qs qt qc q1 q2); auto; lia.
  - intros Hc. destruct (echeck_add_ok _ _ _ _ _ _ _ _ _ _ _ _ _ _ _ _ _ _ _ _ Hx Hy (proj1 Hgx) H g_at Hc) as (-> & L1 & L2 & E).
    split; [lia|]. split; [exact L1|]. split; [exact L2|]. rewrite (zmul_add _ _ comm assoc zl) by lia. exact E.
  - destruct (Z.leb_spec 1 k) as [Hk1|Hk1]; [|discriminate].
    intros Hc. assert (Hg0 : 0 <= p - gx) by lia.
    destruct (echeck_add_ok _ _ _ _ _ _ _ _ _ _ _ _ _ _ _ _ _ _ _ _ Hx Hy Hg0 H neg_g_at Hc) as (-> & L1 & L2 & E).
    assert (Em : exists z, k + -1 = z /\ k = z + 1 /\ 0 <= z) by (exists (k + -1); lia).
    destruct Em as (z & Em & -> & Hz). cbv beta iota. rewrite Em.
    split; [exact Hz|]. split; [exact L1|]. split; [exact L2|].
    rewrite (zmul_add _ _ comm assoc zl), zmul_one, assoc, aneg, comm, zl in E by lia. exact E.
Qed.

Lemma echain_ok ss : forall st st', ereached st -> echeck_chain st ss = Some st' -> ereached st'.
Proof.
  induction ss as [|s ss IH]; intros st st' H E; cbn [echeck_chain] in E; [now injection E as <-|].
  destruct (echeck_step st s) as [st1|] eqn:Es; [|discriminate].
  apply (IH st1); auto. now apply (estep_ok st s).
Qed.

Theorem eorder_ok n ss : echeck_order n ss = true -> zm n G = pid.
Proof.
  unfold echeck_order. destruct (echeck_chain (1, gx, gy) ss) as [[[k x] y]|] eqn:E; [|discriminate].
  intros Hc. apply andb_prop in Hc as [Hc E3]. apply andb_prop in Hc as [E1 E2]. apply Z.eqb_eq in E1, E2, E3.
  assert (Hr : ereached (k, x, y)).
  { apply (echain_ok ss (1, gx, gy)); auto. split; [lia|]. split; [lia|]. split; [lia|]. rewrite zmul_one. exact g_at. }
  destruct Hr as (Hk & _ & _ & Ex & Ey). subst k x y. apply EPoint_eq; [rewrite Ex|rewrite Ey]; reflexivity.
Qed.
Corollary eorder_epoint n ss : echeck_order n ss = true -> zm n (epoint p D Hp (o gx) (o gy)) = pid.
Proof. rewrite (epoint_on _ _ _ _ _ Hg). apply eorder_ok. Qed.
End Chain.
