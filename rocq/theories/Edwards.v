(** * Edwards: the points of the twisted Edwards curve
    - x^2 + y^2 = 1 + d x^2 y^2 form a commutative group.

    Over a prime field in which -1 is a square and d is not. *)
From Verif Require Import Fq Weierstrass.
From Coq Require Import Znumtheory Eqdep_dec Field.
Open Scope Z_scope.

Section Edwards.
Context (p : Z).
Local Notation F := (Fq p).
Context (d : F).

Local Notation "0" := (f0 p).
Local Notation "1" := (f1 p).
Local Infix "+" := (fadd p).
Local Infix "-" := (fsub p).
Local Infix "*" := (fmul p).
Local Notation "- x" := (fopp p x).
Local Notation m1 := (fopp p (f1 p)).
Local Notation "x / y" := (fmul p x (finv p y)).

Definition on_edwards (x y : F) : bool := feqb p (y * y - x * x) (1 + d * x * x * y * y).

Record EPoint : Type := mkE { ex : F; ey : F; e_on : on_edwards ex ey = true }.

Lemma EPoint_eq P Q : ex P = ex Q -> ey P = ey Q -> P = Q.
Proof. destruct P, Q. cbn. intros -> ->. f_equal. apply UIP_dec, Bool.bool_dec. Qed.

Definition epeqb (P Q : EPoint) : bool := (feqb p (ex P) (ex Q) && feqb p (ey P) (ey Q))%bool.
Lemma epeqb_spec P Q : epeqb P Q = true <-> P = Q.
Proof.
  unfold epeqb. rewrite Bool.andb_true_iff, !feqb_spec. split.
  - intros [H1 H2]. now apply EPoint_eq.
  - intros ->. auto.
Qed.
Lemma ep_dec (P Q : EPoint) : {P = Q} + {P <> Q}.
Proof. destruct (epeqb P Q) eqn:E; [left|right]; [now apply epeqb_spec|]. intros H. apply epeqb_spec in H. congruence. Qed.

Context (Hp : prime p).
Add Field Fp : (fq_field p Hp).

Lemma id_on : on_edwards 0 1 = true.
Proof. apply feqb_spec. ring. Qed.

(** A point from coordinates; (0, 1) if they are not on the curve. *)
Definition epoint (x y : F) : EPoint :=
  match Bool.bool_dec (on_edwards x y) true with
  | left H => mkE x y H
  | right _ => mkE 0 1 id_on
  end.
Lemma epoint_on x y (H : on_edwards x y = true) : epoint x y = mkE x y H.
Proof. unfold epoint. destruct (Bool.bool_dec _ _) as [H'|H']; [|contradiction]. now apply EPoint_eq. Qed.

Definition eid : EPoint := mkE 0 1 id_on.
Definition sum_ex (x1 y1 x2 y2 : F) : F := (x1 * y2 + y1 * x2) / (1 + d * x1 * x2 * y1 * y2).
Definition sum_ey (x1 y1 x2 y2 : F) : F := (y1 * y2 + x1 * x2) / (1 - d * x1 * x2 * y1 * y2).
Definition eadd (P Q : EPoint) : EPoint :=
  epoint (sum_ex (ex P) (ey P) (ex Q) (ey Q)) (sum_ey (ex P) (ey P) (ex Q) (ey Q)).

Lemma neg_e_on x y : on_edwards x y = true -> on_edwards (- x) y = true.
Proof. intros H. apply feqb_spec in H. apply feqb_spec. transitivity (y * y - x * x); [ring|]. rewrite H. ring. Qed.
Definition eneg (P : EPoint) : EPoint := mkE (- ex P) (ey P) (neg_e_on _ _ (e_on P)).

Context (Hp2 : 2 < p) (i : F) (i_sq : i * i = m1) (d_nonsquare : forall r, r * r <> d).

Local Notation int := (f_integral p Hp).
Local Notation sub_zero := (f_sub_zero p Hp).

Lemma d_neq : d <> 0.
Proof. intros E. apply (d_nonsquare 0). rewrite E. ring. Qed.
Lemma e1_neq : 1 <> 0. Proof. exact (F_1_neq_0 (fq_field p Hp)). Qed.

Lemma on_eq P : ey P * ey P - ex P * ex P = 1 + d * ex P * ex P * ey P * ey P.
Proof. apply feqb_spec, e_on. Qed.

(** The two denominators are not zero. *)
Lemma complete x1 y1 x2 y2 : on_edwards x1 y1 = true -> on_edwards x2 y2 = true ->
  1 + d * x1 * x2 * y1 * y2 <> 0 /\ 1 - d * x1 * x2 * y1 * y2 <> 0.
Proof.
  intros H1 H2. apply feqb_spec in H1, H2. set (e := d * x1 * x2 * y1 * y2).
  assert (K : e * e <> 1).
  { intros Ee.
    assert (E0 : e <> 0). { intros E. apply e1_neq. rewrite <- Ee, E. ring. }
    assert (X1 : x1 * y1 <> 0). { intros E. apply E0. unfold e. transitivity (d * x2 * y2 * (x1 * y1)); [ring|]. rewrite E. ring. }
    assert (A : d * (x1 * y1) * (x1 * y1) * (y2 * y2 - x2 * x2) = y1 * y1 - x1 * x1).
    { rewrite H1, H2. transitivity (d * x1 * x1 * y1 * y1 + e * e); [unfold e; ring|]. rewrite Ee. ring. }
    assert (S : forall s, s * s = m1 -> (s * x1 + e * y1) * (s * x1 + e * y1)
      = d * (x1 * y1) * (x1 * y1) * ((s * x2 + y2) * (s * x2 + y2))).
    { intros s Hs. transitivity (y1 * y1 - x1 * x1 + (1 + 1) * s * e * (x1 * y1)).
      - transitivity ((s * s) * (x1 * x1) + (e * e) * (y1 * y1) + (1 + 1) * s * e * (x1 * y1)); [ring|]. rewrite Hs, Ee. ring.
      - rewrite <- A. transitivity (d * (x1 * y1) * (x1 * y1) * (y2 * y2 + (s * s) * (x2 * x2) + (1 + 1) * s * (x2 * y2))); [|ring].
        rewrite Hs. unfold e. ring. }
    assert (Z : forall s, s * s = m1 -> s * x2 + y2 = 0).
    { intros s Hs. destruct (f_dec p (s * x2 + y2) 0) as [E|E]; [exact E|]. exfalso.
      apply (d_nonsquare ((s * x1 + e * y1) / (x1 * y1 * (s * x2 + y2)))).
      transitivity (((s * x1 + e * y1) * (s * x1 + e * y1)) / ((x1 * y1 * (s * x2 + y2)) * (x1 * y1 * (s * x2 + y2)))).
      - field. split; [exact E|]. split; intros E'; apply X1; rewrite E'; ring.
      - rewrite (S s Hs). field. split; [exact E|]. split; intros E'; apply X1; rewrite E'; ring. }
    pose proof (Z i i_sq) as Z1. assert (Z2 : - i * x2 + y2 = 0). { apply Z. rewrite <- i_sq. ring. }
    assert (Y : (1 + 1) * y2 = 0). { transitivity ((i * x2 + y2) + (- i * x2 + y2)); [ring|]. rewrite Z1, Z2. ring. }
    apply int in Y as [Y|Y]; [exact (two_neq p Hp2 Y)|].
    apply E0. unfold e. rewrite Y. ring. }
  split; intros E; apply K.
  - transitivity ((1 + e) * (e - 1) + 1); [ring|]. rewrite E. ring.
  - transitivity (1 - (1 - e) * (1 + e)); [ring|]. rewrite E. ring.
Qed.

Lemma reduce x y : on_edwards x y = true -> x * x * y * y = finv p d * (y * y - x * x - 1).
Proof. intros H. apply feqb_spec in H. rewrite H. field. exact d_neq. Qed.
Lemma d_inv : d * finv p d = 1.
Proof. field. exact d_neq. Qed.

Lemma sum_on x1 y1 x2 y2 : on_edwards x1 y1 = true -> on_edwards x2 y2 = true ->
  on_edwards (sum_ex x1 y1 x2 y2) (sum_ey x1 y1 x2 y2) = true.
Proof.
  intros H1 H2. destruct (complete x1 y1 x2 y2 H1 H2) as [D1 D2].
  apply feqb_spec. unfold sum_ex, sum_ey.
  set (A := 1 + d * x1 * x2 * y1 * y2) in *. set (B := 1 - d * x1 * x2 * y1 * y2) in *.
  set (n := x1 * y2 + y1 * x2). set (m := y1 * y2 + x1 * x2).
  apply sub_zero.
  transitivity ((m * m * (A * A) - n * n * (B * B) - (A * A * (B * B) + d * (n * n) * (m * m))) / (A * A * (B * B))).
  - field. split; assumption.
  - replace (m * m * (A * A) - n * n * (B * B) - (A * A * (B * B) + d * (n * n) * (m * m))) with 0.
    + field. split; assumption.
    + apply reduce in H1, H2. pose proof d_inv as Hk. set (k := finv p d) in *. clearbody k.
      unfold n, m, A, B. ring [H1 H2 Hk].
Qed.

Lemma eadd_xy P Q : ex (eadd P Q) = sum_ex (ex P) (ey P) (ex Q) (ey Q) /\
  ey (eadd P Q) = sum_ey (ex P) (ey P) (ex Q) (ey Q).
Proof. unfold eadd. rewrite (epoint_on _ _ (sum_on _ _ _ _ (e_on P) (e_on Q))). auto. Qed.

Lemma eadd_comm P Q : eadd P Q = eadd Q P.
Proof.
  apply EPoint_eq; rewrite ?(proj1 (eadd_xy _ _)), ?(proj2 (eadd_xy _ _)); unfold sum_ex, sum_ey; f_equal; try ring; f_equal; ring.
Qed.

Lemma eadd_id P : eadd eid P = P.
Proof.
  apply EPoint_eq; rewrite ?(proj1 (eadd_xy _ _)), ?(proj2 (eadd_xy _ _)); unfold sum_ex, sum_ey; cbn [eid ex ey].
  - transitivity (ex P / 1); [f_equal; [ring|f_equal; ring]|]. field. exact e1_neq.
  - transitivity (ey P / 1); [f_equal; [ring|f_equal; ring]|]. field. exact e1_neq.
Qed.

Lemma eadd_neg P : eadd P (eneg P) = eid.
Proof.
  destruct (complete _ _ _ _ (e_on P) (e_on (eneg P))) as [D1 D2]. cbn [eneg ex ey] in D1, D2.
  pose proof (on_eq P) as H.
  apply EPoint_eq; rewrite ?(proj1 (eadd_xy _ _)), ?(proj2 (eadd_xy _ _)); unfold sum_ex, sum_ey; cbn [eid eneg ex ey].
  - transitivity (0 / (1 + d * ex P * (- ex P) * ey P * ey P)); [f_equal; ring|]. field. exact D1.
  - replace (ey P * ey P + ex P * - ex P) with (1 - d * ex P * (- ex P) * ey P * ey P).
    + field. exact D2.
    + transitivity (1 + d * ex P * ex P * ey P * ey P); [ring|]. rewrite <- H. ring.
Qed.

Lemma eadd_assoc P Q T : eadd (eadd P Q) T = eadd P (eadd Q T).
Proof.
  destruct (eadd_xy P Q) as [X12 Y12]. destruct (eadd_xy Q T) as [X23 Y23].
  destruct (complete _ _ _ _ (e_on P) (e_on Q)) as [D1 D2].
  destruct (complete _ _ _ _ (e_on Q) (e_on T)) as [D3 D4].
  destruct (complete _ _ _ _ (e_on (eadd P Q)) (e_on T)) as [D5 D6].
  destruct (complete _ _ _ _ (e_on P) (e_on (eadd Q T))) as [D7 D8].
  pose proof (reduce _ _ (e_on P)) as H1. pose proof (reduce _ _ (e_on Q)) as H2. pose proof (reduce _ _ (e_on T)) as H3.
  pose proof d_inv as Hk. rewrite X12, Y12 in D5, D6. rewrite X23, Y23 in D7, D8.
  apply EPoint_eq; rewrite ?(proj1 (eadd_xy (eadd P Q) T)), ?(proj2 (eadd_xy (eadd P Q) T)),
    ?(proj1 (eadd_xy P (eadd Q T))), ?(proj2 (eadd_xy P (eadd Q T))); rewrite X12, Y12, X23, Y23; unfold sum_ex, sum_ey in *;
    set (k := finv p d) in *; clearbody k;
    set (x1 := ex P) in *; set (y1 := ey P) in *; set (x2 := ex Q) in *; set (y2 := ey Q) in *;
    set (x3 := ex T) in *; set (y3 := ey T) in *; clearbody x1 y1 x2 y2 x3 y3;
    set (A := 1 + d * x1 * x2 * y1 * y2) in *; set (B := 1 - d * x1 * x2 * y1 * y2) in *;
    set (A' := 1 + d * x2 * x3 * y2 * y3) in *; set (B' := 1 - d * x2 * x3 * y2 * y3) in *;
    set (a := x1 * y2 + y1 * x2) in *; set (b := y1 * y2 + x1 * x2) in *;
    set (a' := x2 * y3 + y2 * x3) in *; set (b' := y2 * y3 + x2 * x3) in *.
  - assert (N1 : A * B + d * a * b * x3 * y3 <> 0).
    { intros E. apply D5. transitivity ((A * B + d * a * b * x3 * y3) / (A * B)); [field; auto|]. rewrite E. field. auto. }
    assert (N2 : A' * B' + d * x1 * a' * y1 * b' <> 0).
    { intros E. apply D7. transitivity ((A' * B' + d * x1 * a' * y1 * b') / (A' * B')); [field; auto|]. rewrite E. field. auto. }
    transitivity ((a * B * y3 + b * A * x3) / (A * B + d * a * b * x3 * y3)); [field; auto|].
    transitivity ((x1 * b' * A' + y1 * a' * B') / (A' * B' + d * x1 * a' * y1 * b')); [|field; auto].
    transitivity (((a * B * y3 + b * A * x3) * (A' * B' + d * x1 * a' * y1 * b')) /
      ((A * B + d * a * b * x3 * y3) * (A' * B' + d * x1 * a' * y1 * b'))); [field; auto|].
    replace ((a * B * y3 + b * A * x3) * (A' * B' + d * x1 * a' * y1 * b'))
      with ((x1 * b' * A' + y1 * a' * B') * (A * B + d * a * b * x3 * y3)); [field; auto|].
    unfold A, B, a, b, A', B', a', b'. ring [Hk H1 H2 H3].
  - assert (N1 : A * B - d * a * b * x3 * y3 <> 0).
    { intros E. apply D6. transitivity ((A * B - d * a * b * x3 * y3) / (A * B)); [field; auto|]. rewrite E. field. auto. }
    assert (N2 : A' * B' - d * x1 * a' * y1 * b' <> 0).
    { intros E. apply D8. transitivity ((A' * B' - d * x1 * a' * y1 * b') / (A' * B')); [field; auto|]. rewrite E. field. auto. }
    transitivity ((b * A * y3 + a * B * x3) / (A * B - d * a * b * x3 * y3)); [field; auto|].
    transitivity ((y1 * b' * A' + x1 * a' * B') / (A' * B' - d * x1 * a' * y1 * b')); [|field; auto].
    transitivity (((b * A * y3 + a * B * x3) * (A' * B' - d * x1 * a' * y1 * b')) /
      ((A * B - d * a * b * x3 * y3) * (A' * B' - d * x1 * a' * y1 * b'))); [field; auto|].
    replace ((b * A * y3 + a * B * x3) * (A' * B' - d * x1 * a' * y1 * b'))
      with ((y1 * b' * A' + x1 * a' * B') * (A * B - d * a * b * x3 * y3)); [field; auto|].
    unfold A, B, a, b, A', B', a', b'. ring [Hk H1 H2 H3].
Qed.

(** Coordinates with the right products are those of the sum. *)
Lemma eadd_unique P Q x y :
  x * (1 + d * ex P * ex Q * ey P * ey Q) = ex P * ey Q + ey P * ex Q ->
  y * (1 - d * ex P * ex Q * ey P * ey Q) = ey P * ey Q + ex P * ex Q ->
  ex (eadd P Q) = x /\ ey (eadd P Q) = y.
Proof.
  intros E1 E2. destruct (eadd_xy P Q) as [-> ->]. destruct (complete _ _ _ _ (e_on P) (e_on Q)) as [D1 D2].
  unfold sum_ex, sum_ey. rewrite <- E1, <- E2. split; field; assumption.
Qed.
End Edwards.
