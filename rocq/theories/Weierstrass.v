(** * Weierstrass: the points of a short Weierstrass curve
    y^2 = x^3 + a x + b over a prime field form a commutative group.

    For curves without points of order two (y = 0), which covers the curves
    of prime order used by the crate.  All algebra is done with slopes: the
    slope [l] of two points that are not opposite is the only one with
    [l (x1 - x2) = y1 - y2] and [l (y1 + y2) = x1^2 + x1 x2 + x2^2 + a],
    whether the points are different (chord) or equal (tangent). *)
From Verif Require Import Fq.
From Coq Require Import Znumtheory Eqdep_dec Field.
Open Scope Z_scope.

Section Weierstrass.
Context (p : Z) (Hp : prime p) (Hp2 : 2 < p).
Local Notation F := (Fq p).
Context (a b : F).

Local Notation "0" := (f0 p).
Local Notation "1" := (f1 p).
Local Infix "+" := (fadd p).
Local Infix "-" := (fsub p).
Local Infix "*" := (fmul p).
Local Notation "- x" := (fopp p x).
Local Notation "x / y" := (fmul p x (finv p y)).

Add Field Fp : (fq_field p Hp).

Definition cubic (x : F) : F := x * x * x + a * x + b.

Definition on_curve (x y : F) : bool := feqb p (y * y) (cubic x).

Inductive Point : Type :=
| Inf
| Aff (x y : F) (H : on_curve x y = true).

(** The affine coordinates determine the point. *)
Lemma Aff_eq x y H x' y' H' : x = x' -> y = y' -> Aff x y H = Aff x' y' H'.
Proof. intros -> ->. f_equal. apply UIP_dec, Bool.bool_dec. Qed.

(** A point from coordinates; [Inf] if they are not on the curve. *)
Definition point (x y : F) : Point :=
  match Bool.bool_dec (on_curve x y) true with
  | left H => Aff x y H
  | right _ => Inf
  end.

Lemma point_on x y (H : on_curve x y = true) : point x y = Aff x y H.
Proof. unfold point. destruct (Bool.bool_dec _ _) as [H'|H']; [|contradiction]. now apply Aff_eq. Qed.

Definition peqb (P Q : Point) : bool :=
  match P, Q with
  | Inf, Inf => true
  | Aff x y _, Aff x' y' _ => feqb p x x' && feqb p y y'
  | _, _ => false
  end.

Lemma peqb_spec P Q : peqb P Q = true <-> P = Q.
Proof.
  destruct P as [|x y H], Q as [|x' y' H']; cbn; split; try congruence.
  - intros E. apply andb_prop in E as [E1 E2]. apply feqb_spec in E1, E2. now apply Aff_eq.
  - intros E. injection E as -> ->. now rewrite !(proj2 (feqb_spec _ _) eq_refl).
Qed.

Lemma on_curve_neg x y : on_curve x y = true -> on_curve x (- y) = true.
Proof.
  unfold on_curve. rewrite !feqb_spec. intros E. rewrite <- E. ring.
Qed.

Definition neg (P : Point) : Point :=
  match P with Inf => Inf | Aff x y H => Aff x (- y) (on_curve_neg x y H) end.

Definition two : F := 1 + 1.
Definition three : F := 1 + 1 + 1.

(** Chord and tangent. *)
Definition slope (x1 y1 x2 y2 : F) : F :=
  if feqb p x1 x2 then (three * x1 * x1 + a) / (two * y1) else (y1 - y2) / (x1 - x2).

Definition add (P Q : Point) : Point :=
  match P, Q with
  | Inf, _ => Q
  | _, Inf => P
  | Aff x1 y1 _, Aff x2 y2 _ =>
      if (feqb p x1 x2 && feqb p y1 (- y2))%bool then Inf else
      let l := slope x1 y1 x2 y2 in
      let x3 := l * l - x1 - x2 in
      let y3 := l * (x1 - x3) - y1 in
      point x3 y3
  end.

(** ** The field *)
Lemma two_neq : two <> 0.
Proof.
  intros E. apply (f_equal fval) in E.
  change (Z.modulo (Z.add (Z.modulo (Zpos xH) p) (Z.modulo (Zpos xH) p)) p = Z.modulo Z0 p) in E.
  rewrite <- Zplus_mod in E. change (Z.add (Zpos xH) (Zpos xH)) with (Zpos (xO xH)) in E.
  rewrite (Z.mod_small (Zpos (xO xH))), Z.mod_0_l in E by lia. lia.
Qed.

Lemma f_integral x y : x * y = 0 -> x = 0 \/ y = 0.
Proof.
  intros E. destruct (feqb p x 0) eqn:Ex; [left; now apply feqb_spec|right].
  assert (Hx : x <> 0) by (intros H; apply feqb_spec in H; congruence).
  transitivity (finv p x * (x * y)); [field; exact Hx|]. rewrite E. ring.
Qed.

Lemma f_cancel x y z : x <> 0 -> x * y = x * z -> y = z.
Proof.
  intros Hx E. assert (E' : x * (y - z) = 0).
  { transitivity (x * y - x * z); [ring|]. rewrite E. ring. }
  apply f_integral in E' as [E'|E']; [contradiction|].
  transitivity (y - z + z); [ring|]. rewrite E'. ring.
Qed.

Lemma f_dec (x y : F) : x = y \/ x <> y.
Proof.
  destruct (feqb p x y) eqn:E; [left; now apply feqb_spec|right]. intros H.
  apply feqb_spec in H. congruence.
Qed.

Lemma f_sub_zero x y : x - y = 0 <-> x = y.
Proof.
  split; [|intros ->; ring]. intros E. transitivity (x - y + y); [ring|]. rewrite E. ring.
Qed.

Lemma f_neg_eq x : x = - x -> x = 0.
Proof.
  intros E. destruct (f_integral two x) as [H|H]; auto.
  - unfold two. transitivity (x - (- x)); [ring|]. rewrite <- E. ring.
  - now apply two_neq in H.
Qed.

(** ** Slopes *)
Definition on (x y : F) : Prop := y * y = cubic x.
Lemma on_on x y : on_curve x y = true <-> on x y.
Proof. apply feqb_spec. Qed.

Record is_slope (x1 y1 x2 y2 l : F) : Prop := {
  slope_chord : l * (x1 - x2) = y1 - y2;
  slope_tangent : l * (y1 + y2) = x1 * x1 + x1 * x2 + x2 * x2 + a
}.

Definition opposite (x1 y1 x2 y2 : F) : Prop := x1 = x2 /\ y1 = - y2.

Lemma opposite_dec x1 y1 x2 y2 : opposite x1 y1 x2 y2 \/ ~ opposite x1 y1 x2 y2.
Proof.
  unfold opposite. destruct (f_dec x1 x2), (f_dec y1 (- y2)); tauto.
Qed.

Lemma opposite_test x1 y1 x2 y2 : (feqb p x1 x2 && feqb p y1 (- y2))%bool = true <-> opposite x1 y1 x2 y2.
Proof. unfold opposite. rewrite Bool.andb_true_iff, !feqb_spec. reflexivity. Qed.

Lemma same_x x y1 y2 : on x y1 -> on x y2 -> y1 = y2 \/ y1 = - y2.
Proof.
  unfold on. intros H1 H2. destruct (f_integral (y1 - y2) (y1 + y2)) as [E|E].
  - transitivity (y1 * y1 - y2 * y2); [ring|]. rewrite H1, H2. ring.
  - left. now apply (proj1 (f_sub_zero _ _)).
  - right. transitivity (y1 + y2 - y2); [ring|]. rewrite E. ring.
Qed.

(** The slope computed is one, and it is the only one. *)
Lemma slope_ok x1 y1 x2 y2 : on x1 y1 -> on x2 y2 -> ~ opposite x1 y1 x2 y2 ->
  is_slope x1 y1 x2 y2 (slope x1 y1 x2 y2).
Proof.
  intros H1 H2 Hn. unfold slope. destruct (feqb p x1 x2) eqn:E.
  - apply feqb_spec in E. subst x2. destruct (same_x _ _ _ H1 H2) as [<-|E2].
    + assert (Hy : y1 <> 0).
      { intros ->. apply Hn. split; [reflexivity|ring]. }
      constructor; unfold two, three; [ring|field; split; [exact Hy|exact two_neq]].
    + elim Hn. now split.
  - assert (Hx : x1 - x2 <> 0).
    { intros H. apply (proj1 (f_sub_zero _ _)) in H. rewrite (proj2 (feqb_spec x1 x2) H) in E. discriminate. }
    constructor; [field; exact Hx|].
    apply (f_cancel (x1 - x2)); [exact Hx|].
    transitivity (y1 * y1 - y2 * y2); [field; exact Hx|]. rewrite H1, H2. unfold cubic. ring.
Qed.

Lemma slope_unique x1 y1 x2 y2 l l' : ~ opposite x1 y1 x2 y2 ->
  is_slope x1 y1 x2 y2 l -> is_slope x1 y1 x2 y2 l' -> l = l'.
Proof.
  intros Hn [A1 A2] [B1 B2]. destruct (f_dec (x1 - x2) 0) as [Hx|Hx].
  - apply (proj1 (f_sub_zero _ _)) in Hx. subst x2.
    apply (f_cancel (y1 + y2)).
    + intros E. apply Hn. split; [reflexivity|]. transitivity (y1 + y2 - y2); [ring|]. rewrite E. ring.
    + transitivity (l * (y1 + y2)); [ring|]. rewrite A2, <- B2. ring.
  - apply (f_cancel (x1 - x2)); [exact Hx|].
    transitivity (l * (x1 - x2)); [ring|]. rewrite A1, <- B1. ring.
Qed.

(** The third point. *)
Definition sum_x (x1 x2 l : F) : F := l * l - x1 - x2.
Definition sum_y (x1 y1 x2 l : F) : F := l * (x1 - sum_x x1 x2 l) - y1.

Lemma slope_sym x1 y1 x2 y2 l : is_slope x1 y1 x2 y2 l -> is_slope x2 y2 x1 y1 l.
Proof.
  intros [H1 H2]. constructor.
  - transitivity (- (l * (x1 - x2))); [ring|]. rewrite H1. ring.
  - transitivity (l * (y1 + y2)); [ring|]. rewrite H2. ring.
Qed.

Lemma sum_sym x1 y1 x2 y2 l : is_slope x1 y1 x2 y2 l ->
  sum_x x1 x2 l = sum_x x2 x1 l /\ sum_y x1 y1 x2 l = sum_y x2 y2 x1 l.
Proof.
  intros [H1 H2]. split; unfold sum_y, sum_x; [ring|].
  transitivity (l * (x2 - (l * l - x2 - x1)) - y2 + (l * (x1 - x2) - (y1 - y2))); [ring|].
  rewrite H1. ring.
Qed.

(** [a] and [y1] in terms of the slope. *)
Lemma slope_y x1 y1 x2 y2 l : is_slope x1 y1 x2 y2 l -> y1 = y2 + l * (x1 - x2).
Proof. intros [H1 _]. rewrite H1. ring. Qed.
Lemma slope_a x1 y1 x2 y2 l : is_slope x1 y1 x2 y2 l ->
  a = l * l * (x1 - x2) + two * l * y2 - (x1 * x1 + x1 * x2 + x2 * x2).
Proof.
  intros [H1 H2]. transitivity (l * (y1 + y2) - (x1 * x1 + x1 * x2 + x2 * x2)); [rewrite H2; ring|].
  replace y1 with (y2 + l * (x1 - x2)) by (rewrite H1; ring). unfold two. ring.
Qed.

(** The third point is on the curve. *)
Lemma sum_on x1 y1 x2 y2 l : on x2 y2 -> is_slope x1 y1 x2 y2 l ->
  on (sum_x x1 x2 l) (sum_y x1 y1 x2 l).
Proof.
  intros H2 Hs. pose proof (slope_y _ _ _ _ _ Hs) as ->. pose proof (slope_a _ _ _ _ _ Hs) as Ha.
  unfold on, cubic in *.
  assert (Hb : b = y2 * y2 - x2 * x2 * x2 - a * x2) by (rewrite H2; ring).
  rewrite Hb, Ha. unfold sum_y, sum_x, two. ring.
Qed.

Lemma add_aff x1 y1 H1 x2 y2 H2 l : ~ opposite x1 y1 x2 y2 -> is_slope x1 y1 x2 y2 l ->
  exists H, add (Aff x1 y1 H1) (Aff x2 y2 H2) = Aff (sum_x x1 x2 l) (sum_y x1 y1 x2 l) H.
Proof.
  intros Hn Hs.
  assert (H : on_curve (sum_x x1 x2 l) (sum_y x1 y1 x2 l) = true).
  { apply on_on. apply (sum_on x1 y1 x2 y2); auto. now apply on_on. }
  exists H. unfold add.
  destruct (_ && _)%bool eqn:E; [apply opposite_test in E; contradiction|]. cbv zeta.
  rewrite (slope_unique x1 y1 x2 y2 (slope x1 y1 x2 y2) l Hn); auto.
  - exact (point_on _ _ H).
  - apply slope_ok; auto; now apply on_on.
Qed.

Lemma add_opposite x1 y1 H1 x2 y2 H2 : opposite x1 y1 x2 y2 -> add (Aff x1 y1 H1) (Aff x2 y2 H2) = Inf.
Proof. intros Ho. unfold add. apply opposite_test in Ho. now rewrite Ho. Qed.

(** ** Commutativity and inverses *)
Lemma add_inf_l P : add Inf P = P. Proof. reflexivity. Qed.
Lemma add_inf_r P : add P Inf = P. Proof. now destruct P. Qed.

Lemma opposite_sym x1 y1 x2 y2 : opposite x1 y1 x2 y2 -> opposite x2 y2 x1 y1.
Proof. intros [-> ->]. split; [reflexivity|ring]. Qed.

Lemma add_comm P Q : add P Q = add Q P.
Proof.
  destruct P as [|x1 y1 H1], Q as [|x2 y2 H2]; auto.
  destruct (opposite_dec x1 y1 x2 y2) as [Ho|Hn].
  - rewrite !add_opposite; auto. now apply opposite_sym.
  - assert (Hs : is_slope x1 y1 x2 y2 (slope x1 y1 x2 y2)) by (apply slope_ok; auto; now apply on_on).
    destruct (add_aff x1 y1 H1 x2 y2 H2 _ Hn Hs) as [H ->].
    assert (Hn' : ~ opposite x2 y2 x1 y1) by (intros Ho; apply Hn; now apply opposite_sym).
    destruct (add_aff x2 y2 H2 x1 y1 H1 _ Hn' (slope_sym _ _ _ _ _ Hs)) as [H' ->].
    destruct (sum_sym _ _ _ _ _ Hs). now apply Aff_eq.
Qed.

Lemma add_neg P : add P (neg P) = Inf.
Proof. destruct P as [|x y H]; [reflexivity|]. apply add_opposite. split; [reflexivity|ring]. Qed.

Lemma neg_neg P : neg (neg P) = P.
Proof. destruct P as [|x y H]; [reflexivity|]. apply Aff_eq; ring. Qed.

Lemma opposite_neg x1 y1 H1 x2 y2 H2 : opposite x1 y1 x2 y2 -> Aff x1 y1 H1 = neg (Aff x2 y2 H2).
Proof. intros [-> ->]. now apply Aff_eq. Qed.

Lemma neg_slope x1 y1 x2 y2 l : is_slope x1 y1 x2 y2 l -> is_slope x1 (- y1) x2 (- y2) (- l).
Proof.
  intros [H1 H2]. constructor.
  - transitivity (- (l * (x1 - x2))); [ring|]. rewrite H1. ring.
  - transitivity (l * (y1 + y2)); [ring|]. exact H2.
Qed.

Lemma neg_add P Q : neg (add P Q) = add (neg P) (neg Q).
Proof.
  destruct P as [|x1 y1 H1], Q as [|x2 y2 H2]; auto.
  destruct (opposite_dec x1 y1 x2 y2) as [Ho|Hn].
  - rewrite (add_opposite _ _ H1 _ _ H2 Ho). unfold neg at 2 3. rewrite add_opposite; [reflexivity|].
    destruct Ho as [-> ->]. split; [reflexivity|ring].
  - assert (Hs : is_slope x1 y1 x2 y2 (slope x1 y1 x2 y2)) by (apply slope_ok; auto; now apply on_on).
    destruct (add_aff x1 y1 H1 x2 y2 H2 _ Hn Hs) as [H ->]. unfold neg at 2 3.
    assert (Hn' : ~ opposite x1 (- y1) x2 (- y2)).
    { intros [E1 E2]. apply Hn. split; [exact E1|]. transitivity (- - y1); [ring|]. rewrite E2. ring. }
    destruct (add_aff x1 _ (on_curve_neg _ _ H1) x2 _ (on_curve_neg _ _ H2) _ Hn' (neg_slope _ _ _ _ _ Hs)) as [H' ->].
    cbn [neg]. apply Aff_eq; unfold sum_y, sum_x; ring.
Qed.

(** ** Associativity *)

(** There is no point of order two. *)
Context (no_root : forall x, cubic x <> 0).

Lemma y_neq x y : on x y -> y <> 0.
Proof. intros H ->. apply (no_root x). rewrite <- H. ring. Qed.

(** Cancellation: (P + Q) - P = Q. *)
Lemma add_cancel P Q : add (add P Q) (neg P) = Q.
Proof.
  destruct P as [|x1 y1 H1]; [cbn [neg]; rewrite add_inf_r; reflexivity|].
  destruct Q as [|x2 y2 H2]; [rewrite add_inf_r; apply add_neg|].
  destruct (opposite_dec x1 y1 x2 y2) as [Ho|Hn].
  - rewrite (add_opposite _ _ H1 _ _ H2 Ho), add_inf_l. symmetry. apply opposite_neg.
    now apply opposite_sym.
  - pose proof (proj1 (on_on _ _) H1) as O1. pose proof (proj1 (on_on _ _) H2) as O2.
    assert (Hs : is_slope x1 y1 x2 y2 (slope x1 y1 x2 y2)) by (apply slope_ok; auto).
    set (l := slope x1 y1 x2 y2) in *.
    destruct (add_aff x1 y1 H1 x2 y2 H2 _ Hn Hs) as [H ->]. unfold neg.
    assert (Hn' : ~ opposite (sum_x x1 x2 l) (sum_y x1 y1 x2 l) x1 (- y1)).
    { intros [E1 E2]. apply (y_neq x1 y1 O1), f_neg_eq.
      transitivity (- - y1); [ring|]. rewrite <- E2. unfold sum_y. rewrite E1. ring. }
    assert (Hs' : is_slope (sum_x x1 x2 l) (sum_y x1 y1 x2 l) x1 (- y1) (- l)).
    { constructor; unfold sum_y, sum_x; [ring|].
      pose proof (slope_y _ _ _ _ _ Hs) as E. rewrite E. rewrite (slope_a _ _ _ _ _ Hs) at 1. unfold two. ring. }
    destruct (add_aff _ _ H _ _ (on_curve_neg _ _ H1) _ Hn' Hs') as [H' ->].
    pose proof (slope_y _ _ _ _ _ Hs) as E.
    apply Aff_eq; unfold sum_y, sum_x; [ring|]. rewrite E. ring.
Qed.

(** The slopes of the second additions in terms of those of the first. *)
Lemma slope_next x1 y1 x2 y2 x3 y3 l m k :
  is_slope x1 y1 x2 y2 l -> is_slope x2 y2 x3 y3 m -> l - m <> 0 -> k * (l - m) = x1 - x3 ->
  is_slope (sum_x x1 x2 l) (sum_y x1 y1 x2 l) x3 y3 (k - l).
Proof.
  intros Hl Hm Hd Hk. pose proof (slope_y _ _ _ _ _ Hl) as E1.
  apply slope_sym in Hm. pose proof (slope_y _ _ _ _ _ Hm) as E3.
  pose proof (slope_a _ _ _ _ _ Hl) as A1. pose proof (slope_a _ _ _ _ _ Hm) as A3.
  assert (Ek : k = (x1 - x3) / (l - m)) by (rewrite <- Hk; field; exact Hd).
  assert (Ey : y2 = (m * m * (x3 - x2) - l * l * (x1 - x2) + (x1 * x1 + x1 * x2) - (x3 * x3 + x3 * x2))
                    / (two * (l - m))).
  { apply (f_cancel (two * (l - m))).
    - intros E. apply f_integral in E as [E|E]; [now apply two_neq|contradiction].
    - transitivity (m * m * (x3 - x2) - l * l * (x1 - x2) + (x1 * x1 + x1 * x2) - (x3 * x3 + x3 * x2)).
      + rewrite A1 in A3.
        transitivity ((l * l * (x1 - x2) + two * l * y2 - (x1 * x1 + x1 * x2 + x2 * x2))
          - two * m * y2 - l * l * (x1 - x2) + (x1 * x1 + x1 * x2 + x2 * x2)); [unfold two; ring|].
        rewrite A3. ring.
      + field. split; [exact Hd|exact two_neq]. }
  constructor.
  - rewrite E1, E3, Ey, Ek. unfold sum_y, sum_x, two. field.
    split; [exact Hd|]. exact two_neq.
  - rewrite A1, E1, E3, Ey, Ek. unfold sum_y, sum_x, two. field.
    split; [exact Hd|]. exact two_neq.
Qed.

(** A point of the curve on the line through two points is one of them or the
    opposite of their sum. *)
Lemma on_line x1 y1 x2 y2 l x y : on x2 y2 -> is_slope x1 y1 x2 y2 l ->
  on x y -> y = y2 + l * (x - x2) -> x = x1 \/ x = x2 \/ x = sum_x x1 x2 l.
Proof.
  intros H2 Hs H E.
  assert (Hz : (x - x1) * ((x - x2) * (x - sum_x x1 x2 l)) = 0).
  { unfold on, cubic in *. rewrite E in H.
    assert (Hb : b = y2 * y2 - x2 * x2 * x2 - a * x2) by (rewrite H2; ring).
    rewrite Hb, (slope_a _ _ _ _ _ Hs) in H. apply (proj2 (f_sub_zero _ _)) in H.
    transitivity (- ((y2 + l * (x - x2)) * (y2 + l * (x - x2)) -
      (x * x * x + (l * l * (x1 - x2) + two * l * y2 - (x1 * x1 + x1 * x2 + x2 * x2)) * x +
       (y2 * y2 - x2 * x2 * x2 - (l * l * (x1 - x2) + two * l * y2 - (x1 * x1 + x1 * x2 + x2 * x2)) * x2)))).
    - unfold sum_x, two. ring.
    - rewrite H. ring. }
  apply f_integral in Hz as [Hz|Hz]; [left; now apply (proj1 (f_sub_zero _ _))|].
  apply f_integral in Hz as [Hz|Hz]; [right; left|right; right]; now apply (proj1 (f_sub_zero _ _)).
Qed.

Lemma assoc_aff x1 y1 H1 x2 y2 H2 x3 y3 H3 :
  let P1 := Aff x1 y1 H1 in let P2 := Aff x2 y2 H2 in let P3 := Aff x3 y3 H3 in
  P1 <> neg P2 -> P2 <> neg P3 -> add P1 P2 <> neg P3 -> add P2 P3 <> neg P1 ->
  add (add P1 P2) P3 = add P1 (add P2 P3).
Proof.
  intros P1 P2 P3 N12 N23 NS NT.
  pose proof (proj1 (on_on _ _) H1) as O1. pose proof (proj1 (on_on _ _) H2) as O2.
  pose proof (proj1 (on_on _ _) H3) as O3.
  assert (n12 : ~ opposite x1 y1 x2 y2) by (intros Ho; apply N12; now apply opposite_neg).
  assert (n23 : ~ opposite x2 y2 x3 y3) by (intros Ho; apply N23; now apply opposite_neg).
  assert (Hl : is_slope x1 y1 x2 y2 (slope x1 y1 x2 y2)) by (apply slope_ok; auto).
  assert (Hm : is_slope x2 y2 x3 y3 (slope x2 y2 x3 y3)) by (apply slope_ok; auto).
  set (l := slope x1 y1 x2 y2) in *. set (m := slope x2 y2 x3 y3) in *.
  destruct (add_aff x1 y1 H1 x2 y2 H2 _ n12 Hl) as [HS ES].
  destruct (add_aff x2 y2 H2 x3 y3 H3 _ n23 Hm) as [HT ET].
  fold P1 P2 in ES. fold P2 P3 in ET. rewrite ES in *. rewrite ET in *.
  assert (nS : ~ opposite (sum_x x1 x2 l) (sum_y x1 y1 x2 l) x3 y3)
    by (intros Ho; apply NS; now apply opposite_neg).
  assert (nT : ~ opposite (sum_x x2 x3 m) (sum_y x2 y2 x3 m) x1 y1)
    by (intros Ho; apply NT; now apply opposite_neg).
  destruct (f_dec (l - m) 0) as [Hlm|Hlm].
  - (* collinear: then two of the points coincide *)
    apply (proj1 (f_sub_zero _ _)) in Hlm. clearbody l m. subst m.
    assert (E3 : y3 = y2 + l * (x3 - x2)) by (apply slope_sym in Hm; apply (slope_y _ _ _ _ _ Hm)).
    assert (E1 : y1 = y2 + l * (x1 - x2)) by apply (slope_y _ _ _ _ _ Hl).
    assert (E13 : x3 = x1 -> P1 = P3).
    { intros E. apply Aff_eq; [now symmetry|]. rewrite E1, E3, E. reflexivity. }
    assert (E12 : x3 = sum_x x1 x2 l -> opposite (sum_x x1 x2 l) (sum_y x1 y1 x2 l) x3 y3).
    { intros E. split; [now symmetry|]. rewrite E3. unfold sum_y. rewrite E, E1. ring. }
    assert (Hfin : P1 = P3 -> add (Aff (sum_x x1 x2 l) (sum_y x1 y1 x2 l) HS) P3
                   = add P1 (Aff (sum_x x2 x3 l) (sum_y x2 y2 x3 l) HT)).
    { intros E. rewrite <- ES, <- ET, <- E, (add_comm P2 P1). apply add_comm. }
    destruct (on_line _ _ _ _ _ _ _ O2 Hl O3 E3) as [E|[E|E]].
    + auto.
    + (* P2 = P3: l is the tangent *)
      assert (E32 : y3 = y2) by (rewrite E3, E; ring).
      destruct (on_line _ _ _ _ _ _ _ O2 (slope_sym _ _ _ _ _ Hm) O1 E1) as [F|[F|F]].
      * apply Hfin, Aff_eq; [exact F|]. rewrite E1, E3, F. reflexivity.
      * apply Hfin, Aff_eq; [now rewrite F, E|]. rewrite E1, E3, F, E. reflexivity.
      * elim nT. split; [now rewrite F; unfold sum_x; ring|].
        rewrite E1, F. unfold sum_y, sum_x. rewrite E. ring.
    + elim nS. auto.
  - set (k := (x1 - x3) / (l - m)).
    assert (Hk : k * (l - m) = x1 - x3) by (unfold k; field; exact Hlm).
    pose proof (slope_next _ _ _ _ _ _ _ _ _ Hl Hm Hlm Hk) as Hu.
    assert (Hv : is_slope (sum_x x2 x3 m) (sum_y x2 y2 x3 m) x1 y1 (k - m)).
    { destruct (sum_sym _ _ _ _ _ Hm) as [-> ->].
      apply (slope_next x3 y3 x2 y2 x1 y1 m l k); auto using slope_sym.
      - intros E. apply Hlm. transitivity (- (m - l)); [ring|]. rewrite E. ring.
      - transitivity (- (k * (l - m))); [ring|]. rewrite Hk. ring. }
    destruct (add_aff _ _ HS _ _ H3 _ nS Hu) as [HR ER]. unfold P3. rewrite ER.
    rewrite add_comm. destruct (add_aff _ _ HT _ _ H1 _ nT Hv) as [HR' ER']. unfold P1. rewrite ER'.
    assert (Ex : x1 = x3 + k * (l - m)) by (rewrite Hk; ring).
    assert (E1 : y1 = y2 + l * (x1 - x2)) by apply (slope_y _ _ _ _ _ Hl).
    apply Aff_eq.
    + unfold sum_x. rewrite Ex. ring.
    + unfold sum_y, sum_x. rewrite E1, Ex. ring.
Qed.

Lemma neg_inj P Q : neg P = neg Q -> P = Q.
Proof. intros E. rewrite <- (neg_neg P), E. apply neg_neg. Qed.

Lemma point_dec (P Q : Point) : P = Q \/ P <> Q.
Proof.
  destruct (peqb P Q) eqn:E; [left; now apply peqb_spec|right]. intros H. apply peqb_spec in H. congruence.
Qed.

Theorem add_assoc P Q T : add (add P Q) T = add P (add Q T).
Proof.
  destruct (point_dec P (neg Q)) as [E|N12].
  { subst P. rewrite (add_comm (neg Q) Q), add_neg, add_inf_l.
    rewrite add_comm. symmetry. apply add_cancel. }
  destruct (point_dec Q (neg T)) as [E|N23].
  { subst Q. rewrite (add_comm (neg T) T), add_neg, add_inf_r.
    rewrite add_comm, <- (neg_neg T) at 1. rewrite add_comm.
    rewrite (add_comm P). rewrite neg_neg at 1.
    rewrite <- (neg_neg T) at 2. apply add_cancel. }
  destruct (point_dec (add P Q) (neg T)) as [E|NS].
  { rewrite E. rewrite (add_comm (neg T)), add_neg.
    assert (ET : T = add (neg P) (neg Q)) by (rewrite <- neg_add, E; symmetry; apply neg_neg).
    rewrite ET. rewrite (add_comm (neg P)), (add_comm Q).
    rewrite <- (neg_neg Q) at 2. rewrite add_cancel. symmetry. apply add_neg. }
  destruct (point_dec (add Q T) (neg P)) as [E|NT].
  { rewrite E, add_neg.
    assert (EP : P = add (neg Q) (neg T)) by (rewrite <- neg_add, E; symmetry; apply neg_neg).
    rewrite EP. rewrite <- (neg_neg Q) at 2. rewrite add_cancel. rewrite add_comm. apply add_neg. }
  destruct P as [|x1 y1 H1]; [reflexivity|].
  destruct Q as [|x2 y2 H2]; [now rewrite add_inf_r|].
  destruct T as [|x3 y3 H3]; [now rewrite !add_inf_r|].
  now apply assoc_aff.
Qed.

End Weierstrass.
