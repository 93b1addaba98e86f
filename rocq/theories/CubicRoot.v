(** * CubicRoot: when x^3 - 3 x + b has no root modulo a prime.

    Library mathematics; models no code.  [Nist256] etc. use it to prove that
    the curves have no point of order two. *)
From Verif Require Import Fq Fermat Pocklington Weierstrass.
From Coq Require Import Znumtheory Zpow_facts Field Lia.
Open Scope Z_scope.

Section Cardano.
Context (p : Z) (Hp : prime p) (Hp2 : 2 < p).
Local Notation F := (Fq p).
Context (b s : F).

Local Notation "0" := (f0 p).
Local Notation "1" := (f1 p).
Local Infix "+" := (fadd p).
Local Infix "-" := (fsub p).
Local Infix "*" := (fmul p).
Local Notation "- x" := (fopp p x).
Local Notation "x / y" := (fmul p x (finv p y)).
Add Field Fp : (fq_field p Hp).
Local Notation "2f" := (two p).
Local Notation "3f" := (three p).

(** For p = 1 mod 3: if s^2 = b^2 - 4 and (s - b) / 2 = c v^3 where c is not a
    cube, there is no root.  (If x is a root, x = w + 1/w with
    w^3 = (s - b) / 2.) *)
Lemma cubes_pow : Z.modulo p 3 = 1%Z -> forall (c : Z) (w : F), w <> 0 -> of_Z p c = w * w * w ->
  Z.modulo (Z.pow c (Z.div (Z.sub p 1) 3)) p = 1%Z.
Proof.
  intros H3 c w Hw Hc. assert (H1 : Z.lt 0 p) by lia.
  assert (E : Z.sub p 1 = Z.mul 3 (Z.div (Z.sub p 1) 3)).
  { pose proof (Z.div_mod p 3). replace (Z.sub p 1) with (Z.mul (Z.div p 3) 3) by lia. rewrite Z.div_mul; lia. }
  set (e := Z.div (Z.sub p 1) 3) in *. assert (He : Z.le 0 e) by lia.
  rewrite Zpower_mod by lia. change (Z.modulo c p) with (fval (of_Z p c)). rewrite Hc.
  cbn [fmul of_Z fval].
  rewrite Zmult_mod_idemp_l. rewrite <- Zpower_mod by lia.
  replace (Z.mul (Z.mul (fval w) (fval w)) (fval w)) with (Z.pow (fval w) 3) by ring.
  rewrite <- Z.pow_mul_r, <- E by lia. apply (fermat_one p Hp).
  intros Hd. apply Hw, Fq_eq. cbn [f0 of_Z fval]. rewrite Z.mod_0_l by lia.
  pose proof (fval_range p Hp w). destruct (Z.eq_dec (fval w) 0) as [|Hn]; auto.
  apply Z.divide_pos_le in Hd; lia.
Qed.

Theorem no_root_cardano (c : Z) (v : F) : Z.modulo p 3 = 1%Z ->
  s * s = b * b - 2f * 2f -> s <> 0 -> 2f * (of_Z p c * (v * v * v)) = s - b ->
  Z.modulo (Z.pow c (Z.div (Z.sub p 1) 3)) p <> 1%Z ->
  forall x : F, x * x * x + (- 3f) * x + b <> 0.
Proof.
  intros H3 Hs Hs0 Hu Hpow x Hx. pose proof (two_neq p Hp2) as H2.
  assert (Hb : b = 3f * x - x * x * x).
  { transitivity (x * x * x + (- 3f) * x + b + (3f * x - x * x * x)); [ring|]. rewrite Hx. ring. }
  assert (Hss : s * s = (x * x - 2f * 2f) * (x * x - 1) * (x * x - 1)).
  { rewrite Hs, Hb. unfold two, three. ring. }
  assert (Hx1 : x * x - 1 <> 0).
  { intros E. rewrite E in Hss. apply Hs0. destruct (f_integral p Hp s s); auto. rewrite Hss. ring. }
  set (t := s / (x * x - 1)).
  assert (Ht : t * (x * x - 1) = s) by (unfold t; field; exact Hx1).
  assert (Htt : t * t = x * x - 2f * 2f).
  { apply (f_cancel p Hp ((x * x - 1) * (x * x - 1))).
    - intros E. apply f_integral in E as [E|E]; auto.
    - transitivity ((t * (x * x - 1)) * (t * (x * x - 1))); [ring|]. rewrite Ht, Hss. ring. }
  set (w := (x + t) / 2f). assert (Hw : 2f * w = x + t) by (unfold w; field; exact H2).
  assert (H22 : 2f * 2f <> 0) by (intros E; apply f_integral in E as [E|E]; auto).
  assert (Hw0 : w <> 0).
  { intros E. rewrite E in Hw. apply H22.
    transitivity (x * x - t * t); [rewrite Htt; ring|].
    transitivity ((x + t) * (x - t)); [ring|]. rewrite <- Hw. ring. }
  assert (Hw3 : of_Z p c * (v * v * v) = w * w * w).
  { apply (f_cancel p Hp (2f * (2f * 2f))).
    { intros E. apply f_integral in E as [E|E]; auto. }
    transitivity ((2f * w) * (2f * w) * (2f * w)); [|ring].
    transitivity (2f * 2f * (2f * (of_Z p c * (v * v * v)))); [ring|].
    rewrite Hu, Hw, Hb, <- Ht.
    transitivity (x * x * x + 3f * x * (t * t) + t * (3f * x * x + t * t)); [|unfold three; ring].
    rewrite Htt. unfold two, three. ring. }
  assert (Hv : v <> 0).
  { intros E. rewrite E in Hw3. apply Hw0.
    destruct (f_integral p Hp (w * w) w) as [E'|E']; auto; [rewrite <- Hw3; ring|].
    destruct (f_integral p Hp w w); auto. }
  apply Hpow, (cubes_pow H3 c (w / v)).
  - intros E. apply Hw0. transitivity (w / v * v); [field; exact Hv|]. rewrite E. ring.
  - transitivity (of_Z p c * (v * v * v) / (v * v * v)); [field; exact Hv|]. rewrite Hw3. field. exact Hv.
Qed.
End Cardano.
