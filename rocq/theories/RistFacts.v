(** * RistFacts: ristretto255 (RFC 9496) as computed in [Rist255] is a group
    of prime order with a canonical encoding, for parameters satisfying
    [RLaws]. *)
From Verif Require Export Rist255.
From Verif Require Import Pocklington Fermat Weierstrass RistrettoFacts RistSpec.
From Coq Require Import Znumtheory Zpow_facts Field.
Open Scope Z_scope.

(** Facts about numbers, which [Rist25519] establishes by computation. *)
Record RLaws (R : RParams) : Prop := {
  rp_prime : prime (rp R);
  rp_mod8 : rp R mod 8 = 5;
  rp_fits : rp R <= 2 ^ 255;
  rp_count : rp R < 8 * ell - 3;
  i_square : fmul (rp R) (cI R) (cI R) = fopp (rp R) (f1 (rp R));
  d_euler : rpow R (cD R) ((rp R - 1) / 2) = fopp (rp R) (f1 (rp R));
  q_square : fmul (rp R) (SQRT_AD_MINUS_ONE R) (SQRT_AD_MINUS_ONE R)
             = fsub (rp R) (fopp (rp R) (cD R)) (f1 (rp R));
  c_square : fmul (rp R) (fmul (rp R) (INVSQRT_A_MINUS_D R) (INVSQRT_A_MINUS_D R))
               (fsub (rp R) (fopp (rp R) (f1 (rp R))) (cD R)) = f1 (rp R);
  ods_spec : ONE_MINUS_D_SQ R = fsub (rp R) (f1 (rp R)) (fmul (rp R) (cD R) (cD R));
  dos_spec : D_MINUS_ONE_SQ R = fmul (rp R) (fsub (rp R) (cD R) (f1 (rp R))) (fsub (rp R) (cD R) (f1 (rp R)));
  base_on : on_edwards (rp R) (cD R) (of_Z (rp R) (rbx R)) (of_Z (rp R) (rby R)) = true;
  base_even : exists w, fmul (rp R) w w = fadd (rp R) (f1 (rp R)) (fmul (rp R) (cD R)
                (fmul (rp R) (of_Z (rp R) (rby R)) (of_Z (rp R) (rby R))));
  base_nontrivial : fmul (rp R) (of_Z (rp R) (rbx R)) (of_Z (rp R) (rby R)) <> f0 (rp R);
  base_order : zmul (eadd (rp R) (cD R) rp_prime) (eid (rp R) (cD R) rp_prime) ell
                 (epoint (rp R) (cD R) rp_prime (of_Z (rp R) (rbx R)) (of_Z (rp R) (rby R)))
               = eid (rp R) (cD R) rp_prime
}.

(** Powers of numbers. *)
Lemma rpow_of_Z R z e r : 2 < rp R -> 0 <= e -> z ^ e mod rp R = r -> rpow R (of_Z (rp R) z) e = of_Z (rp R) r.
Proof.
  intros Hp He H. unfold rpow. apply of_Z_eq. rewrite powmod_spec by exact He. cbn [of_Z fval].
  rewrite Z.mod_mod by lia. rewrite <- Zpower_mod by lia. rewrite H, <- H. now rewrite Z.mod_mod by lia.
Qed.

(** Euler's criterion, one way. *)
Lemma euler_nonsquare (R : RParams) : prime (rp R) -> rp R mod 8 = 5 ->
  rpow R (cD R) ((rp R - 1) / 2) = fopp (rp R) (f1 (rp R)) -> forall r, fmul (rp R) r r <> cD R.
Proof.
  intros Hp H8 H r E. set (p := rp R) in *.
  assert (Hb : 2 < p). { pose proof (prime_ge_2 _ Hp). destruct (Z.eq_dec p 2) as [E2|]; [rewrite E2 in H8; discriminate|lia]. }
  assert (Hh : (p - 1) / 2 + (p - 1) / 2 = p - 1).
  { pose proof (Z.div_mod p 8 ltac:(lia)) as Hd. rewrite H8 in Hd. replace (p - 1) with ((4 * (p / 8) + 2) * 2) by lia.
    rewrite Z.div_mul by lia. lia. }
  assert (Hh0 : 0 <= (p - 1) / 2) by (apply Z.div_pos; lia).
  apply (f_equal fval) in H. unfold rpow, fopp in H. fold p in H. cbn [of_Z fval f1] in H.
  rewrite powmod_spec, Z.mod_mod, (Z.mod_1_l p) in H by lia.
  rewrite <- E in H. unfold fmul in H. fold p in H. cbn [of_Z fval] in H.
  rewrite <- Zpower_mod, Z.pow_mul_l, <- Z.pow_add_r, Hh in H by lia.
  assert (Hm : (Z.opp 1) mod p = p - 1) by (replace (Z.opp 1) with ((p - 1) + (-1) * p) by lia; rewrite Z_mod_plus_full; apply Z.mod_small; lia).
  rewrite Hm in H. destruct (Zdivide_dec p (fval r)) as [Hd|Hd].
  - apply Z.mod_divide in Hd; [|lia]. rewrite Zpower_mod, Hd, Z.pow_0_l, Z.mod_0_l in H by lia. lia.
  - rewrite (fermat_one p Hp) in H by exact Hd. lia.
Qed.

Section Facts.
Context (R : RParams) (RL : RLaws R).
Local Notation p := (rp R).
Local Notation F := (Fq (rp R)).
Local Notation Hp := (rp_prime R RL).
Local Notation d := (cD R).
Local Notation i := (cI R).
Local Notation "0" := (f0 (rp R)).
Local Notation "1" := (f1 (rp R)).
Local Notation "2" := (fadd (rp R) (f1 (rp R)) (f1 (rp R))).
Local Notation m1 := (fopp (rp R) (f1 (rp R))).
Local Infix "+" := (fadd (rp R)).
Local Infix "-" := (fsub (rp R)).
Local Infix "*" := (fmul (rp R)).
Local Notation "- x" := (fopp (rp R) x).
Local Notation "x / y" := (fmul (rp R) x (finv (rp R) y)).
Local Notation neg := (is_negative R).
Local Notation pos x := (is_negative R x = false).
Add Field Fp : (fq_field (rp R) (rp_prime R RL)).

Lemma p_form : exists k, (0 <= k /\ p = 8 * k + 5)%Z.
Proof.
  exists (p / 8)%Z. pose proof (prime_ge_2 _ Hp). split; [apply Z.div_pos; lia|].
  pose proof (Z.div_mod p 8). rewrite (rp_mod8 R RL) in *. lia.
Qed.
Lemma p_big : (2 < p)%Z.
Proof. destruct p_form as (k & Hk & E). lia. Qed.

Lemma f_int x y : x * y = 0 -> x = 0 \/ y = 0.
Proof. exact (f_integral p Hp x y). Qed.
Lemma fdec (x y : F) : x = y \/ x <> y.
Proof. exact (f_dec p x y). Qed.
Lemma sub0 (x y : F) : x - y = 0 -> x = y.
Proof. exact (proj1 (f_sub_zero p Hp x y)). Qed.
Lemma one_neq : 1 <> 0.
Proof. exact (F_1_neq_0 (fq_field p Hp)). Qed.
Lemma two_neq : 2 <> 0.
Proof. exact (Weierstrass.two_neq p p_big). Qed.
Lemma mul_neq x y : x <> 0 -> y <> 0 -> x * y <> 0.
Proof. intros Hx Hy E. apply f_int in E. tauto. Qed.
Lemma mul_neq_l x y : x * y <> 0 -> x <> 0.
Proof. intros H E. apply H. rewrite E. ring. Qed.
Lemma mul_neq_r x y : x * y <> 0 -> y <> 0.
Proof. intros H E. apply H. rewrite E. ring. Qed.
Lemma opp0 x : - x = 0 -> x = 0.
Proof. intros E. transitivity (- - x); [ring|]. rewrite E. ring. Qed.
Lemma cancel x y z : x <> 0 -> x * y = x * z -> y = z.
Proof. exact (f_cancel p Hp x y z). Qed.

Lemma sq_eq x y : x * x = y * y -> x = y \/ x = - y.
Proof.
  intros E. destruct (f_int (x - y) (x + y)) as [H|H].
  - transitivity (x * x - y * y); [ring|]. rewrite E. ring.
  - left. now apply sub0.
  - right. apply sub0. rewrite <- H. ring.
Qed.

(** ** Signs *)
Lemma neg_zero : pos 0.
Proof. unfold is_negative. cbn [f0 of_Z fval]. now rewrite Z.mod_0_l by (pose proof p_big; lia). Qed.

Lemma neg_opp x : x <> 0 -> neg (- x) = negb (neg x).
Proof.
  intros Hx. unfold is_negative. pose proof (fval_range p Hp x) as Hr. pose proof p_big.
  assert (Hv : fval x <> 0%Z).
  { intros E. apply Hx, Fq_eq. cbn [f0 of_Z fval]. now rewrite Z.mod_0_l by lia. }
  assert (E : fval (- x) = (p - fval x)%Z).
  { unfold fopp. cbn [of_Z fval]. replace (Z.opp (fval x)) with ((p - fval x) + (-1) * p)%Z by lia.
    rewrite Z_mod_plus_full. apply Z.mod_small. lia. }
  rewrite E, Z.odd_sub. destruct p_form as (k & _ & Ek).
  assert (Ho : Z.odd p = true) by (rewrite Ek, Z.odd_add, Z.odd_mul; reflexivity).
  rewrite Ho. destruct (Z.odd (fval x)); reflexivity.
Qed.

Lemma pos_pos x : pos x -> pos (- x) -> x = 0.
Proof. intros H1 H2. destruct (fdec x 0) as [E|E]; auto. rewrite neg_opp, H1 in H2 by exact E. discriminate. Qed.
Lemma neg_pos x : neg x = true -> pos (- x).
Proof.
  intros H. rewrite neg_opp, H; [reflexivity|]. intros E. rewrite E, neg_zero in H. discriminate.
Qed.

Lemma abs_pos x : pos (ct_abs R x).
Proof. unfold ct_abs. destruct (neg x) eqn:E; auto. now apply neg_pos. Qed.
Lemma abs_sq x : ct_abs R x * ct_abs R x = x * x.
Proof. unfold ct_abs. destruct (neg x); ring. Qed.
Lemma pos_sq x y : pos x -> pos y -> x * x = y * y -> x = y.
Proof.
  intros Hx Hy E. apply sq_eq in E as [E|E]; auto. subst x.
  rewrite (pos_pos y Hy Hx). ring.
Qed.
Lemma abs_zero : ct_abs R 0 = 0.
Proof. unfold ct_abs. now rewrite neg_zero. Qed.

(** ** Powers *)
Local Notation pow := (rpow R).
Lemma fval_of_Z z : fval (of_Z p z) = (z mod p)%Z. Proof. reflexivity. Qed.
Lemma pow_val x e : (0 <= e)%Z -> fval (pow x e) = (fval x ^ e mod p)%Z.
Proof. intros He. unfold rpow. rewrite fval_of_Z, powmod_spec by exact He. apply Z.mod_mod. pose proof p_big. lia. Qed.
Lemma pow_add x e f : (0 <= e)%Z -> (0 <= f)%Z -> pow x (e + f)%Z = pow x e * pow x f.
Proof.
  intros He Hf. apply Fq_eq. unfold fmul. rewrite pow_val by lia.
  rewrite (fval_of_Z (fval (pow x e) * fval (pow x f))%Z), !pow_val by lia.
  rewrite Z.pow_add_r, <- Zmult_mod by lia. reflexivity.
Qed.
Lemma pow_1 x : pow x 1%Z = x.
Proof. apply Fq_eq. rewrite pow_val, Z.pow_1_r by lia. apply fval_mod. Qed.
Lemma pow_0 x : pow x 0%Z = 1.
Proof. apply Fq_eq. rewrite pow_val by lia. reflexivity. Qed.
Lemma pow_mul x y e : (0 <= e)%Z -> pow (x * y) e = pow x e * pow y e.
Proof.
  intros He. apply Fq_eq. unfold fmul. rewrite pow_val by lia.
  rewrite (fval_of_Z (fval (pow x e) * fval (pow y e))%Z), !pow_val, fval_of_Z by lia.
  rewrite <- Zmult_mod, <- Z.pow_mul_l. pose proof p_big. symmetry. now apply Zpower_mod; lia.
Qed.
Lemma fermat x : x <> 0 -> pow x (p - 1)%Z = 1.
Proof.
  intros Hx. pose proof p_big. apply Fq_eq. rewrite pow_val by lia.
  rewrite (fermat_one p Hp); [symmetry; apply Z.mod_small; lia|].
  intros Hd. apply Hx, Fq_eq. cbn [f0 of_Z fval]. rewrite Z.mod_0_l by lia.
  pose proof (fval_range p Hp x). destruct (Z.eq_dec (fval x) 0); auto.
  apply Z.divide_pos_le in Hd; lia.
Qed.

(** Neither d nor i is a square; -1 is. *)
Lemma d_nonsquare r : r * r <> d.
Proof. exact (euler_nonsquare R Hp (rp_mod8 R RL) (d_euler R RL) r). Qed.

Lemma i_neq : i <> 0.
Proof. intros E. pose proof (i_square R RL) as H. rewrite E in H. apply one_neq. transitivity (- m1); [ring|]. rewrite <- H. ring. Qed.

Lemma i_nonsquare r : r * r <> i.
Proof.
  intros E. destruct p_form as (k & Hk & Ep).
  assert (Er : r <> 0) by (intros E0; apply i_neq; rewrite <- E, E0; ring).
  pose proof (fermat r Er) as H. replace (p - 1)%Z with (4 * (2 * k + 1))%Z in H by lia.
  assert (P4 : forall n, (0 <= n)%Z -> pow r (4 * n)%Z = pow m1 n).
  { intros n Hn. replace (4 * n)%Z with ((n + n) + (n + n))%Z by lia. rewrite !pow_add by lia.
    rewrite <- !pow_mul by lia. f_equal. rewrite E. apply (i_square R RL). }
  rewrite P4, pow_add, pow_1 in H by lia. replace (2 * k)%Z with (k + k)%Z in H by lia.
  rewrite pow_add, <- pow_mul in H by lia.
  replace (m1 * m1) with 1 in H by ring.
  assert (P1 : pow 1 k = 1).
  { apply Fq_eq. rewrite pow_val by lia. cbn [f1 of_Z fval]. pose proof p_big. rewrite Z.mod_1_l by lia.
    rewrite Z.pow_1_l by lia. apply Z.mod_1_l. lia. }
  rewrite P1 in H. apply one_neq. apply (f_neg_eq p Hp p_big). rewrite <- H at 1. ring.
Qed.

(** ** Square roots of ratios *)
Lemma fourth x : x * x * (x * x) = 1 -> x = 1 \/ x = m1 \/ x = i \/ x = - i.
Proof.
  intros H. pose proof (i_square R RL) as Hi.
  destruct (sq_eq (x * x) 1) as [E|E]; [rewrite H; ring| |].
  - assert (E' : x * x = 1 * 1) by (rewrite E; ring). apply sq_eq in E'. tauto.
  - assert (E' : x * x = i * i) by (rewrite E, Hi; reflexivity). apply sq_eq in E'. tauto.
Qed.

Lemma feqb_no x y : x <> y -> feqb p x y = false.
Proof. intros H. destruct (feqb p x y) eqn:E; auto. apply feqb_spec in E. contradiction. Qed.
Lemma feqb_yes x : feqb p x x = true.
Proof. now apply feqb_spec. Qed.

Lemma sqrt_ratio_ok u v : u <> 0 -> v <> 0 ->
  let '(b, r) := sqrt_ratio_m1 R u v in
  pos r /\ (if b then v * (r * r) = u else v * (r * r) = i * u).
Proof.
  intros Hu Hv. unfold sqrt_ratio_m1. cbv zeta.
  set (v3 := v * v * v). set (v7 := v3 * v3 * v). set (r := u * v3 * pow (u * v7) ((p - 5) / 8)%Z).
  pose proof (i_square R RL) as Hi.
  assert (Hw : u * v7 <> 0). { unfold v7, v3. repeat apply mul_neq; auto. }
  set (w := pow (u * v7) ((p - 1) / 4)%Z).
  destruct p_form as (k & Hk & Ep).
  assert (E5 : ((p - 5) / 8 = k)%Z) by (rewrite Ep; replace (8 * k + 5 - 5)%Z with (k * 8)%Z by lia; apply Z.div_mul; lia).
  assert (E1 : ((p - 1) / 4 = 2 * k + 1)%Z) by (rewrite Ep; replace (8 * k + 5 - 1)%Z with ((2 * k + 1) * 4)%Z by lia; apply Z.div_mul; lia).
  assert (Ec : v * (r * r) = u * w).
  { unfold w, r. rewrite E5, E1. replace (2 * k + 1)%Z with (k + k + 1)%Z by lia.
    rewrite !pow_add, pow_1 by lia. set (z := pow (u * v7) k). unfold v7, v3. ring. }
  assert (H4 : w * w * (w * w) = 1).
  { unfold w. rewrite <- !pow_add by lia. rewrite E1.
    replace (2 * k + 1 + (2 * k + 1) + (2 * k + 1 + (2 * k + 1)))%Z with (p - 1)%Z by lia. now apply fermat. }
  clearbody w. rewrite Ec. clearbody r.
  assert (Hcan : forall a b, a <> b -> u * a <> u * b).
  { intros a b Hab E. apply Hab. exact (cancel u a b Hu E). }
  assert (I1 : 1 <> i). { intros E. apply (i_nonsquare 1). rewrite <- E. ring. }
  assert (I2 : 1 <> - i). { intros E. apply one_neq. apply (f_neg_eq p Hp p_big).
    transitivity (1 * 1); [ring|]. rewrite E at 1 2. transitivity (i * i); [ring|exact Hi]. }
  assert (I3 : 1 <> m1). { intros E. apply one_neq. exact (f_neg_eq p Hp p_big 1 E). }
  assert (Mu : - u = u * m1) by ring. assert (Mi : - u * i = u * (- i)) by ring.
  assert (Q : forall b, w = b -> feqb p (u * w) u = feqb p b 1 /\ feqb p (u * w) (- u) = feqb p b m1 /\
     feqb p (u * w) (- u * i) = feqb p b (- i)).
  { intros b ->. rewrite Mi, Mu.
    replace (feqb p (u * b) u) with (feqb p (u * b) (u * 1)) by (f_equal; ring).
    assert (X : forall c, feqb p (u * b) (u * c) = feqb p b c).
    { intros c. destruct (fdec b c) as [->|E]; [now rewrite !feqb_yes|]. rewrite !feqb_no; auto. }
    now rewrite !X. }
  split; [apply abs_pos|].
  rewrite abs_sq.
  destruct (fourth w H4) as [E|[E|[E|E]]]; destruct (Q _ E) as (-> & -> & ->).
  - rewrite feqb_yes. rewrite !feqb_no by auto. cbn [orb]. rewrite Ec, E. ring.
  - rewrite (feqb_yes m1). rewrite (feqb_no m1 1) by auto. cbn [orb].
    transitivity ((i * i) * (v * (r * r))); [ring|]. rewrite Ec, E, Hi. ring.
  - rewrite (feqb_no i 1), (feqb_no i m1), (feqb_no i (- i)); [cbn [orb]; rewrite Ec, E; ring| | |].
    + intros E'. apply i_neq. exact (f_neg_eq p Hp p_big i E').
    + intros E'. apply (i_nonsquare i). rewrite Hi. now symmetry.
    + auto.
  - rewrite (feqb_yes (- i)). rewrite (feqb_no (- i) 1), (feqb_no (- i) m1); [cbn [orb]| |].
    + transitivity ((i * i) * (v * (r * r))); [ring|]. rewrite Ec, E, Hi. ring.
    + intros E'. apply I1. transitivity (- m1); [ring|]. rewrite <- E'. ring.
    + auto.
Qed.

Lemma sqrt_ratio_den0 u : u <> 0 -> sqrt_ratio_m1 R u 0 = (false, 0).
Proof.
  intros Hu. unfold sqrt_ratio_m1. cbv zeta. replace (u * (0 * 0 * 0)) with 0 by ring.
  set (q := pow _ _). replace (0 * q) with 0 by ring. replace (0 * (0 * 0)) with 0 by ring.
  assert (E : forall z, z <> 0 -> feqb p 0 z = false). { intros z Hz. apply feqb_no. intros E. now apply Hz. }
  rewrite !E.
  - cbn [orb]. now rewrite abs_zero.
  - intros H. apply f_int in H as [H|H]; [apply Hu; now apply opp0|now apply i_neq].
  - intros H. apply Hu. now apply opp0.
  - exact Hu.
Qed.

(** Inverse square roots. *)
Lemma invsqrt_ok w : w <> 0 ->
  let '(b, r) := sqrt_ratio_m1 R 1 w in
  if b then w * (r * r) = 1 else forall z, z * z <> w.
Proof.
  intros Hw. pose proof (sqrt_ratio_ok 1 w one_neq Hw) as H.
  destruct (sqrt_ratio_m1 R 1 w) as [[|] r]; destruct H as [_ H]; [exact H|].
  intros z E. apply (i_nonsquare (z * r)). transitivity (z * z * (r * r)); [ring|]. rewrite E, H. ring.
Qed.

(** ** Decoding *)
Definition vv (s : F) : F := - (d * ((1 - s * s) * (1 - s * s))) - (1 + s * s) * (1 + s * s).

(** What a valid [s] stands for. *)
Definition dec (s x y : F) : Prop :=
  y * (1 + s * s) = 1 - s * s /\ x * x * vv s = 2 * s * (2 * s) /\ pos x /\ pos (x * y) /\ y <> 0.

Lemma md_nonsquare a b : a * a + d * (b * b) = 0 -> a = 0 /\ b = 0.
Proof.
  intros E. pose proof (i_square R RL) as Hi. destruct (fdec b 0) as [Eb|Eb].
  - split; auto. rewrite Eb in E. assert (E' : a * a = 0) by (rewrite <- E; ring). apply f_int in E'. tauto.
  - exfalso. apply (d_nonsquare (i * a / b)). transitivity ((i * i) * (a * a) / (b * b)); [field; exact Eb|].
    replace (a * a) with (- (d * (b * b))).
    + rewrite Hi. field. exact Eb.
    + transitivity (a * a - (a * a + d * (b * b))); [ring|]. rewrite E. ring.
Qed.

Lemma vv_neq s : vv s <> 0.
Proof.
  intros E. destruct (md_nonsquare (1 + s * s) (1 - s * s)) as [E1 E2].
  - transitivity (- vv s); [unfold vv; ring|]. rewrite E. ring.
  - apply two_neq. transitivity ((1 + s * s) + (1 - s * s)); [ring|]. rewrite E1, E2. ring.
Qed.

Lemma dec_u2 s x y : dec s x y -> 1 + s * s <> 0.
Proof.
  intros (E & _) H. apply two_neq. transitivity ((1 - s * s) + (1 + s * s)); [ring|].
  rewrite <- E, H. ring.
Qed.

Lemma q_neq : SQRT_AD_MINUS_ONE R <> 0.
Proof.
  intros E. pose proof (q_square R RL) as H. rewrite E in H.
  apply (d_nonsquare i). rewrite (i_square R RL). apply sub0. transitivity (- d - 1); [ring|]. rewrite <- H. ring.
Qed.

Lemma dec_v_square s x y : dec s x y -> exists z, z * z = vv s.
Proof.
  intros (_ & E & _). destruct (fdec s 0) as [Es|Es].
  - exists (SQRT_AD_MINUS_ONE R). rewrite (q_square R RL), Es. unfold vv. ring.
  - assert (Hx : x <> 0).
    { intros Ex. apply (mul_neq (2 * s) (2 * s)); try (apply mul_neq; [exact two_neq|exact Es]).
      rewrite <- E, Ex. ring. }
    exists (2 * s / x). transitivity (2 * s * (2 * s) / (x * x)); [field; exact Hx|]. rewrite <- E. field. exact Hx.
Qed.

Lemma decode_iff s x y : decode_s R s = Some (x, y) <-> dec s x y.
Proof.
  unfold decode_s. cbv zeta. fold (vv s). set (u2 := 1 + s * s). set (u1 := 1 - s * s).
  pose proof (vv_neq s) as Hv.
  destruct (fdec u2 0) as [E2|E2].
  - replace (vv s * (u2 * u2)) with 0 by (rewrite E2; ring). rewrite (sqrt_ratio_den0 1 one_neq). cbn [negb orb].
    split; [discriminate|]. intros H. elim (dec_u2 _ _ _ H). exact E2.
  - assert (Hw : vv s * (u2 * u2) <> 0) by (repeat apply mul_neq; auto).
    pose proof (invsqrt_ok _ Hw) as H. destruct (sqrt_ratio_m1 R 1 (vv s * (u2 * u2))) as [[|] I].
    + cbn [negb orb].
      set (x' := ct_abs R (2 * s * (I * u2))). set (y' := u1 * (I * (I * u2) * vv s)).
      assert (Ex : x' * x' * vv s = 2 * s * (2 * s)).
      { unfold x'. rewrite abs_sq. transitivity (2 * s * (2 * s) * (vv s * (u2 * u2) * (I * I))); [ring|]. rewrite H. ring. }
      assert (Ey : y' * u2 = u1).
      { unfold y'. transitivity (u1 * (vv s * (u2 * u2) * (I * I))); [ring|]. rewrite H. ring. }
      assert (Px : pos x') by apply abs_pos. clearbody x' y'.
      split.
      * destruct (is_negative R (x' * y')) eqn:Et; [discriminate|]. cbn [orb].
        destruct (feqb p y' 0) eqn:Ey0; [discriminate|]. intros [= <- <-].
        unfold dec. fold u2 u1. repeat split; auto. intros E. apply feqb_spec in E. congruence.
      * intros (D1 & D2 & D3 & D4 & D5). fold u2 u1 in D1.
        assert (Y : y' = y). { apply (cancel u2); auto. transitivity (y' * u2); [ring|]. rewrite Ey, <- D1. ring. }
        assert (X : x' = x).
        { apply pos_sq; auto. apply (cancel (vv s)); auto. transitivity (x' * x' * vv s); [ring|]. rewrite Ex, <- D2. ring. }
        subst x' y'. rewrite D4. cbn [orb]. rewrite feqb_no by exact D5. reflexivity.
    + cbn [negb orb]. split; [discriminate|]. intros D. exfalso.
      destruct (dec_v_square _ _ _ D) as [z Ez]. apply (H (z * u2)). rewrite <- Ez. ring.
Qed.

Lemma dec_on s x y : dec s x y -> on_edwards p d x y = true.
Proof.
  intros D. pose proof (dec_u2 _ _ _ D) as H2. destruct D as (D1 & D2 & _). apply feqb_spec. set (u2 := 1 + s * s) in *.
  assert (Ey : y = (1 - s * s) / u2). { rewrite <- D1. field. exact H2. }
  apply (cancel (u2 * u2)); [now apply mul_neq|].
  transitivity ((1 - s * s) * (1 - s * s) - u2 * u2 * (x * x)); [rewrite Ey; field; exact H2|].
  transitivity (u2 * u2 + d * (x * x) * ((1 - s * s) * (1 - s * s))); [|rewrite Ey; field; exact H2].
  apply sub0. transitivity (x * x * vv s - 2 * s * (2 * s)); [unfold vv, u2; ring|]. rewrite D2. ring.
Qed.

(** [s] from the point. *)
Lemma dec_s_unique s s' x y : pos s -> pos s' -> dec s x y -> dec s' x y -> s = s'.
Proof.
  intros P1 P2 (E1 & _) (E2 & _). apply pos_sq; auto.
  assert (Hy : 1 + y <> 0).
  { intros E. apply two_neq. transitivity ((1 + y) * (1 + s * s) + (1 - s * s) - y * (1 + s * s)); [ring|].
    rewrite E1, E. ring. }
  apply (cancel (1 + y)); auto.
  transitivity (1 - y + (y * (1 + s * s) - (1 - s * s))); [ring|].
  transitivity (1 - y + (y * (1 + s' * s') - (1 - s' * s'))); [|ring]. rewrite E1, E2. ring.
Qed.

Lemma dec_from_y s x y : on_edwards p d x y = true -> y * (1 + s * s) = 1 - s * s ->
  pos x -> pos (x * y) -> y <> 0 -> dec s x y.
Proof.
  intros Ho E Px Pt Hy. apply feqb_spec in Ho. repeat split; auto.
  apply sub0. unfold vv. rewrite <- E. set (u := 1 + s * s) in *.
  transitivity (u * u * ((y * y - x * x) - (1 + d * x * x * y * y)) + (u * u - (u * y) * (u * y)) - 2 * s * (2 * s)); [ring|].
  rewrite Ho. replace (u * y) with (1 - s * s) by (rewrite <- E; ring). unfold u. ring.
Qed.

(** ** Even points

    The points of the curve that decoding can give, up to the four points of
    order dividing four with a zero coordinate. *)
Local Notation EP := (EPoint (rp R) (cD R)).
Local Notation X P := (ex (rp R) (cD R) P).
Local Notation Y P := (ey (rp R) (cD R) P).
Local Notation add := (eadd (rp R) (cD R) (rp_prime R RL)).
Local Notation opp := (eneg (rp R) (cD R) (rp_prime R RL)).
Local Notation id := (eid (rp R) (cD R) (rp_prime R RL)).

Lemma curve_eq P : Y P * Y P - X P * X P = 1 + d * X P * X P * Y P * Y P.
Proof. apply feqb_spec, e_on. Qed.
Lemma on_xy (P : EP) : on_edwards p d (X P) (Y P) = true.
Proof. apply e_on. Qed.
Lemma add_xy P Q : X (add P Q) = sum_ex p d (X P) (Y P) (X Q) (Y Q) /\ Y (add P Q) = sum_ey p d (X P) (Y P) (X Q) (Y Q).
Proof. exact (eadd_xy p d Hp p_big i (i_square R RL) d_nonsquare P Q). Qed.
Lemma add_den P Q : 1 + d * X P * X Q * Y P * Y Q <> 0 /\ 1 - d * X P * X Q * Y P * Y Q <> 0.
Proof. exact (complete p d Hp p_big i (i_square R RL) d_nonsquare _ _ _ _ (on_xy P) (on_xy Q)). Qed.
Lemma add_comm P Q : add P Q = add Q P.
Proof. exact (eadd_comm p d Hp p_big i (i_square R RL) d_nonsquare P Q). Qed.
Lemma add_assoc P Q T : add (add P Q) T = add P (add Q T).
Proof. exact (eadd_assoc p d Hp p_big i (i_square R RL) d_nonsquare P Q T). Qed.
Lemma add_id P : add id P = P.
Proof. exact (eadd_id p d Hp p_big i (i_square R RL) d_nonsquare P). Qed.
Lemma add_neg P : add P (opp P) = id.
Proof. exact (eadd_neg p d Hp p_big i (i_square R RL) d_nonsquare P). Qed.

Definition even_xy (y : F) : Prop := exists w, w * w = 1 + d * (y * y).
Definition even (P : EP) : Prop := even_xy (Y P).

Lemma one_plus_d : i * SQRT_AD_MINUS_ONE R * (i * SQRT_AD_MINUS_ONE R) = 1 + d.
Proof.
  transitivity (i * i * (SQRT_AD_MINUS_ONE R * SQRT_AD_MINUS_ONE R)); [ring|].
  rewrite (i_square R RL), (q_square R RL). ring.
Qed.
Lemma even_w_neq y w : w * w = 1 + d * (y * y) -> w <> 0.
Proof.
  intros E Ew. destruct (md_nonsquare 1 y) as [H _]; [|now apply one_neq].
  transitivity (w * w); [rewrite E; ring|]. rewrite Ew. ring.
Qed.
Lemma div_neq x y : x <> 0 -> y <> 0 -> x / y <> 0.
Proof. intros Hx Hy E. apply Hx. transitivity (x / y * y); [field; exact Hy|]. rewrite E. ring. Qed.

Lemma even_id : even id.
Proof. exists (i * SQRT_AD_MINUS_ONE R). rewrite one_plus_d. cbn [ey eid]. ring. Qed.
Lemma even_opp P : even P -> even (opp P).
Proof. intros H. exact H. Qed.
Lemma even_add P Q : even P -> even Q -> even (add P Q).
Proof.
  intros [w1 E1] [w2 E2]. destruct (add_den P Q) as [_ D]. destruct (add_xy P Q) as [_ Ey].
  pose proof (even_w_neq _ _ E1) as W1. pose proof (even_w_neq _ _ E2) as W2.
  pose proof (curve_eq P) as C1. pose proof (curve_eq Q) as C2.
  unfold even. rewrite Ey. unfold sum_ey. set (x1 := X P) in *. set (y1 := Y P) in *. set (x2 := X Q) in *. set (y2 := Y Q) in *.
  clearbody x1 y1 x2 y2. set (B := 1 - d * x1 * x2 * y1 * y2) in *. set (m := y1 * y2 + x1 * x2).
  pose proof one_plus_d as Q1. set (q := i * SQRT_AD_MINUS_ONE R) in *. clearbody q.
  exists ((1 + d * (y1 * y1) * (y2 * y2)) * q / (w1 * w2 * B)).
  assert (K1 : x1 * x1 * (w1 * w1) = y1 * y1 - 1).
  { rewrite E1. transitivity (x1 * x1 + d * x1 * x1 * y1 * y1); [ring|].
    transitivity ((1 + d * x1 * x1 * y1 * y1) - 1 + x1 * x1); [ring|]. rewrite <- C1. ring. }
  assert (K2 : x2 * x2 * (w2 * w2) = y2 * y2 - 1).
  { rewrite E2. transitivity (x2 * x2 + d * x2 * x2 * y2 * y2); [ring|].
    transitivity ((1 + d * x2 * x2 * y2 * y2) - 1 + x2 * x2); [ring|]. rewrite <- C2. ring. }
  assert (G : (1 + d * (x1 * x1) * (x2 * x2)) * (w1 * w1 * (w2 * w2)) = (1 + d) * (1 + d * (y1 * y1) * (y2 * y2))).
  { transitivity (w1 * w1 * (w2 * w2) + d * (x1 * x1 * (w1 * w1)) * (x2 * x2 * (w2 * w2))); [ring|].
    rewrite K1, K2, E1, E2. ring. }
  apply (cancel (w1 * w1 * (w2 * w2) * (B * B))); [repeat apply mul_neq; auto|].
  transitivity ((1 + d * (y1 * y1) * (y2 * y2)) * (1 + d * (y1 * y1) * (y2 * y2)) * (q * q)); [field; auto|].
  rewrite Q1.
  transitivity (w1 * w1 * (w2 * w2) * (B * B + d * (m * m))); [|field; auto].
  replace (B * B + d * (m * m)) with ((1 + d * (y1 * y1) * (y2 * y2)) * (1 + d * (x1 * x1) * (x2 * x2))) by (unfold B, m; ring).
  transitivity ((1 + d * (y1 * y1) * (y2 * y2)) * ((1 + d * (x1 * x1) * (x2 * x2)) * (w1 * w1 * (w2 * w2)))); [rewrite G|]; ring.
Qed.

Lemma dec_even s x y : dec s x y -> even_xy y.
Proof.
  intros D. pose proof (dec_u2 _ _ _ D) as H2. destruct (dec_v_square _ _ _ D) as [z Ez]. destruct D as (D1 & _).
  exists (i * z / (1 + s * s)). pose proof (i_square R RL) as Hi.
  assert (Ey : y = (1 - s * s) / (1 + s * s)) by (rewrite <- D1; field; exact H2).
  transitivity ((i * i) * (z * z) / ((1 + s * s) * (1 + s * s))); [field; exact H2|].
  rewrite Hi, Ez, Ey. unfold vv. field. exact H2.
Qed.

(** ** Classes of four points *)
Definition E4 (P : EP) : Prop := X P * Y P = 0.

Lemma E4_id : E4 id.
Proof. unfold E4. cbn [ex ey eid]. ring. Qed.
Lemma E4_opp P : E4 P -> E4 (opp P).
Proof. unfold E4. cbn [ex ey eneg]. intros H. transitivity (- (X P * Y P)); [ring|]. rewrite H. ring. Qed.
Lemma E4_add P Q : E4 P -> E4 Q -> E4 (add P Q).
Proof.
  unfold E4. intros H1 H2. destruct (add_xy P Q) as [-> ->]. destruct (add_den P Q) as [D1 D2]. unfold sum_ex, sum_ey.
  set (x1 := X P) in *. set (y1 := Y P) in *. set (x2 := X Q) in *. set (y2 := Y Q) in *.
  set (A := 1 + _) in *. set (B := 1 - _) in *.
  transitivity ((x1 * y1 * (y2 * y2 + x2 * x2) + x2 * y2 * (x1 * x1 + y1 * y1)) / (A * B)); [field; auto|].
  rewrite H1, H2. field. auto.
Qed.

Definition cos (P Q : EP) : Prop := E4 (add P (opp Q)).

Lemma add_id_r P : add P id = P.
Proof. rewrite add_comm. apply add_id. Qed.
Lemma add_swap P Q T U : add (add P Q) (add T U) = add (add P T) (add Q U).
Proof. exact (Cyclic.add_swap add add_comm add_assoc P Q T U). Qed.
Lemma opp_unique P Q : add P Q = id -> Q = opp P.
Proof.
  intros E. rewrite <- (add_id Q), <- (add_neg P), (add_comm P), add_assoc, E. apply add_id_r.
Qed.
Lemma opp_opp P : opp (opp P) = P.
Proof. symmetry. apply opp_unique. rewrite add_comm. apply add_neg. Qed.
Lemma opp_add P Q : opp (add P Q) = add (opp P) (opp Q).
Proof. symmetry. apply opp_unique. rewrite add_swap, !add_neg. apply add_id. Qed.

Lemma cos_refl P : cos P P.
Proof. unfold cos. rewrite add_neg. apply E4_id. Qed.
Lemma cos_sym P Q : cos P Q -> cos Q P.
Proof. unfold cos. intros H. apply E4_opp in H. rewrite opp_add, opp_opp, add_comm in H. exact H. Qed.
Lemma cos_trans P Q T : cos P Q -> cos Q T -> cos P T.
Proof.
  unfold cos. intros H1 H2. pose proof (E4_add _ _ H1 H2) as H.
  replace (add (add P (opp Q)) (add Q (opp T))) with (add P (opp T)) in H; [exact H|].
  rewrite (add_assoc P), <- (add_assoc (opp Q)), (add_comm (opp Q) Q), add_neg, add_id. reflexivity.
Qed.
Lemma cos_add P P' Q Q' : cos P P' -> cos Q Q' -> cos (add P Q) (add P' Q').
Proof.
  unfold cos. intros H1 H2. rewrite opp_add, add_swap. now apply E4_add.
Qed.
Lemma cos_opp P Q : cos P Q -> cos (opp P) (opp Q).
Proof. unfold cos. intros H. rewrite <- opp_add. now apply E4_opp. Qed.

(** The four points. *)
Lemma E4_four P : E4 P -> (X P = 0 /\ (Y P = 1 \/ Y P = m1)) \/ (Y P = 0 /\ (X P = i \/ X P = - i)).
Proof.
  intros H. pose proof (curve_eq P) as C. pose proof (i_square R RL) as Hi. apply f_int in H as [H|H].
  - left. split; auto. rewrite H in C. assert (E : Y P * Y P = 1 * 1) by (transitivity (Y P * Y P - 0 * 0); [ring|rewrite C; ring]).
    now apply sq_eq in E.
  - right. split; auto. rewrite H in C. assert (E : X P * X P = i * i).
    { rewrite Hi. transitivity (- (0 * 0 - X P * X P)); [ring|]. rewrite C. ring. }
    now apply sq_eq in E.
Qed.

Lemma cos_four P Q : cos P Q ->
  (X Q = X P /\ Y Q = Y P) \/ (X Q = - X P /\ Y Q = - Y P) \/
  (X Q = i * Y P /\ Y Q = i * X P) \/ (X Q = - (i * Y P) /\ Y Q = - (i * X P)).
Proof.
  intros H. apply cos_sym in H. unfold cos in H. set (e := add Q (opp P)) in *.
  assert (E : Q = add e P). { unfold e. rewrite add_assoc, (add_comm (opp P)), add_neg. now rewrite add_id_r. }
  clearbody e. apply E4_four in H. subst Q. destruct (add_xy e P) as [-> ->]. unfold sum_ex, sum_ey.
  destruct H as [[-> [-> | ->]]|[-> [-> | ->]]].
  - left. split; field; repeat split; try exact one_neq; intros E; apply one_neq; rewrite <- E; ring.
  - right. left. split; field; repeat split; try exact one_neq; intros E; apply one_neq; rewrite <- E; ring.
  - right. right. left. split; field; repeat split; try exact one_neq; intros E; apply one_neq; rewrite <- E; ring.
  - right. right. right. split; field; repeat split; try exact one_neq; intros E; apply one_neq; rewrite <- E; ring.
Qed.

Lemma cos_of_xy P Q x y : X Q = x -> Y Q = y ->
  (x = X P /\ y = Y P) \/ (x = - X P /\ y = - Y P) \/
  (x = i * Y P /\ y = i * X P) \/ (x = - (i * Y P) /\ y = - (i * X P)) -> cos P Q.
Proof.
  intros Ex Ey H. unfold cos, E4. destruct (add_xy P (opp Q)) as [-> ->]. destruct (add_den P (opp Q)) as [D1 D2].
  unfold sum_ex, sum_ey. cbn [ex ey eneg] in *. rewrite Ex, Ey in *.
  set (A := 1 + _) in *. set (B := 1 - _) in *.
  transitivity ((X P * y + Y P * - x) * (Y P * y + X P * - x) / (A * B)); [field; auto|].
  replace ((X P * y + Y P * - x) * (Y P * y + X P * - x)) with 0; [field; auto|].
  pose proof (i_square R RL) as Hi.
  destruct H as [[-> ->]|[[-> ->]|[[-> ->]|[-> ->]]]]; ring.
Qed.

(** RFC 9496, section 4.3.3, decides this relation. *)
Lemma equals_cos P Q : equals R (X P) (Y P) (X Q) (Y Q) = true <-> cos P Q.
Proof.
  unfold equals. rewrite orb_true_iff, !feqb_spec. unfold cos, E4.
  destruct (add_xy P (opp Q)) as [-> ->]. destruct (add_den P (opp Q)) as [D1 D2].
  unfold sum_ex, sum_ey. cbn [ex ey eneg] in *.
  set (A := 1 + _) in *. set (B := 1 - _) in *.
  split.
  - intros H. transitivity ((X P * Y Q - Y P * X Q) * (Y P * Y Q - X P * X Q) / (A * B)); [field; auto|].
    destruct H as [H|H]; rewrite H; field; auto.
  - intros H. destruct (f_int (X P * Y Q - Y P * X Q) (Y P * Y Q - X P * X Q)) as [E|E].
    + transitivity (A * B * ((X P * Y Q + Y P * - X Q) / A * ((Y P * Y Q + X P * - X Q) / B))); [field; auto|].
      rewrite H. ring.
    + left. now apply sub0.
    + right. now apply sub0.
Qed.

(** ** The point that represents a class *)
Definition canon (x y : F) : Prop := pos x /\ pos (x * y) /\ y <> 0 /\ (x = 0 -> y = 1).

Lemma canon_unique P Q : canon (X P) (Y P) -> canon (X Q) (Y Q) -> cos P Q -> P = Q.
Proof.
  intros (P1 & P2 & P3 & P4) (Q1 & Q2 & Q3 & Q4) H. pose proof (i_square R RL) as Hi.
  destruct (cos_four _ _ H) as [[E1 E2]|[[E1 E2]|[[E1 E2]|[E1 E2]]]].
  - now apply EPoint_eq.
  - exfalso. rewrite E1 in Q1. assert (Z : X P = 0) by now apply pos_pos.
    apply one_neq. apply (f_neg_eq p Hp p_big). rewrite <- Q4 at 1; [rewrite E2, P4; auto|]. rewrite E1, Z. ring.
  - exfalso. assert (T : X Q * Y Q = - (X P * Y P)). { rewrite E1, E2. transitivity (i * i * (X P * Y P)); [ring|]. rewrite Hi. ring. }
    rewrite T in Q2. pose proof (pos_pos _ P2 Q2) as Z. apply f_int in Z as [Z|Z]; [|contradiction].
    apply Q3. rewrite E2, Z. ring.
  - exfalso. assert (T : X Q * Y Q = - (X P * Y P)). { rewrite E1, E2. transitivity (i * i * (X P * Y P)); [ring|]. rewrite Hi. ring. }
    rewrite T in Q2. pose proof (pos_pos _ P2 Q2) as Z. apply f_int in Z as [Z|Z]; [|contradiction].
    apply Q3. rewrite E2, Z. ring.
Qed.

Lemma dec_canon s x y : dec s x y -> canon x y.
Proof.
  intros (D1 & D2 & D3 & D4 & D5). repeat split; auto. intros Ex. rewrite Ex in D2.
  assert (Es : 2 * s * (2 * s) = 0) by (rewrite <- D2; ring).
  assert (Z : s = 0). { apply f_int in Es as [E|E]; apply f_int in E as [E|E]; auto; elim two_neq; exact E. }
  transitivity (y * (1 + s * s)); [rewrite Z; ring|]. rewrite D1, Z. ring.
Qed.

Lemma dec_zero : dec 0 0 1.
Proof.
  split; [ring|]. split; [ring|]. split; [exact neg_zero|]. split; [|exact one_neq].
  replace (0 * 1) with 0 by ring. exact neg_zero.
Qed.

(** Encoding an even point, then decoding: a point of the same class. *)
Lemma half_arg y s : 1 + y <> 0 -> s * s = (1 - y) / (1 + y) -> y * (1 + s * s) = 1 - s * s.
Proof. intros Hy ->. field. exact Hy. Qed.

Lemma sign_choice (x y : F) (b : bool) : b = neg x ->
  exists s, (s = 1 \/ s = m1) /\ (if b then - y else y) = s * y /\ pos (s * x).
Proof.
  intros ->. destruct (neg x) eqn:E.
  - exists m1. repeat split; auto; [ring|]. replace (m1 * x) with (- x) by ring. now apply neg_pos.
  - exists 1. repeat split; auto; [ring|]. replace (1 * x) with x by ring. exact E.
Qed.

Lemma encode_spec P : even P -> exists Q,
  dec (encode_point R P) (X Q) (Y Q) /\ cos P Q /\ pos (encode_point R P).
Proof.
  intros [w Ew]. pose proof (curve_eq P) as C. pose proof (i_square R RL) as Hi.
  pose proof (c_square R RL) as Hc.
  assert (Hps : pos (encode_point R P)).
  { unfold encode_point, encode_s. cbv zeta. destruct (sqrt_ratio_m1 R 1 _). apply abs_pos. }
  destruct (fdec (X P * Y P) 0) as [Z|Z].
  - (* the class of the identity *)
    exists id. split; [|split; [|exact Hps]].
    + cbn [ex ey eid]. replace (encode_point R P) with 0; [exact dec_zero|].
      unfold encode_point, encode_s. cbv zeta. rewrite Z.
      replace ((1 + Y P) * (1 - Y P) * (0 * 0)) with 0 by ring.
      rewrite (sqrt_ratio_den0 1 one_neq). cbv beta iota.
      match goal with |- 0 = ct_abs R ?a => replace a with 0; [now rewrite abs_zero|] end.
      destruct (neg (0 * _)); destruct (neg _); ring.
    + apply cos_sym. unfold cos. rewrite add_id. now apply E4_opp.
  - assert (Hx : X P <> 0) by now apply mul_neq_l in Z.
    assert (Hy : Y P <> 0) by now apply mul_neq_r in Z.
    pose proof (even_w_neq _ _ Ew) as Hw.
    set (x := X P) in *. set (y := Y P) in *.
    assert (K : x * x * (w * w) = y * y - 1).
    { rewrite Ew. transitivity ((1 + d * x * x * y * y) - 1 + x * x); [ring|]. rewrite <- C. ring. }
    assert (U : (1 + y) * (1 - y) = i * x * w * (i * x * w)).
    { transitivity ((i * i) * (x * x * (w * w))); [rewrite Hi, K|]; ring. }
    assert (U0 : (1 + y) * (1 - y) <> 0) by (rewrite U; repeat apply mul_neq; auto; exact i_neq).
    revert Hps. unfold encode_point, encode_s. fold x y. cbv zeta. set (u1 := (1 + y) * (1 - y)) in *.
    assert (Hd : u1 * (x * y * (x * y)) <> 0) by (apply mul_neq; [exact U0|apply mul_neq; exact Z]).
    pose proof (invsqrt_ok _ Hd) as HI. destruct (sqrt_ratio_m1 R 1 (u1 * (x * y * (x * y)))) as [[|] I].
    2:{ exfalso. apply (HI (i * x * w * (x * y))). rewrite U. ring. }
    assert (HI0 : I <> 0). { intros E. apply one_neq. rewrite <- HI, E. ring. }
    replace (I * u1 * (I * (x * y)) * (x * y)) with 1 by (rewrite <- HI; ring).
    replace (x * y * 1) with (x * y) by ring.
    set (c := INVSQRT_A_MINUS_D R) in *.
    assert (G : u1 * (1 + x * x) = (m1 - d) * (x * x * (y * y))).
    { transitivity (1 - (y * y - x * x) - x * x * (y * y)); [unfold u1; ring|]. rewrite C. ring. }
    assert (Hx1 : 1 + x * x <> 0).
    { intros E. assert (T : (m1 - d) * (x * x * (y * y)) = 0) by (rewrite <- G, E; ring).
      apply f_int in T as [T|T].
      - apply one_neq. rewrite <- Hc, T. ring.
      - apply Z. apply f_int in T as [T|T]; [elim (mul_neq x x Hx Hx T)|elim (mul_neq y y Hy Hy T)]. }
    assert (Fin : forall x' y' D, on_edwards p d x' y' = true -> cos P (epoint p d Hp x' y') -> pos x' -> pos (x' * y') -> y' <> 0 ->
      1 - y' <> 0 -> 1 + y' <> 0 -> D * D * ((1 - y') * (1 + y')) = 1 -> pos (ct_abs R (D * (1 - y'))) ->
      exists Q, dec (ct_abs R (D * (1 - y'))) (X Q) (Y Q) /\ cos P Q /\ pos (ct_abs R (D * (1 - y')))).
    { intros x' y' D Ho Hcos Hpx Hpt Hy' Hm Hpl HD Hps. exists (epoint p d Hp x' y').
      split; [|split; [exact Hcos|exact Hps]]. rewrite (epoint_on _ _ _ _ _ Ho). cbn [ex ey].
      apply dec_from_y; auto. apply half_arg; auto. rewrite abs_sq.
      transitivity (D * D * ((1 - y') * (1 + y')) * (1 - y') / (1 + y')); [field; exact Hpl|]. rewrite HD. field. exact Hpl. }
    destruct (neg (x * y)) eqn:Er.
    + (* rotated *)
      intros Hps.
      destruct (sign_choice (y * i * 1) (x * i) (neg (y * i * 1)) eq_refl) as (sg & Hsg & Es & Pos).
      rewrite Es in *. replace (sg * (y * i * 1)) with (sg * (y * i)) in Pos by ring.
      assert (S1 : sg * sg = 1) by (destruct Hsg as [-> | ->]; ring).
      assert (Sn : sg <> 0) by (destruct Hsg as [-> | ->]; [exact one_neq|intros E; apply one_neq; now apply opp0]).
      assert (Q1 : (1 - sg * (x * i)) * (1 + sg * (x * i)) = 1 + x * x).
      { transitivity (1 - (sg * sg) * (i * i) * (x * x)); [ring|]. rewrite S1, Hi. ring. }
      assert (Hon : on_edwards p d (sg * (y * i)) (sg * (x * i)) = true).
      { apply feqb_spec. transitivity ((sg * sg) * (i * i) * (x * x - y * y)); [ring|].
        transitivity (1 + d * ((sg * sg) * (i * i) * (y * y)) * ((sg * sg) * (i * i) * (x * x))); [|ring].
        rewrite S1, Hi. transitivity (y * y - x * x); [ring|]. rewrite C. ring. }
      apply (Fin (sg * (y * i)) (sg * (x * i)) (I * u1 * c)); auto.
      * eapply cos_of_xy; try reflexivity. rewrite (epoint_on _ _ _ _ _ Hon). cbn [ex ey]. fold x y.
        destruct Hsg as [-> | ->]; [right; right; left|right; right; right]; split; ring.
      * replace (sg * (y * i) * (sg * (x * i))) with ((sg * sg) * (i * i) * (x * y)) by ring.
        rewrite S1, Hi. replace (1 * m1 * (x * y)) with (- (x * y)) by ring. now apply neg_pos.
      * repeat apply mul_neq; auto. exact i_neq.
      * rewrite <- Q1 in Hx1. now apply mul_neq_l in Hx1.
      * rewrite <- Q1 in Hx1. now apply mul_neq_r in Hx1.
      * rewrite Q1. transitivity (I * I * c * c * u1 * (u1 * (1 + x * x))); [ring|]. rewrite G.
        transitivity ((u1 * (x * y * (x * y)) * (I * I)) * (c * c * (m1 - d))); [ring|]. rewrite HI, Hc. ring.
    + intros Hps.
      destruct (sign_choice (x * 1) y (neg (x * 1)) eq_refl) as (sg & Hsg & Es & Pos).
      rewrite Es in *. replace (sg * (x * 1)) with (sg * x) in Pos by ring.
      assert (S1 : sg * sg = 1) by (destruct Hsg as [-> | ->]; ring).
      assert (Sn : sg <> 0) by (destruct Hsg as [-> | ->]; [exact one_neq|intros E; apply one_neq; now apply opp0]).
      assert (Q1 : (1 - sg * y) * (1 + sg * y) = u1).
      { transitivity (1 - (sg * sg) * (y * y)); [ring|]. rewrite S1. unfold u1. ring. }
      assert (Hon : on_edwards p d (sg * x) (sg * y) = true).
      { apply feqb_spec. transitivity ((sg * sg) * (y * y - x * x)); [ring|].
        transitivity (1 + d * ((sg * sg) * (x * x)) * ((sg * sg) * (y * y))); [|ring].
        rewrite S1. transitivity (y * y - x * x); [ring|]. rewrite C. ring. }
      apply (Fin (sg * x) (sg * y) (I * (x * y))); auto.
      * eapply cos_of_xy; try reflexivity. rewrite (epoint_on _ _ _ _ _ Hon). cbn [ex ey]. fold x y.
        destruct Hsg as [-> | ->]; [left|right; left]; split; ring.
      * replace (sg * x * (sg * y)) with ((sg * sg) * (x * y)) by ring.
        rewrite S1. replace (1 * (x * y)) with (x * y) by ring. exact Er.
      * now apply mul_neq.
      * rewrite <- Q1 in U0. now apply mul_neq_l in U0.
      * rewrite <- Q1 in U0. now apply mul_neq_r in U0.
      * rewrite Q1, <- HI. ring.
Qed.

Local Notation rep := (rep R (rp_prime R RL)).

Lemma rep_spec P : even P -> exists Q,
  rep P = Q /\ decode_s R (encode_point R P) = Some (X Q, Y Q) /\ cos P Q /\ even Q /\ canon (X Q) (Y Q).
Proof.
  intros H. destruct (encode_spec P H) as (Q & D & Hc & _). exists Q.
  assert (E : decode_s R (encode_point R P) = Some (X Q, Y Q)) by now apply decode_iff.
  unfold Rist255.rep. rewrite E. split; [|split; [reflexivity|]].
  - rewrite (epoint_on _ _ _ _ _ (on_xy Q)). now apply EPoint_eq.
  - split; [exact Hc|]. split; [exact (dec_even _ _ _ D)|exact (dec_canon _ _ _ D)].
Qed.

Lemma rep_canon P : even P -> canon (X P) (Y P) -> rep P = P.
Proof.
  intros H C. destruct (rep_spec P H) as (Q & -> & _ & Hc & _ & CQ). symmetry. now apply canon_unique.
Qed.

Lemma id_canon : canon (X id) (Y id).
Proof. exact (dec_canon _ _ _ dec_zero). Qed.
Lemma id_rep : epeqb p d (rep id) id = true.
Proof. apply epeqb_spec. apply rep_canon; [exact even_id|exact id_canon]. Qed.

(** ** The group *)
Local Notation RP := (RP R (rp_prime R RL)).
Local Notation pt := (rpt R (rp_prime R RL)).
Local Notation class := (class R (rp_prime R RL) id_rep).
Local Notation rid := (rid R (rp_prime R RL) id_rep).
Local Notation radd := (radd R (rp_prime R RL) id_rep).

Lemma rep_even P : rep P = P -> even P /\ canon (X P) (Y P).
Proof.
  unfold Rist255.rep. destruct (decode_s R (encode_point R P)) as [[x y]|] eqn:E; intros HP.
  - apply decode_iff in E. pose proof (dec_on _ _ _ E) as Ho. rewrite (epoint_on _ _ _ _ _ Ho) in HP.
    assert (Ex : X P = x) by now rewrite <- HP. assert (Ey : Y P = y) by now rewrite <- HP.
    unfold even. rewrite Ex, Ey. split; [exact (dec_even _ _ _ E)|exact (dec_canon _ _ _ E)].
  - split.
    + exact (eq_ind id even even_id P HP).
    + exact (eq_ind id (fun P => canon (X P) (Y P)) id_canon P HP).
Qed.
Lemma rp_even (P : RP) : even (pt P) /\ canon (X (pt P)) (Y (pt P)).
Proof. apply rep_even. apply epeqb_spec. exact (rpt_rep _ _ P). Qed.

Lemma mk_rp_pt none P : even P -> canon (X P) (Y P) -> pt (mk_rp R (rp_prime R RL) none P) = P.
Proof.
  intros H C. unfold mk_rp. destruct (Bool.bool_dec _ _) as [E|E]; [reflexivity|]. elim E.
  apply epeqb_spec. now apply rep_canon.
Qed.

Lemma class_pt P : even P -> pt (class P) = rep P.
Proof.
  intros H. unfold Rist255.class. destruct (rep_spec P H) as (Q & -> & _ & _ & HQ & CQ). now apply mk_rp_pt.
Qed.
Lemma class_cos P : even P -> cos P (pt (class P)).
Proof. intros H. rewrite class_pt by exact H. destruct (rep_spec P H) as (Q & -> & _ & Hc & _). exact Hc. Qed.

Lemma pt_cos (P Q : RP) : cos (pt P) (pt Q) -> P = Q.
Proof. intros H. apply RP_eq. apply canon_unique; auto; apply rp_even. Qed.
Lemma class_eq P Q : even P -> even Q -> (class P = class Q <-> cos P Q).
Proof.
  intros HP HQ. pose proof (class_cos P HP) as C1. pose proof (class_cos Q HQ) as C2. split.
  - intros E. rewrite E in C1. apply (cos_trans _ _ _ C1). now apply cos_sym.
  - intros H. apply pt_cos. apply (cos_trans _ P); [now apply cos_sym|]. apply (cos_trans _ Q); auto.
Qed.
Lemma class_of_pt (P : RP) : class (pt P) = P.
Proof. apply pt_cos, cos_sym, class_cos, rp_even. Qed.
Lemma rid_class : rid = class id.
Proof. symmetry. exact (class_of_pt rid). Qed.
Lemma radd_class P Q : even P -> even Q -> radd (class P) (class Q) = class (add P Q).
Proof.
  intros HP HQ. unfold Rist255.radd. apply class_eq.
  - apply even_add; apply rp_even.
  - now apply even_add.
  - apply cos_add; apply cos_sym; now apply class_cos.
Qed.

Lemma radd_comm P Q : radd P Q = radd Q P.
Proof. unfold Rist255.radd. now rewrite add_comm. Qed.
Lemma radd_assoc P Q T : radd (radd P Q) T = radd P (radd Q T).
Proof.
  rewrite <- (class_of_pt P), <- (class_of_pt Q), <- (class_of_pt T).
  destruct (rp_even P) as [HP _], (rp_even Q) as [HQ _], (rp_even T) as [HT _].
  rewrite !radd_class; auto using even_add. now rewrite add_assoc.
Qed.
Lemma radd_id P : radd rid P = P.
Proof.
  rewrite rid_class, <- (class_of_pt P). destruct (rp_even P) as [HP _].
  rewrite radd_class; auto using even_id. now rewrite add_id.
Qed.
Definition rneg (P : RP) : RP := class (opp (pt P)).
Lemma radd_neg P : radd P (rneg P) = rid.
Proof.
  unfold rneg. rewrite <- (class_of_pt P) at 1. destruct (rp_even P) as [HP _].
  rewrite radd_class; auto using even_opp. now rewrite add_neg, rid_class.
Qed.

Lemma zmul_class k P : (0 <= k)%Z -> even P ->
  zmul radd rid k (class P) = class (zmul add id k P) /\ even (zmul add id k P).
Proof.
  intros Hk HP. rewrite (zmul_nmul radd rid radd_comm radd_assoc radd_id), (zmul_nmul add id add_comm add_assoc add_id).
  induction (Z.to_nat k) as [|n [IH1 IH2]]; cbn [nmul].
  - split; [apply rid_class|apply even_id].
  - rewrite IH1, radd_class by auto. split; auto using even_add.
Qed.

Lemma req_spec (P Q : RP) : req R (rp_prime R RL) P Q = true <-> P = Q.
Proof.
  unfold req. rewrite equals_cos. split; [apply pt_cos|]. intros ->. apply cos_refl.
Qed.

(** ** Counting *)
Definition sof (P : RP) : F := encode_point R (pt P).
Lemma sof_dec P : dec (sof P) (X (pt P)) (Y (pt P)) /\ pos (sof P).
Proof.
  destruct (rp_even P) as [HP CP]. destruct (encode_spec _ HP) as (Q & D & Hc & Hs). split; [|exact Hs].
  rewrite (canon_unique (pt P) Q); auto. exact (dec_canon _ _ _ D).
Qed.
Lemma sof_inj P Q : sof P = sof Q -> P = Q.
Proof.
  intros E. destruct (sof_dec P) as [DP _], (sof_dec Q) as [DQ _]. rewrite <- E in DQ.
  apply decode_iff in DP, DQ. rewrite DP in DQ. apply RP_eq, EPoint_eq; congruence.
Qed.
Lemma sof_rid : sof rid = 0.
Proof.
  destruct (sof_dec rid) as [D Hs]. cbn [rpt Rist255.rid] in D. apply (dec_s_unique _ 0 0 1); auto using neg_zero, dec_zero.
Qed.
Lemma sof_neq P : P <> rid -> sof P <> 0.
Proof. intros H E. apply H, sof_inj. now rewrite sof_rid. Qed.

Lemma dec_inverse s t x1 y1 x2 y2 : s <> 0 -> dec s x1 y1 -> dec t x2 y2 -> s * s * (t * t) <> 1.
Proof.
  intros H0 DP DQ E.
  pose proof (dec_u2 _ _ _ DP) as UP. pose proof (dec_u2 _ _ _ DQ) as UQ.
  destruct DP as (P1 & P2 & P3 & P4 & P5), DQ as (Q1 & Q2 & Q3 & Q4 & Q5).
  assert (EY : y2 = - y1).
  { apply (cancel (1 + s * s)); auto. transitivity (s * s * (y2 * (1 + t * t)) + y2 * (1 - s * s * (t * t))); [ring|].
    rewrite Q1, E. transitivity (- (y1 * (1 + s * s))); [rewrite P1|ring].
    transitivity (s * s - s * s * (t * t)); [ring|]. rewrite E. ring. }
  assert (EV : vv s = s * s * (s * s) * vv t).
  { set (w := s * s) in *. set (z := t * t) in *. unfold vv. fold w z.
    transitivity (- (d * ((w * z - w) * (w * z - w))) - (w * z + w) * (w * z + w)); [rewrite E; ring|ring]. }
  assert (EX : x2 = x1).
  { apply pos_sq; auto. apply (cancel (vv s)); [apply vv_neq|].
    transitivity (x1 * x1 * vv s); [|ring]. rewrite P2, EV.
    transitivity (s * s * (s * s) * (x2 * x2 * vv t)); [ring|]. rewrite Q2.
    transitivity (2 * 2 * (s * s) * (s * s * (t * t))); [ring|]. rewrite E. ring. }
  rewrite EX, EY in Q4. replace (x1 * - y1) with (- (x1 * y1)) in Q4 by ring.
  pose proof (pos_pos _ P4 Q4) as Z. apply f_int in Z as [Z|Z]; [|exact (P5 Z)].
  rewrite Z in P2. assert (T : 2 * s * (2 * s) = 0) by (rewrite <- P2; ring).
  revert T. apply mul_neq; apply mul_neq; auto; exact two_neq.
Qed.
Lemma sof_inverse P Q : P <> rid -> sof P * sof P * (sof Q * sof Q) <> 1.
Proof.
  intros HP. exact (dec_inverse _ _ _ _ _ _ (sof_neq P HP) (proj1 (sof_dec P)) (proj1 (sof_dec Q))).
Qed.

(** Four numbers for every element other than the identity. *)
Definition fours (s : F) : list F := [s; - s; finv p s; - finv p s].
Lemma fours_distinct s : s <> 0 -> s * s * (s * s) <> 1 -> NoDup (fours s).
Proof.
  intros H0 H4. unfold fours.
  assert (Hi0 : finv p s <> 0). { intros E. apply one_neq. transitivity (s * finv p s); [field; exact H0|]. rewrite E. ring. }
  assert (S1 : forall z : F, z <> 0 -> z <> - z). { intros z Hz E. apply Hz. exact (f_neg_eq p Hp p_big z E). }
  assert (S2 : s <> finv p s).
  { intros E. apply H4. transitivity (s * finv p s * (s * finv p s)); [rewrite <- E; ring|field; exact H0]. }
  assert (S3 : s <> - finv p s).
  { intros E. apply H4. transitivity ((s * - finv p s) * (s * - finv p s)); [rewrite <- E; ring|field; exact H0]. }
  assert (S4 : finv p s <> - s). { intros E. apply S3. rewrite E. ring. }
  assert (S5 : - finv p s <> - s). { intros E. apply S2. transitivity (- - s); [ring|]. rewrite <- E. ring. }
  pose proof (S1 s H0) as S6. pose proof (S1 _ Hi0) as S7.
  repeat constructor; cbn [In]; intuition congruence.
Qed.
Lemma fours_sq s z : s <> 0 -> In z (fours s) -> z * z = s * s \/ z * z * (s * s) = 1.
Proof.
  intros H0 Hin. unfold fours in Hin.
  cbn [In] in Hin. destruct Hin as [<-|[<-|[<-|[<-|[]]]]]; [left; ring|left; ring|right; field; exact H0|right; field; exact H0].
Qed.
Lemma fours_neq s z : s <> 0 -> In z (fours s) -> z <> 0.
Proof.
  intros H0 Hin E. destruct (fours_sq s z H0 Hin) as [H|H]; rewrite E in H.
  - apply (mul_neq _ _ H0 H0). rewrite <- H. ring.
  - apply one_neq. rewrite <- H. ring.
Qed.
Lemma fours_meet s t z : s <> 0 -> t <> 0 -> pos s -> pos t -> In z (fours s) -> In z (fours t) ->
  s * s * (t * t) <> 1 -> s = t.
Proof.
  intros Hs Ht Ps Pt H1 H2 NI. pose proof (fours_neq s z Hs H1) as Hz.
  destruct (fours_sq s z Hs H1) as [E1|E1], (fours_sq t z Ht H2) as [E2|E2].
  - apply pos_sq; auto. now rewrite <- E1, <- E2.
  - exfalso. apply NI. now rewrite <- E1.
  - exfalso. apply NI. rewrite <- E2. rewrite <- E1. ring.
  - apply pos_sq; auto. apply (cancel (z * z)); [now apply mul_neq|]. now rewrite E1, E2.
Qed.
Definition four (P : RP) : list F := fours (sof P).
Lemma four_nodup P : P <> rid -> NoDup (four P).
Proof. intros HP. exact (fours_distinct (sof P) (sof_neq P HP) (sof_inverse P P HP)). Qed.
Lemma four_neq P z : P <> rid -> In z (four P) -> z <> 0.
Proof. intros HP. exact (fours_neq (sof P) z (sof_neq P HP)). Qed.
Lemma four_disjoint P Q z : P <> rid -> Q <> rid -> In z (four P) -> In z (four Q) -> P = Q.
Proof.
  intros HP HQ H1 H2. apply sof_inj.
  exact (fours_meet (sof P) (sof Q) z (sof_neq P HP) (sof_neq Q HQ) (proj2 (sof_dec P)) (proj2 (sof_dec Q)) H1 H2 (sof_inverse P Q HP)).
Qed.

Lemma fours_nodup l : NoDup l -> ~ In rid l -> NoDup (flat_map four l).
Proof.
  induction 1 as [|P l HP Hl IH]; intros Hr; cbn [flat_map]; [constructor|].
  apply app_nodup.
  - apply four_nodup. intros E. apply Hr. left. exact E.
  - apply IH. intros H. apply Hr. now right.
  - intros z Hz Hin. apply in_flat_map in Hin as (Q & HQ & Hz'). apply HP.
    replace P with Q; [exact HQ|]. symmetry. apply (four_disjoint P Q z); auto.
    + intros E. apply Hr. left. exact E.
    + intros E. apply Hr. right. now rewrite <- E.
Qed.
Lemma fours_length l : length (flat_map four l) = (4 * length l)%nat.
Proof. induction l as [|P l IH]; cbn [flat_map]; [reflexivity|]. rewrite app_length, IH. unfold four, fours. cbn [length]. lia. Qed.

Lemma nonzero_count (l : list F) : NoDup l -> ~ In 0 l -> (Z.of_nat (length l) <= p - 1)%Z.
Proof.
  intros Hl H0. pose proof p_big as Hb.
  assert (Hn : NoDup (map (@fval p) l)).
  { clear H0. induction Hl as [|x l Hx Hl IH]; cbn; constructor; auto. intros Hin.
    apply in_map_iff in Hin as (y & E & Hy). apply Fq_eq in E. now subst. }
  assert (Hi : incl (map (@fval p) l) (map Z.of_nat (seq 1 (Z.to_nat (p - 1))))).
  { intros z Hz. apply in_map_iff in Hz as (x & <- & Hx). pose proof (fval_range p Hp x) as Hr.
    assert (fval x <> 0%Z).
    { intros E. apply H0. replace 0 with x; [exact Hx|]. apply Fq_eq. rewrite E. cbn [f0 of_Z fval]. now rewrite Z.mod_0_l by lia. }
    apply in_map_iff. exists (Z.to_nat (fval x)). split; [lia|]. apply in_seq. lia. }
  pose proof (NoDup_incl_length Hn Hi) as H. rewrite !map_length, seq_length in H. lia.
Qed.

Lemma rp_dec (P Q : RP) : {P = Q} + {P <> Q}.
Proof.
  destruct (req R (rp_prime R RL) P Q) eqn:E; [left|right].
  - now apply req_spec.
  - intros H. apply req_spec in H. congruence.
Qed.

Lemma rp_bound (l : list RP) : NoDup l -> (Z.of_nat (length l) < 2 * ell)%Z.
Proof.
  intros Hl. pose proof (rp_count R RL) as Hc.
  assert (Hk : forall k : list RP, NoDup k -> ~ In rid k -> (4 * Z.of_nat (length k) <= p - 1)%Z).
  { intros k Hk Hr. pose proof (nonzero_count _ (fours_nodup k Hk Hr)) as H. rewrite fours_length in H.
    rewrite Nat2Z.inj_mul in H. apply H. intros Hin. apply in_flat_map in Hin as (P & HP & Hz).
    apply (four_neq P 0); auto. intros E. apply Hr. now rewrite <- E. }
  destruct (in_dec rp_dec rid l) as [Hin|Hout].
  - apply in_split in Hin as (l1 & l2 & ->). apply NoDup_remove in Hl as [Hl Hr].
    specialize (Hk _ Hl Hr). rewrite app_length in *. cbn [length]. lia.
  - specialize (Hk _ Hl Hout). lia.
Qed.

(** ** The base point and multiplication *)
Local Notation B := (epoint (rp R) (cD R) (rp_prime R RL) (of_Z (rp R) (rbx R)) (of_Z (rp R) (rby R))).
Local Notation rbase := (rbase R (rp_prime R RL) id_rep).

Lemma B_even : even B.
Proof. unfold even. rewrite (epoint_on _ _ _ _ _ (base_on R RL)). exact (base_even R RL). Qed.
Lemma rbase_neq : rbase <> rid.
Proof.
  unfold Rist255.rbase. rewrite rid_class. intros E. apply class_eq in E; [|exact B_even|exact even_id].
  apply cos_sym in E. unfold cos in E. rewrite add_id in E. apply E4_opp in E. rewrite opp_opp in E.
  unfold E4 in E. rewrite (epoint_on _ _ _ _ _ (base_on R RL)) in E. exact (base_nontrivial R RL E).
Qed.
Lemma ell_pos : (0 < ell)%Z.
Proof. apply Z.ltb_lt. vm_compute. reflexivity. Qed.
Lemma ell_neq2 : ell <> 2%Z.
Proof. intros E. apply Z.eqb_eq in E. revert E. vm_compute. discriminate. Qed.
Lemma rbase_order : zmul radd rid ell rbase = rid.
Proof.
  unfold Rist255.rbase. pose proof ell_pos. rewrite (proj1 (zmul_class ell B (Z.lt_le_incl _ _ H) B_even)).
  rewrite (base_order R RL). symmetry. exact rid_class.
Qed.

Lemma rbase_generates P : exists k, (0 <= k < ell)%Z /\ P = zmul radd rid k rbase.
Proof.
  exact (generated_small radd rid radd_comm radd_assoc radd_id rneg radd_neg rp_dec ell rbase ell_prime ell_neq2
           rbase_order rbase_neq rp_bound P).
Qed.
Lemma ell_torsion P : zmul radd rid ell P = rid.
Proof.
  destruct (rbase_generates P) as (k & Hk & ->). pose proof ell_pos.
  rewrite (zmul_mul radd rid radd_comm radd_assoc radd_id), Z.mul_comm by lia.
  rewrite <- (zmul_mul radd rid radd_comm radd_assoc radd_id), rbase_order by lia.
  apply (zmul_zero radd rid radd_comm radd_assoc radd_id).
Qed.

(** ** Encodings as bytes *)
Local Notation rcompress := (rcompress R (rp_prime R RL)).
Local Notation rdecompress := (rdecompress R (rp_prime R RL) id_rep).

Lemma p_le_256 : (p <= 256 ^ Z.of_nat 32)%Z.
Proof. pose proof (rp_fits R RL). assert (2 ^ 255 <= 256 ^ Z.of_nat 32)%Z by (apply Z.leb_le; vm_compute; reflexivity). lia. Qed.

Lemma rcompress_sof P : rcompress P = le_bytes (fval (sof P)) 32.
Proof. unfold Rist255.rcompress, encode, sof, encode_point. reflexivity. Qed.
Lemma le_Z_sof P : le_Z (rcompress P) = fval (sof P).
Proof. rewrite rcompress_sof. apply le_Z_bytes. pose proof (fval_range p Hp (sof P)). pose proof p_le_256. lia. Qed.

Lemma rdecompress_compress P : rdecompress (rcompress P) = Some P.
Proof.
  unfold Rist255.rdecompress, decode. rewrite le_Z_sof, of_Z_fval.
  destruct (sof_dec P) as [D Hs]. rewrite Hs. pose proof (fval_range p Hp (sof P)) as Hr.
  replace (length (rcompress P)) with 32%nat by (rewrite rcompress_sof; symmetry; apply le_bytes_length).
  rewrite Nat.eqb_refl. replace (fval (sof P) <? p)%Z with true by (symmetry; apply Z.ltb_lt; lia). cbn [andb negb].
  apply decode_iff in D. rewrite D. f_equal. apply RP_eq.
  replace (epoint p d Hp (X (pt P)) (Y (pt P))) with (pt P).
  - apply mk_rp_pt; apply rp_even.
  - rewrite (epoint_on _ _ _ _ _ (on_xy (pt P))). now apply EPoint_eq.
Qed.

Lemma some_inj A (a b : A) : Some a = Some b -> a = b.
Proof. intros H. now injection H. Qed.
Lemma rdecompress_canonical b P : rdecompress b = Some P -> rcompress P = b.
Proof.
  unfold Rist255.rdecompress, decode.
  destruct (Nat.eqb_spec (length b) 32) as [Hl|Hl]; [|discriminate].
  destruct (Z.ltb_spec (le_Z b) p) as [Hb|Hb]; [|discriminate]. cbn [andb].
  destruct (neg (of_Z p (le_Z b))) eqn:Hn; [discriminate|]. cbn [negb].
  destruct (decode_s R (of_Z p (le_Z b))) as [[x y]|] eqn:E; [|discriminate]. intros HP. apply some_inj in HP. subst P.
  apply decode_iff in E. pose proof (dec_on _ _ _ E) as Ho.
  set (Q := epoint p d Hp x y). assert (EQ : Q = mkE _ _ x y Ho) by apply epoint_on.
  assert (HX : X Q = x) by now rewrite EQ. assert (HY : Y Q = y) by now rewrite EQ.
  assert (Hq : pt (mk_rp R (rp_prime R RL) rid Q) = Q).
  { apply mk_rp_pt; unfold even; rewrite ?HX, HY; [exact (dec_even _ _ _ E)|exact (dec_canon _ _ _ E)]. }
  set (P := mk_rp _ _ _ _) in *. destruct (sof_dec P) as [D Hs]. rewrite Hq, HX, HY in D.
  assert (Es : sof P = of_Z p (le_Z b)) by (apply (dec_s_unique _ _ x y); auto).
  rewrite rcompress_sof, Es.
  assert (H0 : (0 <= le_Z b)%Z) by (unfold le_Z; apply be_Z_range).
  cbn [of_Z fval]. rewrite Z.mod_small by lia. unfold le_bytes, le_Z. rewrite <- (rev_involutive b) at 2. f_equal.
  apply be_Z_inj; [now rewrite I2OSP_length, rev_length|]. apply be_Z_to_bytes.
  unfold le_Z in Hb, H0. pose proof p_le_256. lia.
Qed.

Lemma rcompress_rid : rcompress rid = repeat x00 32.
Proof.
  rewrite rcompress_sof, sof_rid. cbn [f0 of_Z fval]. rewrite Z.mod_0_l by (pose proof p_big; lia). vm_compute. reflexivity.
Qed.

Theorem rdalek_laws : DalekLaws (RDalek R (rp_prime R RL) id_rep).
Proof.
  pose proof ell_pos as He.
  assert (Hr : forall k : RScalar, (0 <= fval k < ell)%Z) by exact ell_fval.
  split; cbn [RPoint rp_eq rp_add rp_mul rp_base rp_identity compress decompress RDalek].
  - exact req_spec.
  - exact radd_comm.
  - intros P Q T. symmetry. apply radd_assoc.
  - exact radd_id.
  - intros P a b. unfold rmul. rewrite <- (zmul_add radd rid radd_comm radd_assoc radd_id) by apply Hr.
    unfold fadd. cbn [of_Z fval]. pose proof (Hr a). pose proof (Hr b).
    apply (zmul_mod radd rid radd_comm radd_assoc radd_id ell); [lia|lia|apply ell_torsion].
  - intros P Q a. apply (zmul_dist radd rid radd_comm radd_assoc radd_id).
  - intros P a b. unfold rmul. pose proof (Hr a). pose proof (Hr b).
    rewrite (zmul_mul radd rid radd_comm radd_assoc radd_id) by lia.
    unfold fmul. cbn [of_Z fval]. rewrite (Z.mul_comm (fval b)). symmetry.
    apply (zmul_mod radd rid radd_comm radd_assoc radd_id ell); [lia|nia|apply ell_torsion].
  - intros P. unfold rmul. replace (fval (f1 ell)) with 1%Z; [reflexivity|].
    cbn [f1 of_Z fval]. symmetry. apply Z.mod_1_l. pose proof ell_32. lia.
  - intros P. unfold rmul. rewrite fval_f0. reflexivity.
  - intros P. destruct (rbase_generates P) as (k & Hk & E). exists (of_Z ell k). unfold rmul.
    cbn [of_Z fval]. rewrite Z.mod_small by exact Hk. exact E.
  - exact rbase_neq.
  - intros P. rewrite rcompress_sof. apply le_bytes_length.
  - exact rdecompress_compress.
  - intros b P _. apply rdecompress_canonical.
  - exact rcompress_rid.
Qed.

(** ** Against the specification *)
Lemma decodes_dec s x y : rfc_decodes p d s x y <-> pos s /\ dec s x y.
Proof.
  unfold rfc_decodes. split.
  - intros (H1 & H2 & H3 & H4 & H5 & H6). split; [exact H1|]. apply dec_from_y; auto. now apply feqb_spec.
  - intros [H1 D]. pose proof (dec_on _ _ _ D) as Ho. apply feqb_spec in Ho. destruct D as (D1 & D2 & D3 & D4 & D5).
    repeat split; auto.
Qed.

Lemma sqrt_ratio_spec u v : rfc_sqrt_ratio p i u v (fst (sqrt_ratio_m1 R u v)) (snd (sqrt_ratio_m1 R u v)).
Proof.
  pose proof (i_square R RL) as Hi.
  assert (Hn : pos (snd (sqrt_ratio_m1 R u v))) by apply abs_pos.
  split; [exact Hn|].
  destruct (fdec u 0) as [Eu|Hu].
  - (* the first comparison succeeds *)
    assert (E : sqrt_ratio_m1 R u v = (true, 0)).
    { rewrite Eu. unfold sqrt_ratio_m1. cbv zeta. set (z := pow _ _). replace (0 * (v * v * v) * z) with 0 by ring.
      replace (v * (0 * 0)) with 0 by ring. rewrite feqb_yes. replace (- 0) with 0 by ring. rewrite feqb_yes. cbn [orb].
      f_equal. replace (i * 0) with 0 by ring. apply abs_zero. }
    rewrite E. cbn [fst snd]. split; [intros Hu; contradiction|]. split; [auto|]. split; intros Hu; contradiction.
  - destruct (fdec v 0) as [Ev|Hv].
    + rewrite Ev. rewrite (sqrt_ratio_den0 u Hu). cbn [fst snd].
      split; [intros _ Hv; elim Hv; reflexivity|]. split; [intros E; contradiction|]. split; [auto|].
      intros _ Hv. elim Hv. reflexivity.
    + pose proof (sqrt_ratio_ok u v Hu Hv) as H. destruct (sqrt_ratio_m1 R u v) as [b r]. destruct H as [Hr H].
      cbn [fst snd]. split; [|split; [intros E; contradiction|split; [intros _ E; contradiction|]]].
      * intros _ _ [z Ez]. destruct b.
        -- split; [reflexivity|]. rewrite <- H. field. exact Hv.
        -- exfalso. assert (Hz : z <> 0). { intros E. apply Hu. transitivity (v * (u / v)); [field; exact Hv|]. rewrite <- Ez, E. ring. }
           apply (i_nonsquare (r / z)). transitivity (v * (r * r) / (v * (z * z))); [field; auto|]. rewrite H, Ez. field. auto.
      * intros _ _ Hno. destruct b.
        -- exfalso. apply Hno. exists r. rewrite <- H. field. exact Hv.
        -- split; [reflexivity|]. transitivity (v * (r * r) / v); [field; exact Hv|]. rewrite H. field. exact Hv.
Qed.

(** The map gives even points of the curve. *)
Lemma d_neqs : 1 - d * d <> 0 /\ d - 1 <> 0 /\ d <> 0 /\ 1 + d <> 0.
Proof.
  assert (D1 : d - 1 <> 0). { intros E. apply (d_nonsquare 1). transitivity 1; [ring|]. symmetry. now apply sub0. }
  assert (D2 : 1 + d <> 0). { intros E. apply (d_nonsquare i). rewrite (i_square R RL). apply sub0. rewrite <- (opp0 (- (1 + d))); [ring|]. rewrite E. ring. }
  assert (D3 : d <> 0). { intros E. apply (d_nonsquare 0). rewrite E. ring. }
  split; [|auto]. intros E. apply (mul_neq (1 + d) (- (d - 1))); auto.
  - intros E'. apply D1. now apply opp0.
  - rewrite <- E. ring.
Qed.

Lemma map_core (r v s U N : F) :
  v <> 0 -> v * (s * s) = U -> N * N * (d + 1) = (v + U) * (v + U) + d * ((v - U) * (v - U)) ->
  1 + s * s <> 0 /\ N <> 0 /\
  let x := 2 * s * v / (N * SQRT_AD_MINUS_ONE R) in
  let y := (1 - s * s) / (1 + s * s) in
  on_edwards p d x y = true /\ even_xy y.
Proof.
  intros Hv HU HN. pose proof one_plus_d as Q1. pose proof q_neq as Hq. pose proof (q_square R RL) as Q2. pose proof (i_square R RL) as Hi.
  set (q := SQRT_AD_MINUS_ONE R) in *. clearbody q.
  destruct d_neqs as (_ & _ & Hd & Hd1).
  assert (H2 : 1 + s * s <> 0).
  { intros E. assert (EU : U = - v). { rewrite <- HU. apply sub0. transitivity (v * (1 + s * s)); [ring|]. rewrite E. ring. }
    rewrite EU in HN. apply (d_nonsquare (N * (i * q) / (2 * v))).
    transitivity (N * N * (i * q * (i * q)) / (2 * v * (2 * v))); [field; split; [exact Hv|exact two_neq]|].
    rewrite Q1. replace (1 + d) with (d + 1) by ring. rewrite HN. field. split; [exact Hv|exact two_neq]. }
  assert (HN0 : N <> 0).
  { intros E. destruct (md_nonsquare (v + U) (v - U)) as [A1 A2].
    - rewrite <- HN, E. ring.
    - apply (mul_neq 2 v two_neq Hv). transitivity ((v + U) + (v - U)); [ring|]. rewrite A1, A2. ring. }
  split; [exact H2|]. split; [exact HN0|]. cbv zeta.
  assert (HV : v * v * vv s = N * N * (q * q)).
  { rewrite Q2. transitivity (- (N * N * (d + 1))); [|ring]. rewrite HN, <- HU. unfold vv. ring. }
  assert (Hmain : vv s = N * N * (q * q) / (v * v)). { rewrite <- HV. field. exact Hv. }
  split.
  - apply feqb_spec. set (x := 2 * s * v / (N * q)). set (y := (1 - s * s) / (1 + s * s)).
    assert (Ex : x * x * vv s = 2 * s * (2 * s)). { unfold x. rewrite Hmain. field. auto. }
    assert (Ey : y * (1 + s * s) = 1 - s * s). { unfold y. field. exact H2. }
    clearbody x y. apply (cancel ((1 + s * s) * (1 + s * s))); [now apply mul_neq|]. apply sub0.
    transitivity ((y * (1 + s * s)) * (y * (1 + s * s)) - (1 + s * s) * (1 + s * s) * (x * x) - (1 + s * s) * (1 + s * s)
       - d * (x * x) * ((y * (1 + s * s)) * (y * (1 + s * s)))); [ring|].
    rewrite Ey. transitivity (x * x * vv s - 2 * s * (2 * s)); [unfold vv; ring|]. rewrite Ex. ring.
  - exists (i * N * q / (v * (1 + s * s))).
    transitivity (i * i * (N * N * (q * q)) / (v * v * ((1 + s * s) * (1 + s * s)))); [field; auto|].
    rewrite Hi, <- HV. unfold vv. field. auto.
Qed.

Lemma rmap_ok t :
  let '(x, y, z, xy) := rmap R t in
  z <> 0 /\ x * y = z * xy /\ on_edwards p d (x / z) (y / z) = true /\ even_xy (y / z) /\
  rfc_map p d i (SQRT_AD_MINUS_ONE R) t (x / z) (y / z).
Proof.
  unfold rmap, rfc_map. cbv zeta. rewrite (ods_spec R RL), (dos_spec R RL).
  set (r := i * (t * t)). set (u := (r + 1) * (1 - d * d)). set (v := (m1 - r * d) * (r + d)).
  pose proof q_neq as Hq. pose proof (i_square R RL) as Hi. destruct d_neqs as (D2 & D1 & Hd & Hd1).
  assert (Hr1 : r + 1 <> 0).
  { intros E. apply (i_nonsquare t). apply (cancel i _ _ i_neq). transitivity (r + 1 - 1); [unfold r; ring|]. rewrite E, Hi. ring. }
  assert (Hu : u <> 0) by now apply mul_neq.
  pose proof (sqrt_ratio_spec u v) as HS.
  assert (Hq' : forall z, SQRT_AD_MINUS_ONE R = z -> z <> 0) by (intros z <-; exact Hq).
  set (q := SQRT_AD_MINUS_ONE R) in *.
  destruct (fdec v 0) as [Ev|Hv].
  - (* the exceptional case: the identity *)
    assert (Er : r <> 0). { intros E. apply Hd. apply opp0. transitivity v; [unfold v; rewrite E; ring|exact Ev]. }
    assert (Er1 : r - 1 <> 0).
    { intros E. apply sub0 in E. apply (mul_neq _ _ Hd1 Hd1). apply opp0. transitivity v; [unfold v; rewrite E; ring|exact Ev]. }
    assert (Es : sqrt_ratio_m1 R u v = (false, 0)) by (rewrite Ev; now apply sqrt_ratio_den0).
    rewrite Es in *. cbn [fst snd] in HS. replace (0 * t) with 0 by ring. rewrite abs_zero. replace (- 0) with 0 by ring.
    set (N := r * (r - 1) * ((d - 1) * (d - 1)) - v).
    assert (HN : N <> 0). { unfold N. rewrite Ev. replace (r * (r - 1) * ((d - 1) * (d - 1)) - 0) with (r * (r - 1) * ((d - 1) * (d - 1))) by ring.
      apply mul_neq; [apply mul_neq; [exact Er|exact Er1]|apply mul_neq; exact D1]. }
    assert (H11 : 1 + 0 * 0 <> 0) by (replace (1 + 0 * 0) with 1 by ring; exact one_neq).
    assert (Z : N * q * (1 + 0 * 0) <> 0) by (apply mul_neq; [apply mul_neq; [exact HN|exact Hq]|exact H11]).
    assert (EX : 2 * 0 * v * (1 + 0 * 0) / (N * q * (1 + 0 * 0)) = 0) by (field; auto).
    assert (EY : (1 - 0 * 0) * (N * q) / (N * q * (1 + 0 * 0)) = 1) by (field; auto).
    split; [exact Z|]. split; [ring|]. rewrite EX, EY. split; [apply feqb_spec; ring|]. split; [exact even_id|].
    exists false, 0, 0, r. split; [exact HS|]. split; [discriminate|]. split.
    { intros _. split; [reflexivity|]. split; [|ring]. replace (- 0) with 0 by ring. exact neg_zero. }
    fold N. split; [field; auto|].
    replace (1 - 0 * 0) with 1 by ring. replace (1 + 0 * 0) with 1 by ring. field. exact one_neq.
  - assert (K : exists b s0 s c, sqrt_ratio_m1 R u v = (b, s0) /\
       s = (if b then s0 else - ct_abs R (s0 * t)) /\ c = (if b then m1 else r) /\
       v * (s * s) = (if b then u else r * u)).
    { pose proof (sqrt_ratio_ok u v Hu Hv) as H. destruct (sqrt_ratio_m1 R u v) as [b s0]. destruct H as [_ H].
      exists b, s0. eexists. eexists. split; [reflexivity|]. split; [reflexivity|]. split; [reflexivity|].
      destruct b; [exact H|]. transitivity (v * (ct_abs R (s0 * t) * ct_abs R (s0 * t))); [ring|]. rewrite abs_sq.
      transitivity (v * (s0 * s0) * (t * t)); [ring|]. rewrite H. unfold r. ring. }
    destruct K as (b & s0 & s & c & Es & E1 & E2 & EU). rewrite Es in *. cbn [fst snd] in HS. rewrite <- E1, <- E2.
    set (N := c * (r - 1) * ((d - 1) * (d - 1)) - v).
    assert (HN : N * N * (d + 1) = (v + (if b then u else r * u)) * (v + (if b then u else r * u))
                  + d * ((v - (if b then u else r * u)) * (v - (if b then u else r * u)))).
    { unfold N. rewrite E2. unfold v, u. clearbody r. destruct b; ring. }
    destruct (map_core r v s _ N Hv EU HN) as (H2 & HN0 & Ho & He). fold q in Ho.
    assert (EX : 2 * s * v * (1 + s * s) / (N * q * (1 + s * s)) = 2 * s * v / (N * q)) by (field; auto).
    assert (EY : (1 - s * s) * (N * q) / (N * q * (1 + s * s)) = (1 - s * s) / (1 + s * s)) by (field; auto).
    split; [apply mul_neq; [apply mul_neq; [exact HN0|exact Hq]|exact H2]|]. split; [ring|]. rewrite EX, EY. split; [exact Ho|]. split; [exact He|].
    exists b, s0, s, c. split; [exact HS|]. split; [intros ->; auto|]. split.
    { intros ->. split; [exact E2|]. split.
      - replace (- s) with (ct_abs R (s0 * t)) by (rewrite E1; ring). apply abs_pos.
      - rewrite E1. transitivity (ct_abs R (s0 * t) * ct_abs R (s0 * t)); [ring|]. apply abs_sq. }
    fold N. split; reflexivity.
Qed.

Lemma sum_cancel x1 y1 x2 y2 : 1 + d * x1 * x2 * y1 * y2 <> 0 -> 1 - d * x1 * x2 * y1 * y2 <> 0 ->
  sum_ex p d x1 y1 x2 y2 * (1 + d * x1 * x2 * y1 * y2) = x1 * y2 + y1 * x2 /\
  sum_ey p d x1 y1 x2 y2 * (1 - d * x1 * x2 * y1 * y2) = y1 * y2 + x1 * x2.
Proof. intros D1 D2. unfold sum_ex, sum_ey. split; field; assumption. Qed.
Lemma neg_squares s s' z : s * s = z -> s' * s' = z -> - s * - s = - s' * - s'.
Proof. intros H H'. transitivity z; [rewrite <- H; ring|rewrite <- H'; ring]. Qed.
Lemma opp_inj s s' : - s = - s' -> s = s'.
Proof. intros E. transitivity (- - s); [ring|]. rewrite E. ring. Qed.
End Facts.
