(** * CubicPoly: x^3 - 3 x + b has no root modulo p, by computing powers of X
    modulo the polynomial.

    Library mathematics; models no code.  Used for P-384, where p = 2 mod 3.
    If x is a root then x^p = x; for p a short sum of powers of two this is an
    equation between repeated squares of x, which are computed modulo the
    polynomial and refuted by an inverse. *)
From Verif Require Import Fq Fermat Pocklington Weierstrass.
From Coq Require Import Znumtheory Zpow_facts Lia List.
From Verif Require Import HexNum.
Import ListNotations.
Open Scope Z_scope.

(** a0 + a1 X + a2 X^2 *)
Definition poly3 : Set := Z * Z * Z.

(** The square modulo X^3 - 3 X + b, with [nb] for - b: quotients and
    remainders of the coefficients. *)
Definition sq3 (m : modul) (nb : num) (a : poly3) (s : poly3 * poly3) : option poly3 :=
  let '(a0, a1, a2) := a in
  let '((q0, q1, q2), (r0, r1, r2)) := s in
  let a0 := ofZ a0 in let a1 := ofZ a1 in let a2 := ofZ a2 in
  let h3 := mul a1 a2 in
  let c3 := add h3 h3 in
  let c4 := mul a2 a2 in
  let h1 := mul a0 a1 in
  let h2 := mul a0 a2 in
  if (0 <=? r0) && (0 <=? r1) && (0 <=? r2) &&
     congr m (add (mul a0 a0) (mul nb c3)) (ofZ r0) q0 &&
     congr m (add (add h1 h1) (add (mul (X3 E) c3) (mul nb c4))) (ofZ r1) q1 &&
     congr m (add (add h2 h2) (add (mul a1 a1) (mul (X3 E) c4))) (ofZ r2) q2
  then Some (r0, r1, r2) else None.

Fixpoint sqs (m : modul) (nb : num) (a : poly3) (l : list (poly3 * poly3)) : option poly3 :=
  match l with
  | [] => Some a
  | s :: l => match sq3 m nb a s with Some a => sqs m nb a l | None => None end
  end.

Definition nonneg3 (a : poly3) : Prop := let '(a0, a1, a2) := a in 0 <= a0 /\ 0 <= a1 /\ 0 <= a2.

(** Products, reduced. *)
Definition mul3 (p b : Z) (a c : poly3) : poly3 :=
  let '(a0, a1, a2) := a in
  let '(b0, b1, b2) := c in
  let c3 := a1 * b2 + a2 * b1 in
  let c4 := a2 * b2 in
  ((a0 * b0 - b * c3) mod p,
   (a0 * b1 + a1 * b0 + 3 * c3 - b * c4) mod p,
   (a0 * b2 + a1 * b1 + a2 * b0 + 3 * c4) mod p).

Definition sub3 (p : Z) (a c : poly3) : poly3 :=
  let '(a0, a1, a2) := a in
  let '(b0, b1, b2) := c in
  ((a0 - b0) mod p, (a1 - b1) mod p, (a2 - b2) mod p).

Section Root.
Context (p : Z) (Hp : prime p) (b x : Z).
Context (root : (x * x * x - 3 * x + b) mod p = 0).

Definition ev (a : poly3) : Z := let '(a0, a1, a2) := a in a0 + a1 * x + a2 * (x * x).

Lemma p_pos : 0 < p. Proof. destruct Hp; lia. Qed.
Lemma root_div : exists k, x * x * x - 3 * x + b = k * p.
Proof. pose proof p_pos. apply Z.mod_divide in root; [|lia]. exact root. Qed.

Lemma mod_same u v k : u = v + k * p -> u mod p = v mod p.
Proof. intros ->. apply Z_mod_plus_full. Qed.

Lemma ev_sq3 m nb a s a' : modulus_is m p = true -> 0 <= nb -> (nb + b) mod p = 0 -> nonneg3 a ->
  sq3 m (ofZ nb) a s = Some a' -> nonneg3 a' /\ ev a' mod p = (ev a * ev a) mod p.
Proof.
  intros Hm Hnb Hb Ha. destruct root_div as [k Hk]. destruct a as [[a0 a1] a2], s as [[[q0 q1] q2] [[r0 r1] r2]].
  unfold sq3. cbv zeta. destruct Ha as (A0 & A1 & A2).
  destruct (andb _ _) eqn:Hc; [|discriminate]. intros [= <-].
  rewrite !Bool.andb_true_iff, !Z.leb_le in Hc. destruct Hc as (((((L0 & L1) & L2) & C0) & C1) & C2).
  apply (congr_spec m p _ _ _ Hm) in C0, C1, C2.
  repeat (rewrite add_val in C0 || rewrite mul_val in C0 || rewrite ofZ_val in C0 by lia).
  repeat (rewrite add_val in C1 || rewrite mul_val in C1 || rewrite ofZ_val in C1 by lia).
  repeat (rewrite add_val in C2 || rewrite mul_val in C2 || rewrite ofZ_val in C2 by lia).
  change (val (X3 E)) with 3 in C1, C2.
  split; [split; [exact L0|split; [exact L1|exact L2]]|]. cbn [ev].
  pose proof p_pos as Hp0. apply Z.mod_divide in Hb; [|lia]. destruct Hb as [j Hj].
  assert (En : nb = j * p - b) by lia. assert (Eb : b = k * p - x * x * x + 3 * x) by lia.
  replace r0 with (a0 * a0 + nb * (a1 * a2 + a1 * a2) - q0 * p) by lia.
  replace r1 with (a0 * a1 + a0 * a1 + (3 * (a1 * a2 + a1 * a2) + nb * (a2 * a2)) - q1 * p) by lia.
  replace r2 with (a0 * a2 + a0 * a2 + (a1 * a1 + 3 * (a2 * a2)) - q2 * p) by lia.
  apply (mod_same _ _ (- q0 - q1 * x - q2 * (x * x) + (j - k) * (2 * (a1 * a2)) + (j - k) * (a2 * a2) * x)).
  rewrite En, Eb. ring.
Qed.

Lemma ev_mul3 a c : ev (mul3 p b a c) mod p = (ev a * ev c) mod p.
Proof.
  destruct root_div as [k Hk]. destruct a as [[a0 a1] a2], c as [[b0 b1] b2].
  unfold mul3. cbv zeta. cbn [ev].
  assert (Hb : b = k * p - x * x * x + 3 * x) by lia.
  set (u0 := a0 * b0 - _). set (u1 := a0 * b1 + _ + _ - _). set (u2 := _ + 3 * (a2 * b2)).
  apply (mod_same _ _ (- (u0 / p) - (u1 / p) * x - (u2 / p) * (x * x) - k * (a1 * b2 + a2 * b1) - k * (a2 * b2) * x)).
  pose proof p_pos.
  rewrite (Zmod_eq_full u0 p), (Zmod_eq_full u1 p), (Zmod_eq_full u2 p) by lia.
  unfold u0 at 1, u1 at 1, u2 at 1. rewrite Hb. ring.
Qed.

Lemma ev_sub3 a c : ev (sub3 p a c) mod p = (ev a - ev c) mod p.
Proof.
  destruct a as [[a0 a1] a2], c as [[b0 b1] b2]. unfold sub3. cbn [ev]. pose proof p_pos.
  apply (mod_same _ _ (- ((a0 - b0) / p) - ((a1 - b1) / p) * x - ((a2 - b2) / p) * (x * x))).
  rewrite (Zmod_eq_full (a0 - b0) p), (Zmod_eq_full (a1 - b1) p), (Zmod_eq_full (a2 - b2) p) by lia. ring.
Qed.

Lemma ev_sqs m nb l : modulus_is m p = true -> 0 <= nb -> (nb + b) mod p = 0 ->
  forall a e, nonneg3 a -> 0 <= e -> ev a mod p = x ^ (2 ^ e) mod p ->
  forall a', sqs m (ofZ nb) a l = Some a' ->
  nonneg3 a' /\ ev a' mod p = x ^ (2 ^ (e + Z.of_nat (length l))) mod p.
Proof.
  intros Hm Hnb Hb. induction l as [|q l IH]; intros a e Hn He Ha a' H; cbn [sqs] in H.
  - injection H as <-. cbn [length Z.of_nat]. rewrite Z.add_0_r. split; assumption.
  - destruct (sq3 m (ofZ nb) a q) as [a1|] eqn:Es; [|discriminate].
    apply (ev_sq3 m nb a q a1 Hm Hnb Hb Hn) in Es as [Hn1 E1].
    replace (e + Z.of_nat (length (q :: l))) with (e + 1 + Z.of_nat (length l)) by (cbn [length]; lia).
    refine (IH a1 (e + 1) Hn1 _ _ a' H); [lia|]. rewrite E1, Zmult_mod, Ha, <- Zmult_mod, <- Z.pow_add_r
      by (apply Z.pow_nonneg; lia).
    f_equal. f_equal. rewrite Z.pow_add_r by lia. lia.
Qed.
End Root.

(** The certificate: squarings up to 2^e1, 2^e2, 2^e3, 2^e4, and an inverse
    of X^2 X^(2^e2) X^(2^e3) - X^(2^e1) X^(2^e4). *)
Definition check_no_root (m : modul) (p b nb e1 e2 e3 e4 : Z) (l1 l2 l3 l4 : list (poly3 * poly3)) (inv : poly3) : bool :=
  let nb_ := ofZ nb in
  match sqs m nb_ (0, 1, 0) l1 with None => false | Some s1 =>
  match sqs m nb_ s1 l2 with None => false | Some s2 =>
  match sqs m nb_ s2 l3 with None => false | Some s3 =>
  match sqs m nb_ s3 l4 with None => false | Some s4 =>
  let g := sub3 p (mul3 p b (0, 0, 1) (mul3 p b s2 s3)) (mul3 p b s1 s4) in
  let '(r0, r1, r2) := mul3 p b g inv in
  (0 <=? nb) && ((nb + b) mod p =? 0) &&
  (Z.of_nat (length l1) =? e1) && (e1 + Z.of_nat (length l2) =? e2) &&
  (e2 + Z.of_nat (length l3) =? e3) && (e3 + Z.of_nat (length l4) =? e4) &&
  (p + 1 + 2 ^ e2 + 2 ^ e3 =? 2 ^ e1 + 2 ^ e4) &&
  (r0 =? 1) && (r1 =? 0) && (r2 =? 0) end end end end.

Theorem no_root_poly m p b nb e1 e2 e3 e4 l1 l2 l3 l4 inv :
  prime p -> modulus_is m p = true -> b mod p <> 0 ->
  check_no_root m p b nb e1 e2 e3 e4 l1 l2 l3 l4 inv = true ->
  forall x, (x * x * x - 3 * x + b) mod p <> 0.
Proof.
  intros Hp Hm Hb H x Hr. unfold check_no_root in H. cbv zeta in H.
  destruct (sqs m (ofZ nb) (0, 1, 0) l1) as [s1|] eqn:Q1; [|discriminate].
  destruct (sqs m (ofZ nb) s1 l2) as [s2|] eqn:Q2; [|discriminate].
  destruct (sqs m (ofZ nb) s2 l3) as [s3|] eqn:Q3; [|discriminate].
  destruct (sqs m (ofZ nb) s3 l4) as [s4|] eqn:Q4; [|discriminate].
  set (g := sub3 p _ _) in *. destruct (mul3 p b g inv) as [[r0 r1] r2] eqn:Eg.
  apply andb_prop in H as [H H8]. apply andb_prop in H as [H H7]. apply andb_prop in H as [H H6].
  apply andb_prop in H as [H H5]. apply andb_prop in H as [H H4]. apply andb_prop in H as [H H3].
  apply andb_prop in H as [H H2]. apply andb_prop in H as [H H1]. apply andb_prop in H as [Hnb Hn0].
  apply Z.leb_le in Hnb. apply Z.eqb_eq in Hn0. apply Z.eqb_eq in H1, H2, H3, H4, H5, H6, H7, H8. subst r0 r1 r2.
  pose proof (p_pos p Hp) as Hp0. assert (Hp1 : 1 < p) by (destruct Hp; lia).
  assert (N1 : 0 <= e1) by lia. assert (N2 : 0 <= e2) by lia. assert (N3 : 0 <= e3) by lia. assert (N4 : 0 <= e4) by lia.
  apply (ev_sqs p Hp b x Hr m nb l1 Hm Hnb Hn0 (0, 1, 0) 0) in Q1 as [M1 E1];
    [|cbn [nonneg3]; lia|lia|cbn [ev]; change (2 ^ 0) with 1; f_equal; ring].
  rewrite H1, Z.add_0_l in E1.
  apply (ev_sqs p Hp b x Hr m nb l2 Hm Hnb Hn0 s1 e1 M1 N1 E1) in Q2 as [M2 E2]. rewrite H2 in E2.
  apply (ev_sqs p Hp b x Hr m nb l3 Hm Hnb Hn0 s2 e2 M2 N2 E2) in Q3 as [M3 E3]. rewrite H3 in E3.
  apply (ev_sqs p Hp b x Hr m nb l4 Hm Hnb Hn0 s3 e3 M3 N3 E3) in Q4 as [M4 E4]. rewrite H4 in E4.
  assert (Eg0 : ev x g mod p = 0).
  { unfold g. rewrite (ev_sub3 p Hp), Zminus_mod, !(ev_mul3 p Hp b x Hr).
    rewrite (Zmult_mod (ev x (0, 0, 1))), (ev_mul3 p Hp b x Hr), <- Zmult_mod.
    rewrite (Zmult_mod (ev x s1)), E1, E4, <- Zmult_mod, <- Z.pow_add_r by (apply Z.pow_nonneg; lia).
    rewrite <- H5. rewrite (Zmult_mod (ev x (0, 0, 1))), (Zmult_mod (ev x s2)), E2, E3.
    rewrite <- (Zmult_mod (x ^ _)), <- Zmult_mod, <- Z.pow_add_r by (apply Z.pow_nonneg; lia).
    replace (p + 1 + 2 ^ e2 + 2 ^ e3) with (p - 1 + (2 + (2 ^ e2 + 2 ^ e3))) by lia.
    assert (0 <= 2 ^ e2) by (apply Z.pow_nonneg; lia). assert (0 <= 2 ^ e3) by (apply Z.pow_nonneg; lia).
    rewrite !(Z.pow_add_r x) by lia. cbn [ev].
    replace (0 + 0 * x + 1 * (x * x)) with (x ^ 2) by ring.
    rewrite (Zmult_mod (x ^ (p - 1))).
    replace (x ^ (p - 1) mod p) with 1; [rewrite Z.mul_1_l, Zmod_mod, Z.sub_diag; apply Z.mod_0_l; lia|].
    symmetry. apply (fermat_one p Hp). intros Hd.
    apply Hb. apply Z.mod_divide in Hr; [|lia]. apply Z.mod_divide; [lia|].
    destruct Hd as [d Ed]. destruct Hr as [k Ek]. exists (k - d * x * x + 3 * d).
    rewrite Ed in Ek at 3. rewrite Ed in Ek at 3. nia. }
  pose proof (ev_mul3 p Hp b x Hr g inv) as K. rewrite Eg in K. rewrite Zmult_mod, Eg0 in K.
  cbn [ev] in K. replace (1 + 0 * x + 0 * (x * x)) with 1 in K by ring.
  rewrite Z.mul_0_l, Z.mod_0_l, Z.mod_1_l in K by lia. discriminate.
Qed.

(** The same for the elements of [Fq]. *)
Lemma cubic_Z p b x : prime p ->
  cubic p (of_Z p (-3)) (of_Z p b) x = f0 p -> (fval x * fval x * fval x - 3 * fval x + b) mod p = 0.
Proof.
  intros Hp E. assert (Hp1 : 1 < p) by (destruct Hp; lia).
  assert (Ha : forall u v, fadd p (of_Z p u) (of_Z p v) = of_Z p (u + v)).
  { intros u v. apply of_Z_eq. cbn [of_Z fval]. symmetry; apply Zplus_mod. }
  assert (Hm : forall u v, fmul p (of_Z p u) (of_Z p v) = of_Z p (u * v)).
  { intros u v. apply of_Z_eq. cbn [of_Z fval]. symmetry; apply Zmult_mod. }
  unfold cubic in E. rewrite <- (of_Z_fval x) in E at 1 2 3 4. rewrite !Hm, !Ha in E.
  apply (f_equal fval) in E. cbn [of_Z fval f0] in E. rewrite Z.mod_0_l in E by lia.
  rewrite <- E. f_equal. ring.
Qed.
