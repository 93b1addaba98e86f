(** * RistCheck: a cheap check that a string is mapped to a given element.

    The points are found outside; Coq checks them against [RistSpec]. *)
From Verif Require Import Rist255 RistFacts RistSpec RistrettoFacts RistProps Weierstrass.
From Coq Require Import Znumtheory Field.
Open Scope Z_scope.

Section Check.
Context (R : RParams).
Local Notation p := (rp R).
Local Notation F := (Fq (rp R)).
Local Notation d := (cD R).
Local Notation i := (cI R).
Local Notation q := (SQRT_AD_MINUS_ONE R).
Local Notation "x [+] y" := (fadd (rp R) x y) (at level 50, left associativity).
Local Notation "x [-] y" := (fsub (rp R) x y) (at level 50, left associativity).
Local Notation "x [*] y" := (fmul (rp R) x y) (at level 40, left associativity).
Local Notation "[~] x" := (fopp (rp R) x) (at level 35).
Local Notation "x [=] y" := (feqb (rp R) x y) (at level 70).
Local Notation one := (f1 (rp R)).
Local Notation zero := (f0 (rp R)).

(** MAP(t) = (x, y), with the intermediate s0 and s of [rfc_map]. *)
Definition map_check (t s0 s x y : F) (b : bool) : bool :=
  let r := i [*] (t [*] t) in
  let u := (r [+] one) [*] (one [-] d [*] d) in
  let v := ([~] one [-] r [*] d) [*] (r [+] d) in
  let c := if b then [~] one else r in
  let w := (c [*] (r [-] one) [*] ((d [-] one) [*] (d [-] one)) [-] v) [*] q in
  negb (Z.odd (fval s0)) && negb (u [=] zero) && negb (v [=] zero) &&
  (s0 [*] s0 [*] v [=] (if b then u else i [*] u)) &&
  (if b then s [=] s0 else negb (Z.odd (fval ([~] s))) && (s [*] s [=] (s0 [*] t) [*] (s0 [*] t))) &&
  negb (w [=] zero) && (x [*] w [=] (one [+] one) [*] s [*] v) &&
  negb (one [+] s [*] s [=] zero) && (y [*] (one [+] s [*] s) [=] one [-] s [*] s).

(** s decodes to (x, y), not the identity. *)
Definition decode_check (s x y : F) : bool :=
  negb (Z.odd (fval s)) && (y [*] y [-] x [*] x [=] one [+] d [*] x [*] x [*] y [*] y) &&
  (y [*] (one [+] s [*] s) [=] one [-] s [*] s) && negb (Z.odd (fval x)) &&
  negb (Z.odd (fval (x [*] y))) && negb (y [=] zero) && negb (x [=] zero).

Definition sum_check (x1 y1 x2 y2 x3 y3 : F) : bool :=
  (x3 [*] (one [+] d [*] x1 [*] x2 [*] y1 [*] y2) [=] x1 [*] y2 [+] y1 [*] x2) &&
  (y3 [*] (one [-] d [*] x1 [*] x2 [*] y1 [*] y2) [=] y1 [*] y2 [+] x1 [*] x2).

Definition point_t : Type := Z * Z * Z * Z * bool.  (* s0, s, x, y *)
Definition half_check (b : bytes) (c : point_t) : bool :=
  let '(s0, s, x, y, sq) := c in
  map_check (of_Z p (le_Z b mod 2 ^ 255)) (of_Z p s0) (of_Z p s) (of_Z p x) (of_Z p y) sq.
Definition uniform_check (b : bytes) (c0 c1 : point_t) (e3 : Z * Z) (e : Z * Z * Z) : bool :=
  let '(_, _, x0, y0, _) := c0 in
  let '(_, _, x1, y1, _) := c1 in
  let '(x3, y3) := e3 in
  let '(s, x, y) := e in
  half_check (firstn 32 b) c0 && half_check (skipn 32 b) c1 &&
  sum_check (of_Z p x0) (of_Z p y0) (of_Z p x1) (of_Z p y1) (of_Z p x3) (of_Z p y3) &&
  equals R (of_Z p x3) (of_Z p y3) (of_Z p x) (of_Z p y) &&
  decode_check (of_Z p s) (of_Z p x) (of_Z p y).

Context (RL : RLaws R).
Add Field Fp : (fq_field (rp R) (rp_prime R RL)).

Lemma neqb (x y : F) : negb (x [=] y) = true -> x <> y.
Proof. intros H E. apply feqb_spec in E. rewrite E in H. discriminate. Qed.
Lemma even_nonneg (x : F) : negb (Z.odd (fval x)) = true -> rfc_nonneg p x.
Proof. unfold rfc_nonneg. destruct (Z.odd (fval x)); [discriminate|reflexivity]. Qed.
Lemma div_of (x w n : F) : w <> zero -> x [*] w = n -> x = n [*] finv p w.
Proof. intros Hw <-. field. exact Hw. Qed.

Lemma ratio_check (u v s0 : F) (b : bool) : rfc_nonneg p s0 -> u <> zero -> v <> zero ->
  s0 [*] s0 [*] v = (if b then u else i [*] u) -> rfc_sqrt_ratio p i u v b s0.
Proof.
  intros Hs Hu Hv H. split; [exact Hs|]. split; [|split; [|split]]; try (intros; contradiction).
  - intros _ _ [z Hz]. apply (div_of _ _ _ Hv) in H. destruct b.
    + split; [reflexivity|exact H].
    + exfalso. assert (Hz0 : z <> zero).
      { intros E. rewrite E in Hz. apply Hu. transitivity (u [*] finv p v [*] v); [field; exact Hv|]. rewrite <- Hz. ring. }
      apply (i_nonsquare R RL (s0 [*] finv p z)).
      transitivity ((s0 [*] s0) [*] finv p (z [*] z)); [field; exact Hz0|]. rewrite H, Hz. field. auto.
  - intros _ _ Hn. apply (div_of _ _ _ Hv) in H. destruct b.
    + elim Hn. exists s0. exact H.
    + split; [reflexivity|]. rewrite H. ring.
Qed.

Lemma map_checked t s0 s x y b : map_check t s0 s x y b = true -> rfc_map p d i q t x y.
Proof.
  unfold map_check, rfc_map. cbv zeta.
  set (r := i [*] (t [*] t)). set (u := (r [+] one) [*] _). set (v := ([~] one [-] _) [*] _).
  rewrite !andb_true_iff. intros ((((((((H1 & H2) & H3) & H4) & H5) & H6) & H7) & H8) & H9).
  apply neqb in H2, H3, H6, H8. apply even_nonneg in H1. apply feqb_spec in H4, H7, H9.
  exists b, s0, s, (if b then [~] one else r).
  split; [exact (ratio_check _ _ _ _ H1 H2 H3 H4)|].
  split. { intros ->. apply feqb_spec in H5. auto. }
  split. { intros ->. apply andb_true_iff in H5 as [H5 H5']. apply feqb_spec in H5'. apply even_nonneg in H5. auto. }
  split; [exact (div_of _ _ _ H6 H7)|exact (div_of _ _ _ H8 H9)].
Qed.

Lemma decode_checked s x y : decode_check s x y = true -> rfc_decodes p d s x y /\ x <> zero.
Proof.
  unfold decode_check. rewrite !andb_true_iff.
  intros ((((((H1 & H2) & H3) & H4) & H5) & H6) & H7).
  apply neqb in H6, H7. apply even_nonneg in H1, H4, H5. apply feqb_spec in H2, H3.
  unfold rfc_decodes. auto 10.
Qed.

Lemma uniform_checked b c0 c1 e3 s x y : uniform_check b c0 c1 e3 (s, x, y) = true ->
  exists e, from_uniform_bytes (DalekOf R RL) b = e /\ e <> rp_identity (DalekOf R RL) /\
    ptx R RL e = of_Z p x /\ pty R RL e = of_Z p y /\ rfc_decodes p d (of_Z p s) (of_Z p x) (of_Z p y).
Proof.
  destruct c0 as [[[[s0 s0'] x0] y0] b0], c1 as [[[[s1 s1'] x1] y1] b1], e3 as [x3 y3].
  unfold uniform_check, half_check. rewrite !andb_true_iff. intros ((((H0 & H1) & H2) & H3) & H4).
  apply map_checked in H0, H1. apply decode_checked in H4 as [H4 H5].
  apply andb_true_iff in H2 as [A1 A2]. apply feqb_spec in A1, A2.
  apply orb_true_iff in H3. rewrite !feqb_spec in H3.
  destruct (decodes_elem R RL _ _ _ H4) as (e & [Ex Ey] & _). exists e. split.
  - refine (uniform_of R RL b _ _ _ _ _ _ e H0 H1 (conj A1 A2) _). rewrite Ex, Ey. exact H3.
  - split; [|auto]. intros E. apply H5. rewrite <- Ex, E. exact (proj1 (identity_xy R RL)).
Qed.

(** Reading an element. *)
Lemma read_checked buf s x y : length buf = 32%nat -> le_Z buf = s -> (0 <? s) && (s <? p) = true ->
  decode_check (of_Z p s) (of_Z p x) (of_Z p y) = true ->
  exists e, ristretto_deserialize_elem (DalekOf R RL) buf = Ok e /\ ptx R RL e = of_Z p x /\ pty R RL e = of_Z p y.
Proof.
  intros Hl Hb Hr Hc. apply andb_true_iff in Hr. rewrite !Z.ltb_lt in Hr. apply decode_checked in Hc as [Hc _].
  destruct (decodes_elem R RL _ _ _ Hc) as (e & [Ex Ey] & _). exists e. split; [|auto].
  apply (read_iff R RL). rewrite Hb, Ex, Ey. auto.
Qed.

(** A number that does not decode: [y] is the only possible ordinate, and [w]
    shows that there is no abscissa. *)
Definition nonsquare_check (s y w : F) : bool :=
  negb (one [+] s [*] s [=] zero) && (y [*] (one [+] s [*] s) [=] one [-] s [*] s) &&
  negb (y [*] y [=] one) && negb (one [+] d [*] y [*] y [=] zero) &&
  (w [*] w [*] (one [+] d [*] y [*] y) [=] i [*] (y [*] y [-] one)).
Lemma nonsquare_checked s y w : nonsquare_check s y w = true -> forall x' y', ~ rfc_decodes p d s x' y'.
Proof.
  unfold nonsquare_check. rewrite !andb_true_iff. intros ((((H1 & H2) & H3) & H4) & H5).
  apply neqb in H1, H3, H4. apply feqb_spec in H2, H5. intros x' y' (_ & Ho & Hy & _).
  assert (E : y' = y). { rewrite (div_of _ _ _ H1 Hy), (div_of _ _ _ H1 H2). reflexivity. }
  subst y'. unfold edwards in Ho.
  assert (Hx : x' [*] x' [*] (one [+] d [*] y [*] y) = y [*] y [-] one).
  { transitivity (y [*] y [-] one [-] (y [*] y [-] x' [*] x' [-] (one [+] d [*] x' [*] x' [*] y [*] y))); [ring|].
    rewrite Ho. ring. }
  apply (div_of _ _ _ H4) in H5. apply (div_of _ _ _ H4) in Hx.
  assert (Hx0 : x' <> zero).
  { intros E. rewrite E in Hx. apply H3. apply (sub0 R RL).
    transitivity ((y [*] y [-] one) [*] finv p (one [+] d [*] y [*] y) [*] (one [+] d [*] y [*] y)); [field; exact H4|].
    rewrite <- Hx. ring. }
  apply (i_nonsquare R RL (w [*] finv p x')).
  transitivity ((w [*] w) [*] finv p (x' [*] x')); [field; exact Hx0|].
  assert (Hq : w [*] w = i [*] (x' [*] x')) by (rewrite H5, Hx; ring).
  rewrite Hq. field. exact Hx0.
Qed.
End Check.
