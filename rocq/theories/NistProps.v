(** * NistProps: what the elliptic-curve suites compute, in plain integers.

    General in the parameters ([ParamsLaws]); [PropNist] applies it to the
    curves of the crate.  The first part is a specification that uses only
    integers and byte strings. *)
From Verif Require Import NistCurve NistFacts NistSpec EllipticCurveFacts PropGroups PropCanonical Sha2.
From Coq Require Import Znumtheory.
Open Scope Z_scope.

(** ** Specification *)

(** (x, y) is a point of y^2 = x^3 + a x + b over the field of p elements. *)
Definition curve_point (p a b x y : Z) : Prop :=
  0 <= x < p /\ 0 <= y < p /\ (y * y) mod p = (x * x * x + a * x + b) mod p.

(** SEC1, sections 2.3.3 and 2.3.4, with the compact form of
    draft-jivsov-ecc-compact (tag 05, which names x only): the string [buf]
    stands for the point (x, y); [w] is the number of bytes of a coordinate. *)
Definition encodes (p a b : Z) (w : nat) (buf : bytes) (x y : Z) : Prop :=
  curve_point p a b x y /\ exists xb, length xb = w /\ be_Z xb = x /\
    (buf = x02 :: xb /\ Z.odd y = false \/
     buf = x03 :: xb /\ Z.odd y = true \/
     buf = x05 :: xb \/
     exists yb, length yb = w /\ be_Z yb = y /\ buf = x04 :: xb ++ yb).

Section Props.
Context (P : Params) (PL : ParamsLaws P) (pick : bytes -> bool).
Local Notation p := (pp P).
Local Notation A := (cA P).
Local Notation B := (cB P).
Local Notation C := (NistCurve P pick).
Local Notation Hp := (pp_prime P PL).
Local Notation on_Z := (curve_point (pp P) (pa P) (pb P)).

(** The coordinates of a point, as integers. *)
Definition affine (Q : Point p A B) : option (Z * Z) :=
  match Q with
  | Inf _ _ _ => None
  | Aff _ _ _ x y _ => Some (fval x, fval y)
  end.

Lemma of_Z_add x y : fadd p (of_Z p x) (of_Z p y) = of_Z p (x + y).
Proof. apply of_Z_eq. cbn [of_Z fval]. symmetry; apply Zplus_mod. Qed.
Lemma of_Z_mul x y : fmul p (of_Z p x) (of_Z p y) = of_Z p (x * y).
Proof. apply of_Z_eq. cbn [of_Z fval]. symmetry; apply Zmult_mod. Qed.
Lemma of_Z_inj x y : of_Z p x = of_Z p y <-> x mod p = y mod p.
Proof. split; [intros E; exact (f_equal fval E)|apply of_Z_eq]. Qed.

Lemma on_curve_Z x y : on_curve p A B x y = true <-> on_Z (fval x) (fval y).
Proof.
  pose proof (fval_range p Hp x) as Hx. pose proof (fval_range p Hp y) as Hy.
  unfold on_curve. rewrite feqb_spec. unfold cubic, curve_point.
  rewrite <- (of_Z_fval x) at 1 2 3 4. rewrite <- (of_Z_fval y) at 1 2. unfold cA, cB.
  rewrite !of_Z_mul, !of_Z_add, of_Z_inj. tauto.
Qed.

(** A pair of coordinates is that of exactly one point. *)
Lemma affine_inj Q T : affine Q = affine T -> Q = T.
Proof.
  destruct Q as [|x y H], T as [|x' y' H']; cbn [affine]; try discriminate; [reflexivity|].
  intros [= E1 E2]. apply Aff_eq; now apply Fq_eq.
Qed.
Lemma affine_on Q x y : affine Q = Some (x, y) -> on_Z x y.
Proof. destruct Q as [|x' y' H]; [discriminate|]. intros [= <- <-]. now apply on_curve_Z. Qed.
Lemma affine_ex x y : on_Z x y -> exists H,
  affine (Aff p A B (of_Z p x) (of_Z p y) H) = Some (x, y).
Proof.
  intros H. pose proof H as (Hx & Hy & _).
  assert (E1 : fval (of_Z p x) = x) by (cbn [of_Z fval]; apply Z.mod_small; lia).
  assert (E2 : fval (of_Z p y) = y) by (cbn [of_Z fval]; apply Z.mod_small; lia).
  assert (Hc : on_curve p A B (of_Z p x) (of_Z p y) = true) by (apply on_curve_Z; now rewrite E1, E2).
  exists Hc. cbn [affine]. now rewrite E1, E2.
Qed.

(** Decompression finds the point with the given x and parity of y. *)
Lemma decompress_iff xb odd Q : length xb = pw P ->
  decompress P xb odd = Some Q <->
  exists y, affine Q = Some (be_Z xb, y) /\ Z.odd y = odd.
Proof.
  intros Hl. split.
  - intros E. destruct (decompress_some P PL _ _ _ E) as (x & y & H & -> & Hx & Hy).
    exists (fval y). cbn [affine]. rewrite Hx. auto.
  - intros (y & E & Hy). destruct Q as [|x' y' H]; [discriminate|]. injection E as E1 E2.
    destruct (coords_roundtrip P PL x' y' H) as (xb' & _ & H2 & H3).
    destruct (decompress_some P PL _ _ _ H3) as (x2 & y2 & K & E & Hx & _). injection E as -> ->.
    assert (Eb : xb' = xb) by (apply be_Z_inj; congruence). subst xb'.
    unfold sgn0 in H3. rewrite E2, Hy in H3. exact H3.
Qed.

Lemma from_xy_iff xb yb Q : from_xy P xb yb = Some Q <-> affine Q = Some (be_Z xb, be_Z yb).
Proof.
  unfold from_xy. pose proof (be_Z_range xb) as Rx. pose proof (be_Z_range yb) as Ry. split.
  - destruct (Z.ltb_spec (be_Z xb) p) as [Hx|]; [|discriminate].
    destruct (Z.ltb_spec (be_Z yb) p) as [Hy|]; [|discriminate]. cbn [andb].
    destruct (on_curve _ _ _ _ _) eqn:Hc; [|discriminate]. intros [= <-].
    rewrite (point_on p A B _ _ Hc). cbn [affine of_Z fval]. rewrite !Z.mod_small by lia. reflexivity.
  - intros E. pose proof (affine_on _ _ _ E) as Hon. pose proof Hon as (Hx & Hy & _).
    rewrite (proj2 (Z.ltb_lt _ _)), (proj2 (Z.ltb_lt _ _)) by lia. cbn [andb].
    destruct (affine_ex _ _ Hon) as (Hc & E'). rewrite Hc, (point_on p A B _ _ Hc). f_equal.
    apply affine_inj. congruence.
Qed.

Section Group.
Context (fuel : nat).
Local Notation G := (CurveGroup C fuel).

(** Reading elements. *)
Theorem deserialize_sound b e : deserialize_elem G b = Ok e ->
  exists x y, affine e = Some (x, y) /\ encodes p (pa P) (pb P) (pw P) b x y.
Proof.
  intros E. destruct (C38_curve_encodings C (nist_curve_laws P PL pick) fuel) as (_ & _ & _ & _ & Hd & _).
  apply Hd in E. destruct E as [(x & Hx & E)|(x & y & Hx & Hy & -> & E)].
  - assert (K : exists odd, decompress P x odd = Some e /\
      (b = x02 :: x /\ odd = false \/ b = x03 :: x /\ odd = true \/ b = x05 :: x)).
    { destruct E as [[-> E]|[[-> E]|[-> E]]]; eexists; (split; [exact E|]); auto. }
    destruct K as (odd & K & Ht). apply decompress_iff in K as (y & Ea & Ho); [|exact Hx].
    exists (be_Z x), y. split; [exact Ea|]. split; [exact (affine_on _ _ _ Ea)|].
    exists x. split; [exact Hx|]. split; [reflexivity|]. subst odd. tauto.
  - apply from_xy_iff in E. exists (be_Z x), (be_Z y). split; [exact E|]. split; [exact (affine_on _ _ _ E)|].
    exists x. split; [exact Hx|]. split; [reflexivity|]. right; right; right. now exists y.
Qed.

Theorem deserialize_complete b x y : encodes p (pa P) (pb P) (pw P) b x y ->
  exists e, deserialize_elem G b = Ok e /\
    (affine e = Some (x, y) \/ hd x00 b = x05 /\ exists y', affine e = Some (x, y')).
Proof.
  intros (Hon & xb & Hl & Hx & Ht). destruct (affine_ex _ _ Hon) as (Hc & Ea).
  destruct (C38_curve_encodings C (nist_curve_laws P PL pick) fuel) as (_ & _ & _ & _ & Hd & _).
  set (e := Aff p A B (of_Z p x) (of_Z p y) Hc) in *.
  assert (Hde : decompress P xb (Z.odd y) = Some e).
  { apply decompress_iff; [exact Hl|]. exists y. rewrite Hx. auto. }
  destruct Ht as [[-> Ho]|[[-> Ho]|[->|(yb & Hyl & Hy & ->)]]].
  - exists e. split; [|now left]. apply Hd. left. exists xb. split; [exact Hl|]. left.
    split; [reflexivity|]. cbn [ep_decompress NistCurve]. now rewrite <- Ho.
  - exists e. split; [|now left]. apply Hd. left. exists xb. split; [exact Hl|]. right; left.
    split; [reflexivity|]. cbn [ep_decompress NistCurve]. now rewrite <- Ho.
  - destruct (decompress_other P xb (Z.odd y) (pick xb) e Hde) as [e' E'].
    exists e'. split.
    + apply Hd. left. exists xb. split; [exact Hl|]. right; right. split; [reflexivity|exact E'].
    + right. split; [reflexivity|]. apply decompress_iff in E' as (y' & Ea' & _); [|exact Hl].
      exists y'. now rewrite Hx in Ea'.
  - exists e. split; [|now left]. apply Hd. right. exists xb, yb. split; [exact Hl|]. split; [exact Hyl|].
    split; [reflexivity|]. cbn [ep_from_xy NistCurve]. apply from_xy_iff. congruence.
Qed.

(** Writing elements. *)
Theorem serialize_point e x y : affine e = Some (x, y) -> exists xb,
  serialize_elem G e = (if Z.odd y then x03 else x02) :: xb /\ length xb = pw P /\ be_Z xb = x.
Proof.
  destruct e as [|x' y' H]; [discriminate|]. intros [= <- <-].
  destruct (coords_roundtrip P PL x' y' H) as (xb & H1 & H2 & H3). exists xb.
  split; [|split; [exact H2|]].
  - exact (ec_serialize_point (C := C) _ _ _ H1 H2).
  - destruct (decompress_some P PL _ _ _ H3) as (x2 & y2 & K & E & Hx & _). now injection E as -> _.
Qed.

(** The group is that of the multiples of the generator, all different. *)
Theorem multiples (e : Elem G) : exists k : Scalar G,
  e = elem_mul G (base_elem G) k /\ forall k', e = elem_mul G (base_elem G) k' -> k' = k.
Proof.
  pose proof (curve_group_laws (nist_curve_laws P PL pick) fuel) as GL.
  destruct (elem_generated _ GL e) as [k Hk]. exists k. split; [exact Hk|].
  intros k' Hk'. apply (GroupFacts.base_mul_inj GL). congruence.
Qed.
End Group.

(** Hashing. *)
Theorem hash_point (H : HashFn) (HL : HashLaws H) (Hokm : okm_fits (C := C) (H := H)) fuel msgs tags :
  concat tags <> [] ->
  let L := N.to_nat (pl P) in
  let uniform := expand_message_xmd (digest H) (output_size H) (block_size H)
                   (concat msgs) (concat tags) (2 * pl P) in
  let u0 := of_Z p (be_Z (firstn L uniform)) in
  let u1 := of_Z p (be_Z (skipn L uniform)) in
  exists x0 y0 H0 x1 y1 H1,
    rfc_sswu p A B (cZ P) u0 x0 y0 /\ rfc_sswu p A B (cZ P) u1 x1 y1 /\
    hash_to_curve (CurveGroup C fuel) H msgs tags
    = Ok (add p A B (Aff p A B x0 y0 H0) (Aff p A B x1 y1 H1)).
Proof.
  intros Ht L uniform u0 u1.
  destruct (map_to_curve_spec P PL pick u0) as (x0 & y0 & H0 & E0 & R0).
  destruct (map_to_curve_spec P PL pick u1) as (x1 & y1 & H1 & E1 & R1).
  exists x0, y0, H0, x1, y1, H1. split; [exact R0|]. split; [exact R1|].
  destruct (C42_curve_hash C (nist_curve_laws P PL pick) H HL Hokm fuel msgs tags) as [K _].
  destruct (K Ht) as [Kc _]. etransitivity; [exact Kc|]. rewrite <- E0, <- E1.
  replace (field_okm C + field_okm C)%N with (2 * pl P)%N by (cbn [field_okm NistCurve]; lia). reflexivity.
Qed.

Lemma nist_decode_laws : DecodeLaws C.
Proof.
  constructor; cbn [field_bytes ep_decompress ep_decompact ep_coords NistCurve].
  - intros x odd Q Hx E. now apply (coords_decompress P PL).
  - intros x Q Hx E. exists (pick x). now apply (coords_decompress P PL).
  - intros x odd Q Hx E. now apply (decompress_other P _ _ _ _ E).
Qed.
End Props.

Lemma hash_of_laws (S : Sha2) : ShaShape S -> (1 <= sh_out S < 256)%nat -> HashLaws (hash_of S).
Proof.
  intros HS Ho. constructor; cbn [digest output_size hash_of]; [|lia..].
  intros m. unfold len. now rewrite (sha2_length S HS).
Qed.
