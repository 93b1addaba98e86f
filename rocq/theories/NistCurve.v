(** * NistCurve: the curves the crate's elliptic-curve suites run on.

    /repo/src/group/elliptic_curve.rs:25-108 implements [Group] for the curve
    types of the RustCrypto crates p256, p384 and p521 (Cargo.toml:48-59).
    Those crates are not in /repo; this file defines what they compute:
    affine points of y^2 = x^3 + a x + b over a prime field, SEC1 point
    decompression (crate primeorder 0.13) and the simplified SWU map (crate
    elliptic-curve 0.13, hash2curve/osswu.rs), for arbitrary parameters.
    Points are modelled by affine coordinates (the crates use projective
    ones), and multiplication by double-and-add (the crates use windows). *)
From Verif Require Export EllipticCurve Weierstrass Cyclic.
From Verif Require Import Pocklington.
Open Scope Z_scope.

Record Params : Type := {
  pp : Z;                                     (* the field *)
  pa : Z; pb : Z;                             (* the equation *)
  pn : Z; pgx : Z; pgy : Z;                   (* the order and the generator *)
  pz : Z; pc2 : Z;                            (* OsswuMapParams: z, c2 *)
  pw : nat;                                   (* bytes of a field element *)
  pl : N                                      (* bytes hashed per field element *)
}.

Section NistCurve.
Context (P : Params).
Local Notation p := (pp P).
Local Notation F := (Fq (pp P)).
Local Notation "x [+] y" := (fadd (pp P) x y) (at level 50, left associativity).
Local Notation "x [-] y" := (fsub (pp P) x y) (at level 50, left associativity).
Local Notation "x [*] y" := (fmul (pp P) x y) (at level 40, left associativity).
Local Notation "[~] x" := (fopp (pp P) x) (at level 35).

Definition cA : F := of_Z p (pa P).
Definition cB : F := of_Z p (pb P).
Definition cZ : F := of_Z p (pz P).
Definition cC2 : F := of_Z p (pc2 P).
Local Notation EP := (Point (pp P) cA cB).

(** ff, Field::pow_vartime. *)
Definition fpow (x : F) (e : Z) : F := of_Z p (powmod (fval x) e p).

(** hash2curve, Sgn0 for prime fields: the parity. *)
Definition sgn0 (x : F) : bool := Z.odd (fval x).

(** The square root for p = 3 mod 4, with the check of the candidate. *)
Definition fsqrt (x : F) : option F :=
  let r := fpow x ((p + 1) / 4) in
  if feqb p (r [*] r) x then Some r else None.

(** elliptic-curve, hash2curve/osswu.rs, [OsswuMap::osswu] (RFC 9380,
    appendix F.2, for fields with p = 3 mod 4), statement by statement. *)
Definition osswu (u : F) : F * F :=
  let tv1 := u [*] u in
  let tv3 := cZ [*] tv1 in
  let tv2 := tv3 [*] tv3 in
  let xd := tv2 [+] tv3 in
  let x1n := cB [*] (xd [+] f1 p) in
  let xd := xd [*] [~] cA in
  let xd := if feqb p xd (f0 p) then cZ [*] cA else xd in
  let tv2 := xd [*] xd in
  let gxd := tv2 [*] xd in
  let tv2 := tv2 [*] cA in
  let gx1 := x1n [*] (tv2 [+] x1n [*] x1n) in
  let tv2 := gxd [*] cB in
  let gx1 := gx1 [+] tv2 in
  let tv4 := gxd [*] gxd in
  let tv2 := gx1 [*] gxd in
  let tv4 := tv4 [*] tv2 in
  let y1 := fpow tv4 ((p - 3) / 4) [*] tv2 in
  let x2n := tv3 [*] x1n in
  let y2 := y1 [*] cC2 [*] tv1 [*] u in
  let tv2 := y1 [*] y1 [*] gxd in
  let e2 := feqb p tv2 gx1 in
  let x := (if e2 then x1n else x2n) [*] finv p xd in
  let y := if e2 then y1 else y2 in
  let y := if xorb (sgn0 u) (sgn0 y) then [~] y else y in
  (x, y).

(** primeorder, AffinePoint::decompress. *)
Definition decompress (xb : bytes) (y_is_odd : bool) : option EP :=
  if be_Z xb <? p then
    let x := of_Z p (be_Z xb) in
    match fsqrt (cubic p cA cB x) with
    | Some beta => Some (point p cA cB x (if Bool.eqb (sgn0 beta) y_is_odd then beta else [~] beta))
    | None => None
    end
  else None.

(** primeorder, FromEncodedPoint, uncompressed coordinates. *)
Definition from_xy (xb yb : bytes) : option EP :=
  if (be_Z xb <? p) && (be_Z yb <? p) then
    let x := of_Z p (be_Z xb) in
    let y := of_Z p (be_Z yb) in
    if on_curve p cA cB x y then Some (point p cA cB x y) else None
  else None.

(** Affine coordinates as SEC1 writes them. *)
Definition coords (Q : EP) : option (bytes * bool) :=
  match Q with
  | Inf _ _ _ => None
  | Aff _ _ _ x y _ => Some (I2OSP (Z.to_N (fval x)) (pw P), sgn0 y)
  end.

Definition generator : EP := point p cA cB (of_Z p (pgx P)) (of_Z p (pgy P)).

Definition nist_mul (Q : EP) (k : Fq (pn P)) : EP :=
  zmul (add p cA cB) (Inf p cA cB) (fval k) Q.

(** The [Curve] that [CurveGroup] takes.  [pick] says which of the two points
    DecompactPoint::decompact returns; nothing depends on it. *)
Definition NistCurve (pick : bytes -> bool) : Curve := {|
  order := pn P;
  field_bytes := pw P;
  field_okm := pl P;
  scalar_okm := pl P;
  FieldElem := F;
  field_from_okm := fun okm => of_Z p (be_Z okm);
  EPoint := EP;
  map_to_curve := fun u => let '(x, y) := osswu u in point p cA cB x y;
  clear_cofactor := fun Q => Q;
  ep_eq := peqb p cA cB;
  ep_add := add p cA cB;
  ep_mul := nist_mul;
  ep_generator := generator;
  ep_identity := Inf p cA cB;
  ep_coords := coords;
  ep_decompress := decompress;
  ep_decompact := fun xb => decompress xb (pick xb);
  ep_from_xy := from_xy
|}.
End NistCurve.
