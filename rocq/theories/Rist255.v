(** * Rist255: what curve25519-dalek computes for the crate.

    /repo/src/group/ristretto.rs:36-132 calls the crate curve25519-dalek
    (Cargo.toml:40-42), which is not in /repo.  This file defines the
    functions it calls: the ristretto255 group of RFC 9496, with Decode,
    Encode, Equals and the one-way map of section 4.3 statement by statement
    (curve25519-dalek 4, src/ristretto.rs and src/field.rs, has the same
    statements).  Simplifications: a point of the curve has affine
    coordinates (dalek's are extended), and multiplication is by
    double-and-add.  An element of the group is a class of four points of the
    curve; it is represented by the point that decoding its encoding gives
    (dalek computes with any of the four). *)
From Verif Require Export Ristretto Edwards Cyclic.
From Verif Require Import Pocklington.
From Coq Require Import Znumtheory.
Open Scope Z_scope.

Record RParams : Type := {
  rp : Z;                                     (* the field *)
  rd : Z;                                     (* D *)
  ri : Z;                                     (* SQRT_M1 *)
  rq : Z;                                     (* SQRT_AD_MINUS_ONE *)
  rc : Z;                                     (* INVSQRT_A_MINUS_D *)
  rods : Z;                                   (* ONE_MINUS_D_SQ *)
  rdos : Z;                                   (* D_MINUS_ONE_SQ *)
  rbx : Z; rby : Z                            (* the generator of Ed25519 *)
}.

Section Rist.
Context (R : RParams) (Hp : prime (rp R)).
Local Notation p := (rp R).
Local Notation F := (Fq (rp R)).
Local Notation "x [+] y" := (fadd (rp R) x y) (at level 50, left associativity).
Local Notation "x [-] y" := (fsub (rp R) x y) (at level 50, left associativity).
Local Notation "x [*] y" := (fmul (rp R) x y) (at level 40, left associativity).
Local Notation "[~] x" := (fopp (rp R) x) (at level 35).
Local Notation "x [=] y" := (feqb (rp R) x y) (at level 70).

Definition cD : F := of_Z p (rd R).
Definition cI : F := of_Z p (ri R).
Definition SQRT_AD_MINUS_ONE : F := of_Z p (rq R).
Definition INVSQRT_A_MINUS_D : F := of_Z p (rc R).
Definition ONE_MINUS_D_SQ : F := of_Z p (rods R).
Definition D_MINUS_ONE_SQ : F := of_Z p (rdos R).
Local Notation one := (f1 (rp R)).
Local Notation zero := (f0 (rp R)).

(** RFC 9496, section 4.1: IS_NEGATIVE, CT_ABS. *)
Definition is_negative (x : F) : bool := Z.odd (fval x).
Definition ct_abs (x : F) : F := if is_negative x then [~] x else x.

Definition rpow (x : F) (e : Z) : F := of_Z p (powmod (fval x) e p).

(** RFC 9496, section 4.2, SQRT_RATIO_M1; field.rs, [sqrt_ratio_i]. *)
Definition sqrt_ratio_m1 (u v : F) : bool * F :=
  let v3 := v [*] v [*] v in
  let v7 := v3 [*] v3 [*] v in
  let r := (u [*] v3) [*] rpow (u [*] v7) ((p - 5) / 8) in
  let check := v [*] (r [*] r) in
  let correct_sign := check [=] u in
  let flipped_sign := check [=] ([~] u) in
  let flipped_sign_i := check [=] (([~] u) [*] cI) in
  let r := if (flipped_sign || flipped_sign_i)%bool then cI [*] r else r in
  ((correct_sign || flipped_sign)%bool, ct_abs r).

(** RFC 9496, section 4.3.1, steps 2 to 4, with [s] the field element of step
    1; ristretto.rs, [decompress::step_2]. *)
Definition decode_s (s : F) : option (F * F) :=
  let ss := s [*] s in
  let u1 := one [-] ss in
  let u2 := one [+] ss in
  let u2_sqr := u2 [*] u2 in
  let v := [~] (cD [*] (u1 [*] u1)) [-] u2_sqr in
  let '(was_square, invsqrt) := sqrt_ratio_m1 one (v [*] u2_sqr) in
  let den_x := invsqrt [*] u2 in
  let den_y := invsqrt [*] den_x [*] v in
  let x := ct_abs ((one [+] one) [*] s [*] den_x) in
  let y := u1 [*] den_y in
  let t := x [*] y in
  if (negb was_square || is_negative t || (y [=] zero))%bool then None else Some (x, y).

(** Section 4.3.1, step 1: 32 bytes, least significant first, below p and
    not negative. *)
Definition decode (b : bytes) : option (F * F) :=
  if ((length b =? 32)%nat && (le_Z b <? p) && negb (is_negative (of_Z p (le_Z b))))%bool
  then decode_s (of_Z p (le_Z b)) else None.

(** Section 4.3.2; ristretto.rs, [RistrettoPoint::compress]. *)
Definition encode_s (x0 y0 z0 t0 : F) : F :=
  let u1 := (z0 [+] y0) [*] (z0 [-] y0) in
  let u2 := x0 [*] y0 in
  let '(_, invsqrt) := sqrt_ratio_m1 one (u1 [*] (u2 [*] u2)) in
  let den1 := invsqrt [*] u1 in
  let den2 := invsqrt [*] u2 in
  let z_inv := den1 [*] den2 [*] t0 in
  let ix0 := x0 [*] cI in
  let iy0 := y0 [*] cI in
  let enchanted_denominator := den1 [*] INVSQRT_A_MINUS_D in
  let rotate := is_negative (t0 [*] z_inv) in
  let x := if rotate then iy0 else x0 in
  let y := if rotate then ix0 else y0 in
  let z := z0 in
  let den_inv := if rotate then enchanted_denominator else den2 in
  let y := if is_negative (x [*] z_inv) then [~] y else y in
  ct_abs (den_inv [*] (z [-] y)).
Definition encode (x0 y0 z0 t0 : F) : bytes := le_bytes (fval (encode_s x0 y0 z0 t0)) 32.

(** Section 4.3.3. *)
Definition equals (x1 y1 x2 y2 : F) : bool :=
  ((x1 [*] y2) [=] (y1 [*] x2)) || ((y1 [*] y2) [=] (x1 [*] x2)).

(** Section 4.3.4, MAP; ristretto.rs, [elligator_ristretto_flavor].  The
    extended coordinates of a point. *)
Definition rmap (t : F) : F * F * F * F :=
  let r := cI [*] (t [*] t) in
  let u := (r [+] one) [*] ONE_MINUS_D_SQ in
  let v := ([~] one [-] r [*] cD) [*] (r [+] cD) in
  let '(was_square, s) := sqrt_ratio_m1 u v in
  let s_prime := [~] (ct_abs (s [*] t)) in
  let s := if was_square then s else s_prime in
  let c := if was_square then [~] one else r in
  let N := c [*] (r [-] one) [*] D_MINUS_ONE_SQ [-] v in
  let w0 := (one [+] one) [*] s [*] v in
  let w1 := N [*] SQRT_AD_MINUS_ONE in
  let w2 := one [-] s [*] s in
  let w3 := one [+] s [*] s in
  (w0 [*] w3, w2 [*] w1, w1 [*] w3, w0 [*] w2).

(** ** The group *)
Local Notation EP := (EPoint (rp R) cD).

Definition encode_point (P : EP) : F := encode_s (ex _ _ P) (ey _ _ P) one (ex _ _ P [*] ey _ _ P).
(** The representative of the class of [P]. *)
Definition rep (P : EP) : EP :=
  match decode_s (encode_point P) with
  | Some (x, y) => epoint p cD Hp x y
  | None => eid p cD Hp
  end.
Record RP : Type := mkRP { rpt : EP; rpt_rep : epeqb p cD (rep rpt) rpt = true }.

Lemma RP_eq P Q : rpt P = rpt Q -> P = Q.
Proof. destruct P, Q. cbn. intros <-. f_equal. apply Eqdep_dec.UIP_dec, Bool.bool_dec. Qed.

(** The element with a representative ([none] if it is not one). *)
Definition mk_rp (none : RP) (P : EP) : RP :=
  match Bool.bool_dec (epeqb p cD (rep P) P) true with
  | left H => mkRP P H
  | right _ => none
  end.

Context (id_rep : epeqb p cD (rep (eid p cD Hp)) (eid p cD Hp) = true).
Definition rid : RP := mkRP (eid p cD Hp) id_rep.
Definition class (P : EP) : RP := mk_rp rid (rep P).

Definition radd (P Q : RP) : RP := class (eadd p cD Hp (rpt P) (rpt Q)).
Definition rmul (P : RP) (k : RScalar) : RP := zmul radd rid (fval k) P.
Definition rbase : RP := class (epoint p cD Hp (of_Z p (rbx R)) (of_Z p (rby R))).
Definition req (P Q : RP) : bool :=
  equals (ex _ _ (rpt P)) (ey _ _ (rpt P)) (ex _ _ (rpt Q)) (ey _ _ (rpt Q)).

(** Section 4.3.1 and 4.3.2. *)
Definition rcompress (P : RP) : bytes :=
  let x := ex _ _ (rpt P) in let y := ey _ _ (rpt P) in encode x y one (x [*] y).
Definition rdecompress (b : bytes) : option RP :=
  match decode b with Some (x, y) => Some (mk_rp rid (epoint p cD Hp x y)) | None => None end.

(** Section 4.3.4: the two halves, top bits cleared, reduced and mapped. *)
Definition half (b : bytes) : F := of_Z p (le_Z b mod 2 ^ 255).
Definition affine (c : F * F * F * F) : EP :=
  let '(x, y, z, _) := c in epoint p cD Hp (x [*] finv p z) (y [*] finv p z).
Definition rfrom_uniform (b : bytes) : RP :=
  class (eadd p cD Hp (affine (rmap (half (firstn 32 b)))) (affine (rmap (half (skipn 32 b))))).

Definition RDalek : Dalek := {|
  RPoint := RP; rp_eq := req; rp_add := radd; rp_mul := rmul; rp_base := rbase; rp_identity := rid;
  compress := rcompress; decompress := rdecompress; from_uniform_bytes := rfrom_uniform
|}.
End Rist.
