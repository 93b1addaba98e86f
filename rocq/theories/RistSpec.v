(** * RistSpec: ristretto255, from RFC 9496.

    Written from the RFC: what decoding accepts as equations between the
    number that is read and the coordinates of a point (section 4.3.1), the
    four points that stand for the same element (section 4.3.3), and the map
    of section 4.3.4 from the description of SQRT_RATIO_M1 in section 4.2. *)
From Verif Require Import Fq.
Open Scope Z_scope.

Section Spec.
Context (p : Z) (d i q : Fq p).               (* D, SQRT_M1, SQRT_AD_MINUS_ONE *)
Local Notation F := (Fq p).
Local Notation "x [+] y" := (fadd p x y) (at level 50, left associativity).
Local Notation "x [-] y" := (fsub p x y) (at level 50, left associativity).
Local Notation "x [*] y" := (fmul p x y) (at level 40, left associativity).
Local Notation "x [/] y" := (fmul p x (finv p y)) (at level 40, left associativity).
Local Notation "[~] x" := (fopp p x) (at level 35).
Local Notation one := (f1 p).
Local Notation zero := (f0 p).
Local Notation two := (fadd p (f1 p) (f1 p)).

(** Section 4.1: non-negative field elements. *)
Definition rfc_nonneg (x : F) : Prop := Z.odd (fval x) = false.

(** The twisted Edwards curve - x^2 + y^2 = 1 + d x^2 y^2, and its addition. *)
Definition edwards (x y : F) : Prop := y [*] y [-] x [*] x = one [+] d [*] x [*] x [*] y [*] y.
Definition edwards_sum (x1 y1 x2 y2 x3 y3 : F) : Prop :=
  x3 [*] (one [+] d [*] x1 [*] x2 [*] y1 [*] y2) = x1 [*] y2 [+] y1 [*] x2 /\
  y3 [*] (one [-] d [*] x1 [*] x2 [*] y1 [*] y2) = y1 [*] y2 [+] x1 [*] x2.

(** Section 4.3.1: [s] decodes to (x, y). *)
Definition rfc_decodes (s x y : F) : Prop :=
  rfc_nonneg s /\ edwards x y /\ y [*] (one [+] s [*] s) = one [-] s [*] s /\
  rfc_nonneg x /\ rfc_nonneg (x [*] y) /\ y <> zero.

(** Section 4.3.3: two points that stand for the same element. *)
Definition rfc_same (x y x' y' : F) : Prop := x [*] y' = y [*] x' \/ y [*] y' = x [*] x'.

(** Section 4.2: SQRT_RATIO_M1(u, v) is (b, r). *)
Definition rfc_sqrt_ratio (u v : F) (b : bool) (r : F) : Prop :=
  rfc_nonneg r /\
  (u <> zero -> v <> zero -> (exists z, z [*] z = u [/] v) -> b = true /\ r [*] r = u [/] v) /\
  (u = zero -> b = true /\ r = zero) /\
  (u <> zero -> v = zero -> b = false /\ r = zero) /\
  (u <> zero -> v <> zero -> ~ (exists z, z [*] z = u [/] v) -> b = false /\ r [*] r = i [*] (u [/] v)).

(** Section 4.3.4: MAP(t) is (x, y). *)
Definition rfc_map (t x y : F) : Prop :=
  let r := i [*] (t [*] t) in
  let u := (r [+] one) [*] (one [-] d [*] d) in
  let v := ([~] one [-] r [*] d) [*] (r [+] d) in
  exists (was_square : bool) (s0 s c : F),
    rfc_sqrt_ratio u v was_square s0 /\
    (was_square = true -> s = s0 /\ c = [~] one) /\
    (was_square = false -> c = r /\ rfc_nonneg ([~] s) /\ s [*] s = (s0 [*] t) [*] (s0 [*] t)) /\
    let N := c [*] (r [-] one) [*] ((d [-] one) [*] (d [-] one)) [-] v in
    x = (two [*] s [*] v) [/] (N [*] q) /\
    y = (one [-] s [*] s) [/] (one [+] s [*] s).
End Spec.
