(** * NistSpec: the simplified SWU map, from RFC 9380, section 6.6.2.

    Written from the RFC (the straightforward algorithm), not from the code,
    which uses the optimised one of appendix F.2. *)
From Verif Require Import Fq.
Open Scope Z_scope.

Section Spec.
Context (p : Z) (A B Z : Fq p).
Local Notation F := (Fq p).
Local Notation "x [+] y" := (fadd p x y) (at level 50, left associativity).
Local Notation "x [*] y" := (fmul p x y) (at level 40, left associativity).

(** Section 4: the sign of a field element, and squares. *)
Definition rfc_sgn0 (x : F) : bool := Z.odd (fval x).
Definition rfc_is_square (x : F) : Prop := exists r, r [*] r = x.
Definition rfc_inv0 (x : F) : F := finv p x.
Definition rfc_g (x : F) : F := x [*] x [*] x [+] A [*] x [+] B.

(** Steps 1-3. *)
Definition rfc_x1 (u : F) : F :=
  let tv1 := rfc_inv0 (Z [*] Z [*] (u [*] u [*] u [*] u) [+] Z [*] (u [*] u)) in
  if feqb p tv1 (f0 p) then B [*] rfc_inv0 (Z [*] A)
  else fopp p B [*] rfc_inv0 A [*] (f1 p [+] tv1).

(** Step 5. *)
Definition rfc_x2 (u : F) : F := Z [*] (u [*] u) [*] rfc_x1 u.

(** Steps 4 and 6-10: (x, y) is the result for [u]. *)
Definition rfc_sswu (u x y : F) : Prop :=
  (rfc_is_square (rfc_g (rfc_x1 u)) -> x = rfc_x1 u) /\
  (~ rfc_is_square (rfc_g (rfc_x1 u)) -> x = rfc_x2 u) /\
  y [*] y = rfc_g x /\
  rfc_sgn0 y = rfc_sgn0 u.
End Spec.
