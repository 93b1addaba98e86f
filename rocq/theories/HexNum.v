(** * HexNum: natural numbers in base sixteen, with the digit in the constructor.

    Library mathematics; models no code.  Used by the checkers of numerical
    certificates, because the kernel evaluates addition on it about four times
    as fast as on binary numbers.  Written by /verif/tools/gen_hexnum.py. *)
From Coq Require Import ZArith List Lia.
Import ListNotations.
Open Scope Z_scope.

(** Least significant digit first. *)
Inductive num : Set :=
| E
| X0 (n : num)
| X1 (n : num)
| X2 (n : num)
| X3 (n : num)
| X4 (n : num)
| X5 (n : num)
| X6 (n : num)
| X7 (n : num)
| X8 (n : num)
| X9 (n : num)
| X10 (n : num)
| X11 (n : num)
| X12 (n : num)
| X13 (n : num)
| X14 (n : num)
| X15 (n : num).

Fixpoint val (x : num) : Z :=
  match x with
  | E => 0
  | X0 n => 0 + 16 * val n
  | X1 n => 1 + 16 * val n
  | X2 n => 2 + 16 * val n
  | X3 n => 3 + 16 * val n
  | X4 n => 4 + 16 * val n
  | X5 n => 5 + 16 * val n
  | X6 n => 6 + 16 * val n
  | X7 n => 7 + 16 * val n
  | X8 n => 8 + 16 * val n
  | X9 n => 9 + 16 * val n
  | X10 n => 10 + 16 * val n
  | X11 n => 11 + 16 * val n
  | X12 n => 12 + 16 * val n
  | X13 n => 13 + 16 * val n
  | X14 n => 14 + 16 * val n
  | X15 n => 15 + 16 * val n
  end.

Lemma val_nonneg x : 0 <= val x.
Proof. induction x; cbn [val]; lia. Qed.

Fixpoint succ (x : num) : num :=
  match x with
  | E => X1 E
  | X0 n => X1 n
  | X1 n => X2 n
  | X2 n => X3 n
  | X3 n => X4 n
  | X4 n => X5 n
  | X5 n => X6 n
  | X6 n => X7 n
  | X7 n => X8 n
  | X8 n => X9 n
  | X9 n => X10 n
  | X10 n => X11 n
  | X11 n => X12 n
  | X12 n => X13 n
  | X13 n => X14 n
  | X14 n => X15 n
  | X15 n => X0 (succ n)
  end.

Lemma succ_val x : val (succ x) = val x + 1.
Proof. induction x; cbn [val succ]; lia. Qed.

Fixpoint add (x y : num) {struct x} : num :=
  match x with
  | E => y
  | X0 a => match y with E => x | X0 b => X0 (add a b) | X1 b => X1 (add a b) | X2 b => X2 (add a b) | X3 b => X3 (add a b) | X4 b => X4 (add a b) | X5 b => X5 (add a b) | X6 b => X6 (add a b) | X7 b => X7 (add a b) | X8 b => X8 (add a b) | X9 b => X9 (add a b) | X10 b => X10 (add a b) | X11 b => X11 (add a b) | X12 b => X12 (add a b) | X13 b => X13 (add a b) | X14 b => X14 (add a b) | X15 b => X15 (add a b) end
  | X1 a => match y with E => x | X0 b => X1 (add a b) | X1 b => X2 (add a b) | X2 b => X3 (add a b) | X3 b => X4 (add a b) | X4 b => X5 (add a b) | X5 b => X6 (add a b) | X6 b => X7 (add a b) | X7 b => X8 (add a b) | X8 b => X9 (add a b) | X9 b => X10 (add a b) | X10 b => X11 (add a b) | X11 b => X12 (add a b) | X12 b => X13 (add a b) | X13 b => X14 (add a b) | X14 b => X15 (add a b) | X15 b => X0 (addc a b) end
  | X2 a => match y with E => x | X0 b => X2 (add a b) | X1 b => X3 (add a b) | X2 b => X4 (add a b) | X3 b => X5 (add a b) | X4 b => X6 (add a b) | X5 b => X7 (add a b) | X6 b => X8 (add a b) | X7 b => X9 (add a b) | X8 b => X10 (add a b) | X9 b => X11 (add a b) | X10 b => X12 (add a b) | X11 b => X13 (add a b) | X12 b => X14 (add a b) | X13 b => X15 (add a b) | X14 b => X0 (addc a b) | X15 b => X1 (addc a b) end
  | X3 a => match y with E => x | X0 b => X3 (add a b) | X1 b => X4 (add a b) | X2 b => X5 (add a b) | X3 b => X6 (add a b) | X4 b => X7 (add a b) | X5 b => X8 (add a b) | X6 b => X9 (add a b) | X7 b => X10 (add a b) | X8 b => X11 (add a b) | X9 b => X12 (add a b) | X10 b => X13 (add a b) | X11 b => X14 (add a b) | X12 b => X15 (add a b) | X13 b => X0 (addc a b) | X14 b => X1 (addc a b) | X15 b => X2 (addc a b) end
  | X4 a => match y with E => x | X0 b => X4 (add a b) | X1 b => X5 (add a b) | X2 b => X6 (add a b) | X3 b => X7 (add a b) | X4 b => X8 (add a b) | X5 b => X9 (add a b) | X6 b => X10 (add a b) | X7 b => X11 (add a b) | X8 b => X12 (add a b) | X9 b => X13 (add a b) | X10 b => X14 (add a b) | X11 b => X15 (add a b) | X12 b => X0 (addc a b) | X13 b => X1 (addc a b) | X14 b => X2 (addc a b) | X15 b => X3 (addc a b) end
  | X5 a => match y with E => x | X0 b => X5 (add a b) | X1 b => X6 (add a b) | X2 b => X7 (add a b) | X3 b => X8 (add a b) | X4 b => X9 (add a b) | X5 b => X10 (add a b) | X6 b => X11 (add a b) | X7 b => X12 (add a b) | X8 b => X13 (add a b) | X9 b => X14 (add a b) | X10 b => X15 (add a b) | X11 b => X0 (addc a b) | X12 b => X1 (addc a b) | X13 b => X2 (addc a b) | X14 b => X3 (addc a b) | X15 b => X4 (addc a b) end
  | X6 a => match y with E => x | X0 b => X6 (add a b) | X1 b => X7 (add a b) | X2 b => X8 (add a b) | X3 b => X9 (add a b) | X4 b => X10 (add a b) | X5 b => X11 (add a b) | X6 b => X12 (add a b) | X7 b => X13 (add a b) | X8 b => X14 (add a b) | X9 b => X15 (add a b) | X10 b => X0 (addc a b) | X11 b => X1 (addc a b) | X12 b => X2 (addc a b) | X13 b => X3 (addc a b) | X14 b => X4 (addc a b) | X15 b => X5 (addc a b) end
  | X7 a => match y with E => x | X0 b => X7 (add a b) | X1 b => X8 (add a b) | X2 b => X9 (add a b) | X3 b => X10 (add a b) | X4 b => X11 (add a b) | X5 b => X12 (add a b) | X6 b => X13 (add a b) | X7 b => X14 (add a b) | X8 b => X15 (add a b) | X9 b => X0 (addc a b) | X10 b => X1 (addc a b) | X11 b => X2 (addc a b) | X12 b => X3 (addc a b) | X13 b => X4 (addc a b) | X14 b => X5 (addc a b) | X15 b => X6 (addc a b) end
  | X8 a => match y with E => x | X0 b => X8 (add a b) | X1 b => X9 (add a b) | X2 b => X10 (add a b) | X3 b => X11 (add a b) | X4 b => X12 (add a b) | X5 b => X13 (add a b) | X6 b => X14 (add a b) | X7 b => X15 (add a b) | X8 b => X0 (addc a b) | X9 b => X1 (addc a b) | X10 b => X2 (addc a b) | X11 b => X3 (addc a b) | X12 b => X4 (addc a b) | X13 b => X5 (addc a b) | X14 b => X6 (addc a b) | X15 b => X7 (addc a b) end
  | X9 a => match y with E => x | X0 b => X9 (add a b) | X1 b => X10 (add a b) | X2 b => X11 (add a b) | X3 b => X12 (add a b) | X4 b => X13 (add a b) | X5 b => X14 (add a b) | X6 b => X15 (add a b) | X7 b => X0 (addc a b) | X8 b => X1 (addc a b) | X9 b => X2 (addc a b) | X10 b => X3 (addc a b) | X11 b => X4 (addc a b) | X12 b => X5 (addc a b) | X13 b => X6 (addc a b) | X14 b => X7 (addc a b) | X15 b => X8 (addc a b) end
  | X10 a => match y with E => x | X0 b => X10 (add a b) | X1 b => X11 (add a b) | X2 b => X12 (add a b) | X3 b => X13 (add a b) | X4 b => X14 (add a b) | X5 b => X15 (add a b) | X6 b => X0 (addc a b) | X7 b => X1 (addc a b) | X8 b => X2 (addc a b) | X9 b => X3 (addc a b) | X10 b => X4 (addc a b) | X11 b => X5 (addc a b) | X12 b => X6 (addc a b) | X13 b => X7 (addc a b) | X14 b => X8 (addc a b) | X15 b => X9 (addc a b) end
  | X11 a => match y with E => x | X0 b => X11 (add a b) | X1 b => X12 (add a b) | X2 b => X13 (add a b) | X3 b => X14 (add a b) | X4 b => X15 (add a b) | X5 b => X0 (addc a b) | X6 b => X1 (addc a b) | X7 b => X2 (addc a b) | X8 b => X3 (addc a b) | X9 b => X4 (addc a b) | X10 b => X5 (addc a b) | X11 b => X6 (addc a b) | X12 b => X7 (addc a b) | X13 b => X8 (addc a b) | X14 b => X9 (addc a b) | X15 b => X10 (addc a b) end
  | X12 a => match y with E => x | X0 b => X12 (add a b) | X1 b => X13 (add a b) | X2 b => X14 (add a b) | X3 b => X15 (add a b) | X4 b => X0 (addc a b) | X5 b => X1 (addc a b) | X6 b => X2 (addc a b) | X7 b => X3 (addc a b) | X8 b => X4 (addc a b) | X9 b => X5 (addc a b) | X10 b => X6 (addc a b) | X11 b => X7 (addc a b) | X12 b => X8 (addc a b) | X13 b => X9 (addc a b) | X14 b => X10 (addc a b) | X15 b => X11 (addc a b) end
  | X13 a => match y with E => x | X0 b => X13 (add a b) | X1 b => X14 (add a b) | X2 b => X15 (add a b) | X3 b => X0 (addc a b) | X4 b => X1 (addc a b) | X5 b => X2 (addc a b) | X6 b => X3 (addc a b) | X7 b => X4 (addc a b) | X8 b => X5 (addc a b) | X9 b => X6 (addc a b) | X10 b => X7 (addc a b) | X11 b => X8 (addc a b) | X12 b => X9 (addc a b) | X13 b => X10 (addc a b) | X14 b => X11 (addc a b) | X15 b => X12 (addc a b) end
  | X14 a => match y with E => x | X0 b => X14 (add a b) | X1 b => X15 (add a b) | X2 b => X0 (addc a b) | X3 b => X1 (addc a b) | X4 b => X2 (addc a b) | X5 b => X3 (addc a b) | X6 b => X4 (addc a b) | X7 b => X5 (addc a b) | X8 b => X6 (addc a b) | X9 b => X7 (addc a b) | X10 b => X8 (addc a b) | X11 b => X9 (addc a b) | X12 b => X10 (addc a b) | X13 b => X11 (addc a b) | X14 b => X12 (addc a b) | X15 b => X13 (addc a b) end
  | X15 a => match y with E => x | X0 b => X15 (add a b) | X1 b => X0 (addc a b) | X2 b => X1 (addc a b) | X3 b => X2 (addc a b) | X4 b => X3 (addc a b) | X5 b => X4 (addc a b) | X6 b => X5 (addc a b) | X7 b => X6 (addc a b) | X8 b => X7 (addc a b) | X9 b => X8 (addc a b) | X10 b => X9 (addc a b) | X11 b => X10 (addc a b) | X12 b => X11 (addc a b) | X13 b => X12 (addc a b) | X14 b => X13 (addc a b) | X15 b => X14 (addc a b) end
  end
with addc (x y : num) {struct x} : num :=
  match x with
  | E => succ y
  | X0 a => match y with E => succ x | X0 b => X1 (add a b) | X1 b => X2 (add a b) | X2 b => X3 (add a b) | X3 b => X4 (add a b) | X4 b => X5 (add a b) | X5 b => X6 (add a b) | X6 b => X7 (add a b) | X7 b => X8 (add a b) | X8 b => X9 (add a b) | X9 b => X10 (add a b) | X10 b => X11 (add a b) | X11 b => X12 (add a b) | X12 b => X13 (add a b) | X13 b => X14 (add a b) | X14 b => X15 (add a b) | X15 b => X0 (addc a b) end
  | X1 a => match y with E => succ x | X0 b => X2 (add a b) | X1 b => X3 (add a b) | X2 b => X4 (add a b) | X3 b => X5 (add a b) | X4 b => X6 (add a b) | X5 b => X7 (add a b) | X6 b => X8 (add a b) | X7 b => X9 (add a b) | X8 b => X10 (add a b) | X9 b => X11 (add a b) | X10 b => X12 (add a b) | X11 b => X13 (add a b) | X12 b => X14 (add a b) | X13 b => X15 (add a b) | X14 b => X0 (addc a b) | X15 b => X1 (addc a b) end
  | X2 a => match y with E => succ x | X0 b => X3 (add a b) | X1 b => X4 (add a b) | X2 b => X5 (add a b) | X3 b => X6 (add a b) | X4 b => X7 (add a b) | X5 b => X8 (add a b) | X6 b => X9 (add a b) | X7 b => X10 (add a b) | X8 b => X11 (add a b) | X9 b => X12 (add a b) | X10 b => X13 (add a b) | X11 b => X14 (add a b) | X12 b => X15 (add a b) | X13 b => X0 (addc a b) | X14 b => X1 (addc a b) | X15 b => X2 (addc a b) end
  | X3 a => match y with E => succ x | X0 b => X4 (add a b) | X1 b => X5 (add a b) | X2 b => X6 (add a b) | X3 b => X7 (add a b) | X4 b => X8 (add a b) | X5 b => X9 (add a b) | X6 b => X10 (add a b) | X7 b => X11 (add a b) | X8 b => X12 (add a b) | X9 b => X13 (add a b) | X10 b => X14 (add a b) | X11 b => X15 (add a b) | X12 b => X0 (addc a b) | X13 b => X1 (addc a b) | X14 b => X2 (addc a b) | X15 b => X3 (addc a b) end
  | X4 a => match y with E => succ x | X0 b => X5 (add a b) | X1 b => X6 (add a b) | X2 b => X7 (add a b) | X3 b => X8 (add a b) | X4 b => X9 (add a b) | X5 b => X10 (add a b) | X6 b => X11 (add a b) | X7 b => X12 (add a b) | X8 b => X13 (add a b) | X9 b => X14 (add a b) | X10 b => X15 (add a b) | X11 b => X0 (addc a b) | X12 b => X1 (addc a b) | X13 b => X2 (addc a b) | X14 b => X3 (addc a b) | X15 b => X4 (addc a b) end
  | X5 a => match y with E => succ x | X0 b => X6 (add a b) | X1 b => X7 (add a b) | X2 b => X8 (add a b) | X3 b => X9 (add a b) | X4 b => X10 (add a b) | X5 b => X11 (add a b) | X6 b => X12 (add a b) | X7 b => X13 (add a b) | X8 b => X14 (add a b) | X9 b => X15 (add a b) | X10 b => X0 (addc a b) | X11 b => X1 (addc a b) | X12 b => X2 (addc a b) | X13 b => X3 (addc a b) | X14 b => X4 (addc a b) | X15 b => X5 (addc a b) end
  | X6 a => match y with E => succ x | X0 b => X7 (add a b) | X1 b => X8 (add a b) | X2 b => X9 (add a b) | X3 b => X10 (add a b) | X4 b => X11 (add a b) | X5 b => X12 (add a b) | X6 b => X13 (add a b) | X7 b => X14 (add a b) | X8 b => X15 (add a b) | X9 b => X0 (addc a b) | X10 b => X1 (addc a b) | X11 b => X2 (addc a b) | X12 b => X3 (addc a b) | X13 b => X4 (addc a b) | X14 b => X5 (addc a b) | X15 b => X6 (addc a b) end
  | X7 a => match y with E => succ x | X0 b => X8 (add a b) | X1 b => X9 (add a b) | X2 b => X10 (add a b) | X3 b => X11 (add a b) | X4 b => X12 (add a b) | X5 b => X13 (add a b) | X6 b => X14 (add a b) | X7 b => X15 (add a b) | X8 b => X0 (addc a b) | X9 b => X1 (addc a b) | X10 b => X2 (addc a b) | X11 b => X3 (addc a b) | X12 b => X4 (addc a b) | X13 b => X5 (addc a b) | X14 b => X6 (addc a b) | X15 b => X7 (addc a b) end
  | X8 a => match y with E => succ x | X0 b => X9 (add a b) | X1 b => X10 (add a b) | X2 b => X11 (add a b) | X3 b => X12 (add a b) | X4 b => X13 (add a b) | X5 b => X14 (add a b) | X6 b => X15 (add a b) | X7 b => X0 (addc a b) | X8 b => X1 (addc a b) | X9 b => X2 (addc a b) | X10 b => X3 (addc a b) | X11 b => X4 (addc a b) | X12 b => X5 (addc a b) | X13 b => X6 (addc a b) | X14 b => X7 (addc a b) | X15 b => X8 (addc a b) end
  | X9 a => match y with E => succ x | X0 b => X10 (add a b) | X1 b => X11 (add a b) | X2 b => X12 (add a b) | X3 b => X13 (add a b) | X4 b => X14 (add a b) | X5 b => X15 (add a b) | X6 b => X0 (addc a b) | X7 b => X1 (addc a b) | X8 b => X2 (addc a b) | X9 b => X3 (addc a b) | X10 b => X4 (addc a b) | X11 b => X5 (addc a b) | X12 b => X6 (addc a b) | X13 b => X7 (addc a b) | X14 b => X8 (addc a b) | X15 b => X9 (addc a b) end
  | X10 a => match y with E => succ x | X0 b => X11 (add a b) | X1 b => X12 (add a b) | X2 b => X13 (add a b) | X3 b => X14 (add a b) | X4 b => X15 (add a b) | X5 b => X0 (addc a b) | X6 b => X1 (addc a b) | X7 b => X2 (addc a b) | X8 b => X3 (addc a b) | X9 b => X4 (addc a b) | X10 b => X5 (addc a b) | X11 b => X6 (addc a b) | X12 b => X7 (addc a b) | X13 b => X8 (addc a b) | X14 b => X9 (addc a b) | X15 b => X10 (addc a b) end
  | X11 a => match y with E => succ x | X0 b => X12 (add a b) | X1 b => X13 (add a b) | X2 b => X14 (add a b) | X3 b => X15 (add a b) | X4 b => X0 (addc a b) | X5 b => X1 (addc a b) | X6 b => X2 (addc a b) | X7 b => X3 (addc a b) | X8 b => X4 (addc a b) | X9 b => X5 (addc a b) | X10 b => X6 (addc a b) | X11 b => X7 (addc a b) | X12 b => X8 (addc a b) | X13 b => X9 (addc a b) | X14 b => X10 (addc a b) | X15 b => X11 (addc a b) end
  | X12 a => match y with E => succ x | X0 b => X13 (add a b) | X1 b => X14 (add a b) | X2 b => X15 (add a b) | X3 b => X0 (addc a b) | X4 b => X1 (addc a b) | X5 b => X2 (addc a b) | X6 b => X3 (addc a b) | X7 b => X4 (addc a b) | X8 b => X5 (addc a b) | X9 b => X6 (addc a b) | X10 b => X7 (addc a b) | X11 b => X8 (addc a b) | X12 b => X9 (addc a b) | X13 b => X10 (addc a b) | X14 b => X11 (addc a b) | X15 b => X12 (addc a b) end
  | X13 a => match y with E => succ x | X0 b => X14 (add a b) | X1 b => X15 (add a b) | X2 b => X0 (addc a b) | X3 b => X1 (addc a b) | X4 b => X2 (addc a b) | X5 b => X3 (addc a b) | X6 b => X4 (addc a b) | X7 b => X5 (addc a b) | X8 b => X6 (addc a b) | X9 b => X7 (addc a b) | X10 b => X8 (addc a b) | X11 b => X9 (addc a b) | X12 b => X10 (addc a b) | X13 b => X11 (addc a b) | X14 b => X12 (addc a b) | X15 b => X13 (addc a b) end
  | X14 a => match y with E => succ x | X0 b => X15 (add a b) | X1 b => X0 (addc a b) | X2 b => X1 (addc a b) | X3 b => X2 (addc a b) | X4 b => X3 (addc a b) | X5 b => X4 (addc a b) | X6 b => X5 (addc a b) | X7 b => X6 (addc a b) | X8 b => X7 (addc a b) | X9 b => X8 (addc a b) | X10 b => X9 (addc a b) | X11 b => X10 (addc a b) | X12 b => X11 (addc a b) | X13 b => X12 (addc a b) | X14 b => X13 (addc a b) | X15 b => X14 (addc a b) end
  | X15 a => match y with E => succ x | X0 b => X0 (addc a b) | X1 b => X1 (addc a b) | X2 b => X2 (addc a b) | X3 b => X3 (addc a b) | X4 b => X4 (addc a b) | X5 b => X5 (addc a b) | X6 b => X6 (addc a b) | X7 b => X7 (addc a b) | X8 b => X8 (addc a b) | X9 b => X9 (addc a b) | X10 b => X10 (addc a b) | X11 b => X11 (addc a b) | X12 b => X12 (addc a b) | X13 b => X13 (addc a b) | X14 b => X14 (addc a b) | X15 b => X15 (addc a b) end
  end.

Lemma add_both x : forall y, val (add x y) = val x + val y /\ val (addc x y) = val x + val y + 1.
Proof.
  induction x as [|a IH|a IH|a IH|a IH|a IH|a IH|a IH|a IH|a IH|a IH|a IH|a IH|a IH|a IH|a IH|a IH];
    [intros y; cbn [add addc val]; rewrite succ_val; lia|..];
    (intros [|b|b|b|b|b|b|b|b|b|b|b|b|b|b|b|b];
     [cbn [add addc val]; rewrite succ_val; cbn [val]; lia|..];
     destruct (IH b) as [H1 H2]; cbn [add addc val]; rewrite ?H1, ?H2; lia).
Qed.
Lemma add_val x y : val (add x y) = val x + val y. Proof. exact (proj1 (add_both x y)). Qed.

Section Window.
Context (m1 m2 m3 m4 m5 m6 m7 m8 m9 m10 m11 m12 m13 m14 m15 : num).
(** [mi] is i times the multiplicand. *)
Fixpoint wm (x : num) : num :=
  match x with
  | E => E
  | X0 x => X0 (wm x)
  | X1 x => add m1 (X0 (wm x))
  | X2 x => add m2 (X0 (wm x))
  | X3 x => add m3 (X0 (wm x))
  | X4 x => add m4 (X0 (wm x))
  | X5 x => add m5 (X0 (wm x))
  | X6 x => add m6 (X0 (wm x))
  | X7 x => add m7 (X0 (wm x))
  | X8 x => add m8 (X0 (wm x))
  | X9 x => add m9 (X0 (wm x))
  | X10 x => add m10 (X0 (wm x))
  | X11 x => add m11 (X0 (wm x))
  | X12 x => add m12 (X0 (wm x))
  | X13 x => add m13 (X0 (wm x))
  | X14 x => add m14 (X0 (wm x))
  | X15 x => add m15 (X0 (wm x))
  end.
End Window.

Definition mul (x y : num) : num :=
  let y2 := add y y in let y3 := add y2 y in let y4 := add y2 y2 in let y5 := add y4 y in
  let y6 := add y3 y3 in let y7 := add y6 y in let y8 := add y4 y4 in let y9 := add y8 y in
  let y10 := add y5 y5 in let y11 := add y10 y in let y12 := add y6 y6 in let y13 := add y12 y in
  let y14 := add y7 y7 in let y15 := add y14 y in
  wm y y2 y3 y4 y5 y6 y7 y8 y9 y10 y11 y12 y13 y14 y15 x.

Lemma wm_val m1 m2 m3 m4 m5 m6 m7 m8 m9 m10 m11 m12 m13 m14 m15 y :
  val m1 = 1 * val y ->
  val m2 = 2 * val y ->
  val m3 = 3 * val y ->
  val m4 = 4 * val y ->
  val m5 = 5 * val y ->
  val m6 = 6 * val y ->
  val m7 = 7 * val y ->
  val m8 = 8 * val y ->
  val m9 = 9 * val y ->
  val m10 = 10 * val y ->
  val m11 = 11 * val y ->
  val m12 = 12 * val y ->
  val m13 = 13 * val y ->
  val m14 = 14 * val y ->
  val m15 = 15 * val y ->
  forall x, val (wm m1 m2 m3 m4 m5 m6 m7 m8 m9 m10 m11 m12 m13 m14 m15 x) = val x * val y.
Proof. intros. induction x; cbn [wm]; rewrite ?add_val; cbn [val]; lia. Qed.

Lemma mul_val x y : val (mul x y) = val x * val y.
Proof. unfold mul. cbv zeta. apply wm_val; rewrite ?add_val; lia. Qed.

Fixpoint is_zero (x : num) : bool :=
  match x with E => true | X0 x => is_zero x | _ => false end.
Lemma is_zero_val x : is_zero x = true -> val x = 0.
Proof. induction x; cbn [is_zero val]; intros H; try discriminate; [reflexivity|]. rewrite (IHx H). reflexivity. Qed.

Fixpoint eqb (x y : num) {struct x} : bool :=
  match x with
  | E => is_zero y
  | X0 a => match y with E => is_zero a | X0 b => eqb a b | _ => false end
  | X1 a => match y with X1 b => eqb a b | _ => false end
  | X2 a => match y with X2 b => eqb a b | _ => false end
  | X3 a => match y with X3 b => eqb a b | _ => false end
  | X4 a => match y with X4 b => eqb a b | _ => false end
  | X5 a => match y with X5 b => eqb a b | _ => false end
  | X6 a => match y with X6 b => eqb a b | _ => false end
  | X7 a => match y with X7 b => eqb a b | _ => false end
  | X8 a => match y with X8 b => eqb a b | _ => false end
  | X9 a => match y with X9 b => eqb a b | _ => false end
  | X10 a => match y with X10 b => eqb a b | _ => false end
  | X11 a => match y with X11 b => eqb a b | _ => false end
  | X12 a => match y with X12 b => eqb a b | _ => false end
  | X13 a => match y with X13 b => eqb a b | _ => false end
  | X14 a => match y with X14 b => eqb a b | _ => false end
  | X15 a => match y with X15 b => eqb a b | _ => false end
  end.
Lemma eqb_val x : forall y, eqb x y = true -> val x = val y.
Proof.
  induction x as [|a IH|a IH|a IH|a IH|a IH|a IH|a IH|a IH|a IH|a IH|a IH|a IH|a IH|a IH|a IH|a IH]; intros y H;
    [symmetry; exact (is_zero_val y H)|..];
    (destruct y; cbn [eqb] in H; try discriminate H; cbn [val];
     first [rewrite (IH _ H); reflexivity | rewrite (is_zero_val _ H); reflexivity]).
Qed.

(** From binary. *)
Fixpoint of_pos (p : positive) : num :=
  match p with
  | xH => X1 E
  | xO xH => X2 E
  | xI xH => X3 E
  | xO (xO xH) => X4 E
  | xI (xO xH) => X5 E
  | xO (xI xH) => X6 E
  | xI (xI xH) => X7 E
  | xO (xO (xO xH)) => X8 E
  | xI (xO (xO xH)) => X9 E
  | xO (xI (xO xH)) => X10 E
  | xI (xI (xO xH)) => X11 E
  | xO (xO (xI xH)) => X12 E
  | xI (xO (xI xH)) => X13 E
  | xO (xI (xI xH)) => X14 E
  | xI (xI (xI xH)) => X15 E
  | xO (xO (xO (xO p))) => X0 (of_pos p)
  | xI (xO (xO (xO p))) => X1 (of_pos p)
  | xO (xI (xO (xO p))) => X2 (of_pos p)
  | xI (xI (xO (xO p))) => X3 (of_pos p)
  | xO (xO (xI (xO p))) => X4 (of_pos p)
  | xI (xO (xI (xO p))) => X5 (of_pos p)
  | xO (xI (xI (xO p))) => X6 (of_pos p)
  | xI (xI (xI (xO p))) => X7 (of_pos p)
  | xO (xO (xO (xI p))) => X8 (of_pos p)
  | xI (xO (xO (xI p))) => X9 (of_pos p)
  | xO (xI (xO (xI p))) => X10 (of_pos p)
  | xI (xI (xO (xI p))) => X11 (of_pos p)
  | xO (xO (xI (xI p))) => X12 (of_pos p)
  | xI (xO (xI (xI p))) => X13 (of_pos p)
  | xO (xI (xI (xI p))) => X14 (of_pos p)
  | xI (xI (xI (xI p))) => X15 (of_pos p)
  end.
Lemma of_pos_val : forall p, val (of_pos p) = Zpos p.
Proof.
  fix IH 1. intros [[[[x|x|]|[x|x|]|]|[[x|x|]|[x|x|]|]|]|[[[x|x|]|[x|x|]|]|[[x|x|]|[x|x|]|]|]|];
  cbn [of_pos val]; try rewrite (IH x); lia.
Qed.
(** Negative numbers become zero. *)
Definition ofZ (z : Z) : num := match z with Zpos p => of_pos p | _ => E end.
Lemma ofZ_val z : 0 <= z -> val (ofZ z) = z.
Proof. destruct z as [|p|p]; intros H; [reflexivity|apply of_pos_val|lia]. Qed.

(** ** Moduli *)
Fixpoint shift (k : nat) (x : num) : num := match k with O => x | S k => X0 (shift k x) end.
Lemma shift_val k x : val (shift k x) = 16 ^ Z.of_nat k * val x.
Proof.
  induction k as [|k IH]; [cbn [shift Z.of_nat]; lia|]. cbn [shift val]. rewrite IH, Nat2Z.inj_succ, Z.pow_succ_r by lia. ring.
Qed.

(** The sum of d 16^k over the first list minus that over the second. *)
Definition modul : Set := list (nat * Z) * list (nat * Z).
Definition lin (l : list (nat * Z)) (q : num) : num :=
  fold_right (fun '(k, d) acc => add (shift k (mul (ofZ d) q)) acc) E l.
Definition lval (l : list (nat * Z)) : Z := fold_right (fun '(k, d) acc => 16 ^ Z.of_nat k * d + acc) 0 l.
Definition modulus_is (m : modul) (n : Z) : bool :=
  forallb (fun '(_, d) => 0 <=? d) (fst m) && forallb (fun '(_, d) => 0 <=? d) (snd m) &&
  (lval (fst m) - lval (snd m) =? n).

Lemma lin_val l q : forallb (fun '(_, d) => 0 <=? d) l = true -> val (lin l q) = lval l * val q.
Proof.
  induction l as [|[k d] l IH]; cbn [forallb lin lval fold_right]; intros H; [reflexivity|].
  apply andb_prop in H as [H1 H2]. apply Z.leb_le in H1. fold (lin l q). fold (lval l).
  rewrite add_val, shift_val, mul_val, (ofZ_val d H1), (IH H2). ring.
Qed.

(** [x = y + q n]; [q] may be negative. *)
Definition congr (m : modul) (x y : num) (q : Z) : bool :=
  match q with
  | Z0 => eqb x y
  | Zpos q => let q := of_pos q in eqb (add x (lin (snd m) q)) (add y (lin (fst m) q))
  | Zneg q => let q := of_pos q in eqb (add x (lin (fst m) q)) (add y (lin (snd m) q))
  end.

Lemma congr_spec m n x y q : modulus_is m n = true -> congr m x y q = true -> val x = val y + q * n.
Proof.
  intros Hm H. apply andb_prop in Hm as [Hm H3]. apply andb_prop in Hm as [H1 H2]. apply Z.eqb_eq in H3.
  destruct q as [|q|q]; cbn [congr] in H; apply eqb_val in H; [lia|..];
    rewrite !add_val, !lin_val, !of_pos_val in H by assumption; nia.
Qed.
