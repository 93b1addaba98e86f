#!/usr/bin/env python3
"""Writes rocq/theories/HexNum.v (the tables of 16 x 16 cases are generated)."""
R=range(16)
s='''(** * HexNum: natural numbers in base sixteen, with the digit in the constructor.

    Library mathematics; models no code.  Used by the checkers of numerical
    certificates, because the kernel evaluates addition on it about four times
    as fast as on binary numbers.  Written by /verif/tools/gen_hexnum.py. *)
From Coq Require Import ZArith List Lia.
Import ListNotations.
Open Scope Z_scope.

(** Least significant digit first. *)
Inductive num : Set :=
| E
'''+'\n'.join('| X%d (n : num)'%k for k in R)+'''.

Fixpoint val (x : num) : Z :=
  match x with
  | E => 0
'''+'\n'.join('  | X%d n => %d + 16 * val n'%(k,k) for k in R)+'''
  end.

Lemma val_nonneg x : 0 <= val x.
Proof. induction x; cbn [val]; lia. Qed.

Fixpoint succ (x : num) : num :=
  match x with
  | E => X1 E
'''+'\n'.join('  | X%d n => %s'%(k,'X%d n'%(k+1) if k<15 else 'X0 (succ n)') for k in R)+'''
  end.

Lemma succ_val x : val (succ x) = val x + 1.
Proof. induction x; cbn [val succ]; lia. Qed.

Fixpoint add (x y : num) {struct x} : num :=
  match x with
  | E => y
'''
def tab(c):
    o=''
    for k in R:
        o+='  | X%d a => match y with E => %s'%(k,'x' if c==0 else 'succ x')
        for j in R:
            t=k+j+c
            o+=' | X%d b => %s'%(j,('X%d (add a b)'%t) if t<16 else 'X%d (addc a b)'%(t-16))
        o+=' end\n'
    return o
s+=tab(0)+'''  end
with addc (x y : num) {struct x} : num :=
  match x with
  | E => succ y
'''+tab(1)+'''  end.

Lemma add_both x : forall y, val (add x y) = val x + val y /\\ val (addc x y) = val x + val y + 1.
Proof.
  induction x as [|'''+'|'.join('a IH' for k in R)+'''];
    [intros y; cbn [add addc val]; rewrite succ_val; lia|..];
    (intros [|'''+'|'.join('b' for k in R)+'''];
     [cbn [add addc val]; rewrite succ_val; cbn [val]; lia|..];
     destruct (IH b) as [H1 H2]; cbn [add addc val]; rewrite ?H1, ?H2; lia).
Qed.
Lemma add_val x y : val (add x y) = val x + val y. Proof. exact (proj1 (add_both x y)). Qed.

Section Window.
Context ('''+' '.join('m%d'%k for k in R[1:])+''' : num).
(** [mi] is i times the multiplicand. *)
Fixpoint wm (x : num) : num :=
  match x with
  | E => E
  | X0 x => X0 (wm x)
'''+'\n'.join('  | X%d x => add m%d (X0 (wm x))'%(k,k) for k in R[1:])+'''
  end.
End Window.

Definition mul (x y : num) : num :=
  let y2 := add y y in let y3 := add y2 y in let y4 := add y2 y2 in let y5 := add y4 y in
  let y6 := add y3 y3 in let y7 := add y6 y in let y8 := add y4 y4 in let y9 := add y8 y in
  let y10 := add y5 y5 in let y11 := add y10 y in let y12 := add y6 y6 in let y13 := add y12 y in
  let y14 := add y7 y7 in let y15 := add y14 y in
  wm y y2 y3 y4 y5 y6 y7 y8 y9 y10 y11 y12 y13 y14 y15 x.

Lemma wm_val '''+' '.join('m%d'%k for k in R[1:])+''' y :
'''+'\n'.join('  val m%d = %d * val y ->'%(k,k) for k in R[1:])+'''
  forall x, val (wm '''+' '.join('m%d'%k for k in R[1:])+''' x) = val x * val y.
Proof. intros. induction x; cbn [wm]; rewrite ?add_val; cbn [val]; lia. Qed.

Lemma mul_val x y : val (mul x y) = val x * val y.
Proof. unfold mul. cbv zeta. apply wm_val; rewrite ?add_val; lia. Qed.

Fixpoint is_zero (x : num) : bool :=
  match x with E => true | X0 x => is_zero x | _ => false end.
Lemma is_zero_val x : is_zero x = true -> val x = 0.
Proof. induction x; cbn [is_zero val]; intros H; try discriminate; [reflexivity|]. rewrite (IHx H). reflexivity. Qed.

Fixpoint eqb (x y : num) {struct x} : bool :=
  match x with
  | E => is_zero y
  | X0 a => match y with E => is_zero a | X0 b => eqb a b | _ => false end
'''+'\n'.join('  | X%d a => match y with X%d b => eqb a b | _ => false end'%(k,k) for k in R[1:])+'''
  end.
Lemma eqb_val x : forall y, eqb x y = true -> val x = val y.
Proof.
  induction x as [|'''+'|'.join('a IH' for k in R)+''']; intros y H;
    [symmetry; exact (is_zero_val y H)|..];
    (destruct y; cbn [eqb] in H; try discriminate H; cbn [val];
     first [rewrite (IH _ H); reflexivity | rewrite (is_zero_val _ H); reflexivity]).
Qed.

(** From binary. *)
Fixpoint of_pos (p : positive) : num :=
  match p with
  | xH => X1 E
'''
def pat(bits,last): # bits lsb first
    t=last
    for b in reversed(bits): t=('xI ' if b else 'xO ')+('(%s)'%t if ' ' in t else t)
    return t
for l in (1,2,3):
    for v in range(2**l):
        bits=[(v>>i)&1 for i in range(l)]
        s+='  | %s => X%d E\n'%(pat(bits,'xH'),v+2**l)
for v in range(16):
    bits=[(v>>i)&1 for i in range(4)]
    s+='  | %s => X%d (of_pos p)\n'%(pat(bits,'p'),v)
s+='''  end.
Lemma of_pos_val : forall p, val (of_pos p) = Zpos p.
Proof.
  fix IH 1. intros [[[[x|x|]|[x|x|]|]|[[x|x|]|[x|x|]|]|]|[[[x|x|]|[x|x|]|]|[[x|x|]|[x|x|]|]|]|];
  cbn [of_pos val]; try rewrite (IH x); lia.
Qed.
(** Negative numbers become zero. *)
Definition ofZ (z : Z) : num := match z with Zpos p => of_pos p | _ => E end.
Lemma ofZ_val z : 0 <= z -> val (ofZ z) = z.
Proof. destruct z as [|p|p]; intros H; [reflexivity|apply of_pos_val|lia]. Qed.

(** ** Moduli *)
Fixpoint shift (k : nat) (x : num) : num := match k with O => x | S k => X0 (shift k x) end.
Lemma shift_val k x : val (shift k x) = 16 ^ Z.of_nat k * val x.
Proof.
  induction k as [|k IH]; [cbn [shift Z.of_nat]; lia|]. cbn [shift val]. rewrite IH, Nat2Z.inj_succ, Z.pow_succ_r by lia. ring.
Qed.

(** The sum of d 16^k over the first list minus that over the second. *)
Definition modul : Set := list (nat * Z) * list (nat * Z).
Definition lin (l : list (nat * Z)) (q : num) : num :=
  fold_right (fun '(k, d) acc => add (shift k (mul (ofZ d) q)) acc) E l.
Definition lval (l : list (nat * Z)) : Z := fold_right (fun '(k, d) acc => 16 ^ Z.of_nat k * d + acc) 0 l.
Definition modulus_is (m : modul) (n : Z) : bool :=
  forallb (fun '(_, d) => 0 <=? d) (fst m) && forallb (fun '(_, d) => 0 <=? d) (snd m) &&
  (lval (fst m) - lval (snd m) =? n).

Lemma lin_val l q : forallb (fun '(_, d) => 0 <=? d) l = true -> val (lin l q) = lval l * val q.
Proof.
  induction l as [|[k d] l IH]; cbn [forallb lin lval fold_right]; intros H; [reflexivity|].
  apply andb_prop in H as [H1 H2]. apply Z.leb_le in H1. fold (lin l q). fold (lval l).
  rewrite add_val, shift_val, mul_val, (ofZ_val d H1), (IH H2). ring.
Qed.

(** [x = y + q n]; [q] may be negative. *)
Definition congr (m : modul) (x y : num) (q : Z) : bool :=
  match q with
  | Z0 => eqb x y
  | Zpos q => let q := of_pos q in eqb (add x (lin (snd m) q)) (add y (lin (fst m) q))
  | Zneg q => let q := of_pos q in eqb (add x (lin (fst m) q)) (add y (lin (snd m) q))
  end.

Lemma congr_spec m n x y q : modulus_is m n = true -> congr m x y q = true -> val x = val y + q * n.
Proof.
  intros Hm H. apply andb_prop in Hm as [Hm H3]. apply andb_prop in Hm as [H1 H2]. apply Z.eqb_eq in H3.
  destruct q as [|q|q]; cbn [congr] in H; apply eqb_val in H; [lia|..];
    rewrite !add_val, !lin_val, !of_pos_val in H by assumption; nia.
Qed.
'''
open('/verif/rocq/theories/HexNum.v','w').write(s)
